(** Proofs about TfEmtfModel. *)
From Coq Require Import QArith Qabs Lqa.
From Verif Require Import PyBase PyText TfModel TfSpec TfProofs TfEmtfModel TfEmtfSpec.
From Verif Require EmtfModel EmtfSpec.
Local Open Scope nat_scope.

Section Conversion.
Variable root : Q -> Q.
Variable spr : cpair -> cpair -> cpair.
Notation num := (cells spr).
Notation tf := (TfModel.tf num).
Notation entry := (entry num).
Notation there := (there num).
Notation arr := (nat -> nat -> nat -> cpair).

(** * To EMTF XML *)
(** The array holds the entries of [v] for the channels. *)
Definition holds (t : tf) (v : var) (outs ins : list chan) (g : cpair -> cpair) (a : arr) : Prop :=
  forall p o i r c, at_place chan_dec o outs = Some r -> at_place chan_dec i ins = Some c -> a p r c = g (entry t v p o i).
Lemma nth_place ns o l r : at_place chan_dec o l = Some r -> nth r (map (name ns) l) [] = name ns o.
Proof. intros H. apply at_place_nth in H. apply nth_error_nth. apply map_nth_error. exact H. Qed.
Lemma array_holds t a l outs ins g : shows num t a l -> incl outs (rows a) -> incl ins (cols a) ->
  holds t (part a) outs ins g (fun p i j => g (array_of spr l (map (name (t_names num t)) outs) (map (name (t_names num t)) ins) p i j)).
Proof.
  intros (_ & _ & _ & S) I J p o i r c R C. unfold array_of. rewrite (nth_place _ o outs r R), (nth_place _ i ins c C). rewrite S; [reflexivity|apply I; eapply at_place_In'; exact R|apply J; eapply at_place_In'; exact C].
Qed.
Definition emtf_of (t : tf) (d : emtf) : Prop :=
  EmtfModel.e_period d = periods num t /\
  (there AImp t -> exists z v, EmtfModel.e_arr d EmtfModel.KZ = Some z /\ EmtfModel.e_arr d EmtfModel.KZVar = Some v /\ holds t VTf [Ex; Ey] [Hx; Hy] (fun x => x) z /\ holds t VErr [Ex; Ey] [Hx; Hy] square v) /\
  (~ there AImp t -> EmtfModel.e_arr d EmtfModel.KZ = None /\ EmtfModel.e_arr d EmtfModel.KZVar = None) /\
  (there ATip t -> exists z v, EmtfModel.e_arr d EmtfModel.KT = Some z /\ EmtfModel.e_arr d EmtfModel.KTVar = Some v /\ holds t VTf [Hz] [Hx; Hy] (fun x => x) z /\ holds t VErr [Hz] [Hx; Hy] square v) /\
  (~ there ATip t -> EmtfModel.e_arr d EmtfModel.KT = None /\ EmtfModel.e_arr d EmtfModel.KTVar = None) /\
  (both_covariances spr t -> exists s r w, EmtfModel.e_arr d EmtfModel.KZInv = Some s /\ EmtfModel.e_arr d EmtfModel.KTInv = Some s /\ EmtfModel.e_arr d EmtfModel.KZRes = Some r /\ EmtfModel.e_arr d EmtfModel.KTRes = Some w /\
     holds t VIsp [Hx; Hy] [Hx; Hy] (fun x => x) s /\ holds t VRes [Ex; Ey] [Ex; Ey] (fun x => x) r /\ holds t VRes [Hz] [Hz] (fun x => x) w) /\
  (~ both_covariances spr t -> forall k, In k [EmtfModel.KZInv; EmtfModel.KTInv; EmtfModel.KZRes; EmtfModel.KTRes] -> EmtfModel.e_arr d k = None).
Lemma there_lift a b t : base a = base b -> there a t -> there b t.
Proof. unfold TfSpec.there. intros ->. exact (fun x => x). Qed.
Lemma to_emtf_ok t : consistent num t -> exists d, to_emtf spr t = Ok d /\ emtf_of t d.
Proof.
  intros C. unfold to_emtf. set (ns := t_names num t).
  change (ex_ey ns) with (map (name ns) [Ex; Ey]). change (hx_hy ns) with (map (name ns) [Hx; Hy]). change [n_hz ns] with (map (name ns) [Hz]).
  destruct (has_spec num AImp t C) as (hi & Ei & Hi). change (has num AImp t) with (has_impedance num t) in Ei. rewrite Ei. cbn [bindR].
  destruct (has_spec num ARes t C) as (hr & Er & Hr). change (has num ARes t) with (has_residual_covariance num t) in Er. rewrite Er. cbn [bindR].
  destruct (has_spec num AIsp t C) as (hs & Es & Hs). change (has num AIsp t) with (has_inverse_signal_power num t) in Es. rewrite Es. cbn [bindR].
  destruct (has_spec num ATip t C) as (ht & Et & Ht). change (has num ATip t) with (has_tipper num t) in Et. rewrite Et. cbn [bindR].
  assert (P : forall a e outs ins h, (h = true <-> there a t) -> base a = a -> base e = a -> rows e = rows a -> cols e = cols a -> incl outs (rows a) -> incl ins (cols a) ->
    exists zs, (if h then bindR (get num a t) (fun z => bindR (get num e t) (fun e => pair_of spr z e (map (name ns) outs) (map (name ns) ins))) else Ok (None, None)) = Ok zs /\
      (h = true -> exists z v, zs = (Some z, Some v) /\ holds t (part a) outs ins (fun x => x) z /\ holds t (part e) outs ins square v) /\ (h = false -> zs = (None, None))).
  { intros a e outs ins h H Ba Be Re Ce IO II. destruct h; [|exists (None, None); repeat split; discriminate].
    destruct (get_spec num a t C) as [G _]. destruct (get_spec num e t C) as [G' _].
    assert (TA : there a t) by (apply H; reflexivity). destruct (G TA) as (l & El & Sl). destruct (G' (there_lift a e t ltac:(congruence) TA)) as (l' & El' & Sl').
    rewrite El, El'. cbn [bindR pair_of]. eexists. split; [reflexivity|]. split; [|discriminate]. intros _. eexists _, _. split; [reflexivity|]. split.
    - apply (array_holds t a l outs ins (fun x => x) Sl IO II).
    - apply (array_holds t e l' outs ins square Sl'); rewrite ?Re, ?Ce; assumption. }
  destruct (P AImp AImpErr [Ex; Ey] [Hx; Hy] hi Hi eq_refl eq_refl eq_refl eq_refl (incl_refl _) (incl_refl _)) as (zs & Ez & Z1 & Z2). rewrite Ez. cbn [bindR].
  destruct (P ATip ATipErr [Hz] [Hx; Hy] ht Ht eq_refl eq_refl eq_refl eq_refl (incl_refl _) (incl_refl _)) as (ts & Et' & T1 & T2). rewrite Et'.
  assert (HC : (hr && hs)%bool = true <-> both_covariances spr t) by (unfold both_covariances; rewrite andb_true_iff, Hr, Hs; reflexivity).
  assert (EC : (if hr then Ok hs else Ok false) = Ok (hr && hs)%bool) by (destruct hr; reflexivity). rewrite EC. cbn [bindR].
  assert (Q : exists cs, (if (hr && hs)%bool then bindR (get num AIsp t) (fun s => bindR (get num ARes t) (fun r => match s, r with
       | Some s, Some r => Ok (Some (array_of spr s (map (name ns) [Hx; Hy]) (map (name ns) [Hx; Hy])), Some (array_of spr r (map (name ns) [Ex; Ey]) (map (name ns) [Ex; Ey])), Some (array_of spr r (map (name ns) [Hz]) (map (name ns) [Hz])))
       | _, _ => Err AttributeError end)) else Ok (None, None, None)) = Ok cs /\
     ((hr && hs)%bool = true -> exists s r w, cs = (Some s, Some r, Some w) /\ holds t VIsp [Hx; Hy] [Hx; Hy] (fun x => x) s /\ holds t VRes [Ex; Ey] [Ex; Ey] (fun x => x) r /\ holds t VRes [Hz] [Hz] (fun x => x) w) /\
     ((hr && hs)%bool = false -> cs = (None, None, None))).
  { destruct (hr && hs)%bool; [|exists (None, None, None); repeat split; discriminate]. destruct (proj1 HC eq_refl) as [TR TS].
    destruct (get_spec num AIsp t C) as [G _]. destruct (get_spec num ARes t C) as [G' _]. destruct (G TS) as (s & Es' & Ss). destruct (G' TR) as (r & Er' & Sr). rewrite Es', Er'. cbn [bindR].
    eexists. split; [reflexivity|]. split; [|discriminate]. intros _. eexists _, _, _. split; [reflexivity|]. split; [|split].
    - apply (array_holds t AIsp s [Hx; Hy] [Hx; Hy] (fun x => x) Ss); apply incl_refl.
    - apply (array_holds t ARes r [Ex; Ey] [Ex; Ey] (fun x => x) Sr); intros x [<-|[<-|[]]]; cbn; auto.
    - apply (array_holds t ARes r [Hz] [Hz] (fun x => x) Sr); intros x [<-|[]]; cbn; auto. }
  destruct Q as (cs & Ec & C1 & C2). cbn [map] in *. rewrite Ec. cbn [bindR]. destruct cs as [[inv zres] tres]. eexists. split; [reflexivity|].
  unfold emtf_of. cbn [EmtfModel.e_period EmtfModel.e_arr]. split; [reflexivity|].
  split; [intros T; apply Hi in T; destruct (Z1 T) as (z & v & -> & A & B); exists z, v; repeat split; assumption|].
  split; [intros T; assert (hi = false) as F by (destruct hi; [exfalso; apply T, Hi; reflexivity|reflexivity]); rewrite (Z2 F); split; reflexivity|].
  split; [intros T; apply Ht in T; destruct (T1 T) as (z & v & -> & A & B); exists z, v; repeat split; assumption|].
  split; [intros T; assert (ht = false) as F by (destruct ht; [exfalso; apply T, Ht; reflexivity|reflexivity]); rewrite (T2 F); split; reflexivity|].
  split.
  - intros T. apply HC in T. destruct (C1 T) as (s & r & w & E & A & B & D). injection E as -> -> ->. exists s, r, w. repeat split; assumption.
  - intros T. assert ((hr && hs)%bool = false) as F by (destruct (hr && hs)%bool; [exfalso; apply T, HC; reflexivity|reflexivity]). specialize (C2 F). injection C2 as -> -> ->.
    intros k I. repeat (destruct I as [<-|I]; [reflexivity|]). destruct I.
Qed.

(** * From EMTF XML *)
Definition stepped (t t1 : tf) (v : var) (outs ins : list chan) (f : arr) : Prop :=
  consistent num t1 /\ t_names num t1 = t_names num t /\ periods num t1 = periods num t /\
  forall w p o i, entry t1 w p o i = if var_dec w v then match at_place chan_dec o outs, at_place chan_dec i ins with Some r, Some c => kept num v (f p r c) | _, _ => entry t w p o i end else entry t w p o i.
Lemma set_step a sh f t : consistent num t -> a <> ATfModel -> covariance a = false -> fits num t a sh ->
  exists t1, set num a (GArray num sh f) t = (t1, None) /\ stepped t t1 (part a) (rows a) (cols a) f.
Proof.
  intros C NM NC F. unfold set. rewrite (set_array num a sh f t C NM F). eexists. split; [destruct a; try discriminate NC; reflexivity|].
  split; [apply consistent_assign; exact C|]. split; [reflexivity|]. split; [reflexivity|]. intros w p o i. apply assign_entry. exact C.
Qed.
Lemma put_step v outs ins sh f t : consistent num t -> hd 0 sh = length (periods num t) ->
  exists t1, put spr v (map (name (t_names num t)) outs) (map (name (t_names num t)) ins) (GArray num sh f) t = (t1, None) /\ stepped t t1 v outs ins f.
Proof.
  intros C H. unfold put. rewrite located_names by apply C. change (periods num t) with (d_periods num (t_data num t)) in H. rewrite H, Nat.eqb_refl. eexists. split; [reflexivity|].
  split; [apply consistent_assign; exact C|]. split; [reflexivity|]. split; [reflexivity|]. intros w p o i. apply assign_entry. exact C.
Qed.
Lemma step_in t t1 v outs ins f : stepped t t1 v outs ins f -> forall p o i r c, at_place chan_dec o outs = Some r -> at_place chan_dec i ins = Some c -> entry t1 v p o i = kept num v (f p r c).
Proof. intros (_ & _ & _ & V) p o i r c R C. rewrite V, R, C. destruct (var_dec v v); [reflexivity|congruence]. Qed.
Lemma step_other t t1 v outs ins f : stepped t t1 v outs ins f -> forall w p o i, w <> v -> entry t1 w p o i = entry t w p o i.
Proof. intros (_ & _ & _ & V) w p o i N. rewrite V. destruct (var_dec w v); [contradiction|reflexivity]. Qed.
Lemma step_out t t1 v outs ins f : stepped t t1 v outs ins f -> forall p o i, at_place chan_dec o outs = None \/ at_place chan_dec i ins = None -> entry t1 v p o i = entry t v p o i.
Proof. intros (_ & _ & _ & V) p o i N. rewrite V. destruct (var_dec v v); [|reflexivity]. destruct N as [->| ->]; [reflexivity|]. destruct (at_place chan_dec o outs); reflexivity. Qed.
(** What the object holds after reading [d] with all arrays. *)
Definition taken (a : EmtfModel.key -> arr) (t' : tf) : Prop :=
  forall p o i,
  (forall r c, at_place chan_dec o [Ex; Ey] = Some r -> at_place chan_dec i [Hx; Hy] = Some c -> entry t' VTf p o i = a EmtfModel.KZ p r c /\ entry t' VErr p o i = sqrt_cell root (a EmtfModel.KZVar p r c)) /\
  (forall r c, at_place chan_dec o [Hz] = Some r -> at_place chan_dec i [Hx; Hy] = Some c -> entry t' VTf p o i = a EmtfModel.KT p r c /\ entry t' VErr p o i = sqrt_cell root (a EmtfModel.KTVar p r c)) /\
  (forall r c, at_place chan_dec o [Hx; Hy] = Some r -> at_place chan_dec i [Hx; Hy] = Some c -> entry t' VIsp p o i = a EmtfModel.KTInv p r c) /\
  (forall r c, at_place chan_dec o [Ex; Ey] = Some r -> at_place chan_dec i [Ex; Ey] = Some c -> entry t' VRes p o i = a EmtfModel.KZRes p r c) /\
  (o = Hz -> i = Hz -> entry t' VRes p o i = a EmtfModel.KTRes p 0 0) /\
  ((In o [Ex; Ey] /\ i = Hz) \/ (o = Hz /\ In i [Ex; Ey]) -> entry t' VRes p o i = (Some 0%Q, Some 0%Q)).
Lemma default_inj c c' : name default_names c = name default_names c' -> c = c'.
Proof. destruct c, c'; intros E; try reflexivity; discriminate E. Qed.
Lemma fresh_period l t0 : fresh spr t0 -> exists t1, set_period num l t0 = (t1, None) /\ consistent num t1 /\ t_names num t1 = default_names /\ periods num t1 = l /\ forall w p o i, entry t1 w p o i = (Some 0%Q, Some 0%Q).
Proof.
  intros F. unfold fresh in F. cbn in F. injection F as <-. eexists. split; [reflexivity|]. split; [|split; [reflexivity|split; [reflexivity|reflexivity]]].
  split; [apply default_inj|]. intros c. destruct c; cbn; auto 10.
Qed.
Lemma from_emtf_ok d t0 a : fresh spr t0 -> (forall k, EmtfModel.e_arr d k = Some (a k)) ->
  exists t', from_emtf root spr d t0 = (t', None) /\ consistent num t' /\ t_names num t' = default_names /\ periods num t' = EmtfModel.e_period d /\ taken a t'.
Proof.
  intros F A. unfold from_emtf, emtf_array. rewrite !A. cbn [sqrt_given]. set (n := length (EmtfModel.e_period d)).
  destruct (fresh_period (EmtfModel.e_period d) t0 F) as (t1 & E1 & C1 & N1 & P1 & V1). rewrite E1. cbn [andthen].
  assert (L1 : length (periods num t1) = n) by (rewrite P1; reflexivity).
  destruct (set_step AImp [n; 2; 2] (a EmtfModel.KZ) t1 C1 ltac:(discriminate) eq_refl ltac:(unfold fits; rewrite L1; reflexivity)) as (t2 & E2 & S2); pose proof S2 as (C2 & N2 & P2 & _). rewrite E2. cbn [andthen].
  assert (L2 : length (periods num t2) = n) by (rewrite P2; exact L1). rewrite N1 in N2.
  destruct (set_step AImpErr [n; 2; 2] (fun p i j => sqrt_cell root (a EmtfModel.KZVar p i j)) t2 C2 ltac:(discriminate) eq_refl ltac:(unfold fits; rewrite L2; reflexivity)) as (t3 & E3 & S3); pose proof S3 as (C3 & N3 & P3 & _). rewrite E3. cbn [andthen].
  assert (L3 : length (periods num t3) = n) by (rewrite P3; exact L2). rewrite N2 in N3.
  destruct (put_step VIsp [Hx; Hy] [Hx; Hy] [n; 2; 2] (a EmtfModel.KZInv) t3 C3 (eq_sym L3)) as (t4 & E4 & S4); pose proof S4 as (C4 & N4 & P4 & _). rewrite N3 in E4. change (map (name default_names) [Hx; Hy]) with [txt "hx"; txt "hy"] in E4. rewrite E4. cbn [andthen].
  assert (L4 : length (periods num t4) = n) by (rewrite P4; exact L3). rewrite N3 in N4.
  destruct (put_step VRes [Ex; Ey] [Ex; Ey] [n; 2; 2] (a EmtfModel.KZRes) t4 C4 (eq_sym L4)) as (t5 & E5 & S5); pose proof S5 as (C5 & N5 & P5 & _). rewrite N4 in E5. change (map (name default_names) [Ex; Ey]) with [txt "ex"; txt "ey"] in E5. rewrite E5. cbn [andthen].
  assert (L5 : length (periods num t5) = n) by (rewrite P5; exact L4). rewrite N4 in N5.
  destruct (set_step ATip [n; 1; 2] (a EmtfModel.KT) t5 C5 ltac:(discriminate) eq_refl ltac:(unfold fits; rewrite L5; reflexivity)) as (t6 & E6 & S6); pose proof S6 as (C6 & N6 & P6 & _). rewrite E6. cbn [andthen].
  assert (L6 : length (periods num t6) = n) by (rewrite P6; exact L5). rewrite N5 in N6.
  destruct (set_step ATipErr [n; 1; 2] (fun p i j => sqrt_cell root (a EmtfModel.KTVar p i j)) t6 C6 ltac:(discriminate) eq_refl ltac:(unfold fits; rewrite L6; reflexivity)) as (t7 & E7 & S7); pose proof S7 as (C7 & N7 & P7 & _). rewrite E7. cbn [andthen].
  assert (L7 : length (periods num t7) = n) by (rewrite P7; exact L6). rewrite N6 in N7.
  destruct (put_step VIsp [Hx; Hy] [Hx; Hy] [n; 2; 2] (a EmtfModel.KTInv) t7 C7 (eq_sym L7)) as (t8 & E8 & S8); pose proof S8 as (C8 & N8 & P8 & _). rewrite N7 in E8. change (map (name default_names) [Hx; Hy]) with [txt "hx"; txt "hy"] in E8. rewrite E8. cbn [andthen].
  assert (L8 : length (periods num t8) = n) by (rewrite P8; exact L7). rewrite N7 in N8.
  destruct (put_step VRes [Hz] [Hz] [n; 1; 1] (a EmtfModel.KTRes) t8 C8 (eq_sym L8)) as (t9 & E9 & S9); pose proof S9 as (C9 & N9 & P9 & _). rewrite N8 in E9. change (map (name default_names) [Hz]) with [txt "hz"] in E9. rewrite E9.
  rewrite N8 in N9. exists t9. split; [reflexivity|]. split; [exact C9|]. split; [exact N9|]. split; [congruence|].
  cbn [part rows cols] in S2, S3, S6, S7. clear - S2 S3 S4 S5 S6 S7 S8 S9 V1. intros p o i.
  Ltac back H p := first [rewrite (step_other _ _ _ _ _ _ H) by discriminate | rewrite (step_out _ _ _ _ _ _ H p) by (first [left; reflexivity|right; reflexivity]) | erewrite (step_in _ _ _ _ _ _ H p) by reflexivity].
  Ltac backs S2 S3 S4 S5 S6 S7 S8 S9 V1 p := back S9 p; try back S8 p; try back S7 p; try back S6 p; try back S5 p; try back S4 p; try back S3 p; try back S2 p; try rewrite V1; reflexivity.
  split; [|split; [|split; [|split; [|split]]]].
  - intros r c R C. destruct o; try discriminate R; destruct i; try discriminate C; injection R as <-; injection C as <-; split; (backs S2 S3 S4 S5 S6 S7 S8 S9 V1 p).
  - intros r c R C. destruct o; try discriminate R; destruct i; try discriminate C; injection R as <-; injection C as <-; split; (backs S2 S3 S4 S5 S6 S7 S8 S9 V1 p).
  - intros r c R C. destruct o; try discriminate R; destruct i; try discriminate C; injection R as <-; injection C as <-; (backs S2 S3 S4 S5 S6 S7 S8 S9 V1 p).
  - intros r c R C. destruct o; try discriminate R; destruct i; try discriminate C; injection R as <-; injection C as <-; (backs S2 S3 S4 S5 S6 S7 S8 S9 V1 p).
  - intros -> ->. (backs S2 S3 S4 S5 S6 S7 S8 S9 V1 p).
  - intros [[[<-|[<-|[]]] ->]|[-> [<-|[<-|[]]]]]; (backs S2 S3 S4 S5 S6 S7 S8 S9 V1 p).
Qed.
(** Numbers. *)
Lemma root_near r s e : (0 <= r)%Q -> (0 < s)%Q -> (0 <= e)%Q -> (Qabs (r * r - s * s) <= e * (s * s))%Q -> (Qabs (r - s) <= e * s)%Q.
Proof.
  intros R S E H. apply Qabs_Qle_condition in H as [H1 H2]. apply Qabs_Qle_condition.
  assert (P : (0 <= e * s * r)%Q) by (apply Qmult_le_0_compat; [apply Qmult_le_0_compat; lra|exact R]).
  split.
  - destruct (Qlt_le_dec (r - s) (- (e * s))) as [L|L]; [exfalso|exact L].
    assert (0 < (s - r - e * s) * (s + r))%Q by (apply Qmult_lt_0_compat; lra). nra.
  - destruct (Qlt_le_dec (e * s) (r - s)) as [L|L]; [exfalso|exact L].
    assert (0 < (r - s - e * s) * (r + s))%Q by (apply Qmult_lt_0_compat; lra). nra.
Qed.
End Conversion.
