(** C94: transfer functions through EDI files. *)
From Coq Require Import QArith Qabs Lqa.
From Verif Require Import PyBase PyText PyFloat TfModel TfSpec TfProofs TfEmtfModel TfEmtfSpec TfEmtfProofs TfEmtfProps TfEdiModel TfEdiSpec.
From Verif Require EdiModel EdiSpec EdiProps TfEdiFile.
Local Open Scope nat_scope.

Section Conversion.
Variable root : Q -> Q.
Variable spr : cpair -> cpair -> cpair.
Notation num := (cells spr).
Notation tf := (TfModel.tf num).
Notation entry := (entry num).
Notation there := (there num).

(** * To EDI *)
Lemma data_holds t a l : shows num t a l -> holds spr t (part a) (rows a) (cols a) (fun x => x) (data_of spr l).
Proof.
  intros (_ & O & I & S) p o i r c R C. unfold data_of. rewrite O, I, (nth_place _ o _ r R), (nth_place _ i _ c C). apply S; eapply at_place_In'; eassumption.
Qed.
Definition edi_of (rot : rotation) (t : tf) (x : eobj) : Prop :=
  x_freq x = map (fun q => (1 / q)%Q) (periods num t) /\ angles (length (periods num t)) rot (x_rot x) /\
  (there AImp t -> exists z e, x_z x = Some (z, e) /\ holds spr t VTf [Ex; Ey] [Hx; Hy] (fun x => x) z /\ holds spr t VErr [Ex; Ey] [Hx; Hy] (fun x => x) e) /\
  (~ there AImp t -> x_z x = None) /\
  (there ATip t -> exists z e, x_t x = Some (z, e) /\ holds spr t VTf [Hz] [Hx; Hy] (fun x => x) z /\ holds spr t VErr [Hz] [Hx; Hy] (fun x => x) e) /\
  (~ there ATip t -> x_t x = None).
Lemma to_edi_ok rot t : consistent num t -> exists x, to_edi spr rot t = Ok x /\ edi_of rot t x.
Proof.
  intros C. unfold to_edi.
  destruct (has_spec num AImp t C) as (hi & Ei & Hi). change (has num AImp t) with (has_impedance num t) in Ei. rewrite Ei. cbn [bindR].
  destruct (has_spec num ATip t C) as (ht & Et & Ht). change (has num ATip t) with (has_tipper num t) in Et. rewrite Et.
  assert (P : forall a e h, (h = true <-> there a t) -> base e = base a ->
    exists zs, (if h then bindR (get num a t) (fun z => bindR (get num e t) (both_of spr z)) else Ok None) = Ok zs /\
      (h = true -> exists z v, zs = Some (z, v) /\ holds spr t (part a) (rows a) (cols a) (fun x => x) z /\ holds spr t (part e) (rows e) (cols e) (fun x => x) v) /\ (h = false -> zs = None)).
  { intros a e h H B. destruct h; [|exists None; repeat split; discriminate]. assert (TA : there a t) by (apply H; reflexivity).
    destruct (get_spec num a t C) as [G _]. destruct (get_spec num e t C) as [G' _]. destruct (G TA) as (l & El & Sl). destruct (G' (there_lift spr a e t ltac:(congruence) TA)) as (l' & El' & Sl').
    rewrite El, El'. cbn [bindR both_of]. eexists. split; [reflexivity|]. split; [|discriminate]. intros _. eexists _, _. split; [reflexivity|]. split; apply data_holds; assumption. }
  destruct (P AImp AImpErr hi Hi eq_refl) as (zs & Ez & Z1 & Z2). rewrite Ez. cbn [bindR]. destruct (P ATip ATipErr ht Ht eq_refl) as (ts & Et' & T1 & T2). rewrite Et'. cbn [bindR].
  eexists. split; [reflexivity|]. split; [reflexivity|]. split; [|split; [|split; [|split]]]; cbn [x_rot x_z x_t].
  - destruct rot as [a|l]; [|reflexivity]. split; [apply repeat_length|]. apply Forall_forall. intros y I. apply repeat_spec in I. exact I.
  - intros T. apply Hi in T. destruct (Z1 T) as (z & v & -> & A & B). exists z, v. repeat split; assumption.
  - intros T. apply Z2. destruct hi; [exfalso; apply T, Hi; reflexivity|reflexivity].
  - intros T. apply Ht in T. destruct (T1 T) as (z & v & -> & A & B). exists z, v. repeat split; assumption.
  - intros T. apply T2. destruct ht; [exfalso; apply T, Ht; reflexivity|reflexivity].
Qed.

(** * From EDI *)
(** What the object holds for an array that may be missing. *)
Definition held (t' : tf) (v : var) (outs ins : list chan) (a : option earr) : Prop :=
  forall p o i r c, at_place chan_dec o outs = Some r -> at_place chan_dec i ins = Some c ->
    entry t' v p o i = match a with Some a => kept num v (a p r c) | None => (Some 0%Q, Some 0%Q) end.
Definition stepped_opt (t t1 : tf) (v : var) (outs ins : list chan) (a : option earr) : Prop := match a with Some f => stepped spr t t1 v outs ins f | None => t1 = t end.
Lemma opt_step a n r c (f : option earr) t : consistent num t -> a <> ATfModel -> covariance a = false -> fits num t a [n; r; c] ->
  exists t1, set num a (given_of spr n r c f) t = (t1, None) /\ consistent num t1 /\ t_names num t1 = t_names num t /\ periods num t1 = periods num t /\ stepped_opt t t1 (part a) (rows a) (cols a) f.
Proof.
  intros C A B F. destruct f as [f|].
  - destruct (set_step spr a [n; r; c] f t C A B F) as (t1 & E & S). exists t1. split; [exact E|]. pose proof S as (S1 & S2 & S3 & _). split; [exact S1|]. split; [exact S2|]. split; [exact S3|exact S].
  - exists t. split; [unfold set, given_of; cbn [set_data_array]; destruct a; try discriminate B; reflexivity|]. split; [exact C|]. repeat split.
Qed.
Lemma opt_in t t1 v outs ins a : stepped_opt t t1 v outs ins a -> forall p o i r c, at_place chan_dec o outs = Some r -> at_place chan_dec i ins = Some c -> entry t1 v p o i = match a with Some f => kept num v (f p r c) | None => entry t v p o i end.
Proof. destruct a as [f|]; cbn; [intros S p o i r c R C; eapply step_in; eassumption|intros -> *; reflexivity]. Qed.
Lemma opt_other t t1 v outs ins a : stepped_opt t t1 v outs ins a -> forall w p o i, w <> v -> entry t1 w p o i = entry t w p o i.
Proof. destruct a as [f|]; cbn; [intros S w p o i N; eapply step_other; eassumption|intros -> *; reflexivity]. Qed.
Lemma opt_out t t1 v outs ins a : stepped_opt t t1 v outs ins a -> forall p o i, at_place chan_dec o outs = None \/ at_place chan_dec i ins = None -> entry t1 v p o i = entry t v p o i.
Proof. destruct a as [f|]; cbn; [intros S p o i N; eapply step_out; eassumption|intros -> *; reflexivity]. Qed.
Lemma from_edi_ok x t0 : fresh spr t0 -> exists t', from_edi spr x t0 = (t', None, RMany (x_rot x)) /\ consistent num t' /\ periods num t' = map (fun f => (1 / f)%Q) (x_freq x) /\
  held t' VTf [Ex; Ey] [Hx; Hy] (option_map fst (x_z x)) /\ held t' VErr [Ex; Ey] [Hx; Hy] (option_map snd (x_z x)) /\
  held t' VTf [Hz] [Hx; Hy] (option_map fst (x_t x)) /\ held t' VErr [Hz] [Hx; Hy] (option_map snd (x_t x)) /\
  (forall v p o i, v = VIsp \/ v = VRes \/ v = VModel -> entry t' v p o i = (Some 0%Q, Some 0%Q)).
Proof.
  intros F. unfold from_edi. set (n := length (x_freq x)).
  destruct (fresh_period spr (map (fun f => (1 / f)%Q) (x_freq x)) t0 F) as (t1 & E1 & C1 & N1 & P1 & V1). rewrite E1. cbn [andthen].
  assert (L1 : length (periods num t1) = n) by (rewrite P1; apply map_length).
  destruct (opt_step AImp n 2 2 (option_map fst (x_z x)) t1 C1 ltac:(discriminate) eq_refl ltac:(unfold fits; rewrite L1; reflexivity)) as (t2 & E2 & C2 & N2 & P2 & S2). rewrite E2. cbn [andthen].
  assert (L2 : length (periods num t2) = n) by (rewrite P2; exact L1).
  destruct (opt_step AImpErr n 2 2 (option_map snd (x_z x)) t2 C2 ltac:(discriminate) eq_refl ltac:(unfold fits; rewrite L2; reflexivity)) as (t3 & E3 & C3 & N3 & P3 & S3). rewrite E3. cbn [andthen].
  assert (L3 : length (periods num t3) = n) by (rewrite P3; exact L2).
  destruct (opt_step ATip n 1 2 (option_map fst (x_t x)) t3 C3 ltac:(discriminate) eq_refl ltac:(unfold fits; rewrite L3; reflexivity)) as (t4 & E4 & C4 & N4 & P4 & S4). rewrite E4. cbn [andthen].
  assert (L4 : length (periods num t4) = n) by (rewrite P4; exact L3).
  destruct (opt_step ATipErr n 1 2 (option_map snd (x_t x)) t4 C4 ltac:(discriminate) eq_refl ltac:(unfold fits; rewrite L4; reflexivity)) as (t5 & E5 & C5 & N5 & P5 & S5). rewrite E5.
  exists t5. split; [reflexivity|]. split; [exact C5|]. split; [congruence|]. cbn [part rows cols] in S2, S3, S4, S5. clear - S2 S3 S4 S5 V1.
  assert (NE : forall o r, at_place chan_dec o [Ex; Ey] = Some r -> at_place chan_dec o [Hz] = None) by (intros [| | | |] r E; (reflexivity || discriminate E)).
  assert (NZ : forall o r, at_place chan_dec o [Hz] = Some r -> at_place chan_dec o [Ex; Ey] = None) by (intros [| | | |] r E; (reflexivity || discriminate E)).
  split; [|split; [|split; [|split]]].
  - intros p o i r c R C. rewrite (opt_other _ _ _ _ _ _ S5) by discriminate. rewrite (opt_out _ _ _ _ _ _ S4 p o i (or_introl (NE _ _ R))). rewrite (opt_other _ _ _ _ _ _ S3) by discriminate. rewrite (opt_in _ _ _ _ _ _ S2 p o i r c R C), V1. reflexivity.
  - intros p o i r c R C. rewrite (opt_out _ _ _ _ _ _ S5 p o i (or_introl (NE _ _ R))). rewrite (opt_other _ _ _ _ _ _ S4) by discriminate. rewrite (opt_in _ _ _ _ _ _ S3 p o i r c R C). rewrite (opt_other _ _ _ _ _ _ S2) by discriminate. rewrite V1. reflexivity.
  - intros p o i r c R C. rewrite (opt_other _ _ _ _ _ _ S5) by discriminate. rewrite (opt_in _ _ _ _ _ _ S4 p o i r c R C). rewrite (opt_other _ _ _ _ _ _ S3) by discriminate. rewrite (opt_out _ _ _ _ _ _ S2 p o i (or_introl (NZ _ _ R))), V1. reflexivity.
  - intros p o i r c R C. rewrite (opt_in _ _ _ _ _ _ S5 p o i r c R C). rewrite (opt_other _ _ _ _ _ _ S4) by discriminate. rewrite (opt_out _ _ _ _ _ _ S3 p o i (or_introl (NZ _ _ R))). rewrite (opt_other _ _ _ _ _ _ S2) by discriminate. rewrite V1. reflexivity.
  - intros v p o i H. rewrite (opt_other _ _ _ _ _ _ S5), (opt_other _ _ _ _ _ _ S4), (opt_other _ _ _ _ _ _ S3), (opt_other _ _ _ _ _ _ S2), V1 by (destruct H as [->|[->| ->]]; discriminate). reflexivity.
Qed.

(** * Without a file *)
Theorem C94_object rot t x t0 : consistent num t -> Forall (fun q => ~ q == 0)%Q (periods num t) -> to_edi spr rot t = Ok x -> fresh spr t0 ->
  exists t' l, from_edi spr x t0 = (t', None, RMany l) /\ angles (length (periods num t)) rot l /\ consistent num t' /\ Forall2 Qeq (periods num t) (periods num t') /\
    quantity_moved spr same_place AImp eq (fun e e' => fst e' = fst e) t t' /\ quantity_moved spr same_place ATip eq (fun e e' => fst e' = fst e) t t' /\ no_covariances spr t'.
Proof.
  intros C PN EX F0. destruct (to_edi_ok rot t C) as (x1 & EX1 & (XF & XR & Z1 & Z2 & T1 & T2)). rewrite EX in EX1. injection EX1 as <-.
  destruct (from_edi_ok x t0 F0) as (t' & EF & C' & P' & HZ & HZE & HT & HTE & NC). exists t', (x_rot x). split; [exact EF|]. split; [exact XR|]. split; [exact C'|]. split; [|split; [|split]].
  - rewrite P', XF, map_map. clear - PN. induction PN as [|q l N F IH]; [constructor|]. cbn [map]. constructor; [field; exact N|exact IH].
  - intros p o i Hp Ho Hi. destruct (place_of o _ Ho) as (r & PR & _). destruct (place_of i _ Hi) as (c & PC & _). rewrite (HZ p o i r c PR PC), (HZE p o i r c PR PC). split; intros T.
    + destruct (Z1 T) as (z & e & -> & A & B). cbn [option_map fst snd]. split; [symmetry; apply A; assumption|]. unfold same_place. rewrite (B p o i r c PR PC). reflexivity.
    + rewrite (Z2 T). split; apply nothing_zero.
  - intros p o i Hp Ho Hi. destruct (place_of o _ Ho) as (r & PR & _). destruct (place_of i _ Hi) as (c & PC & _). rewrite (HT p o i r c PR PC), (HTE p o i r c PR PC). split; intros T.
    + destruct (T1 T) as (z & e & -> & A & B). cbn [option_map fst snd]. split; [symmetry; apply A; assumption|]. unfold same_place. rewrite (B p o i r c PR PC). reflexivity.
    + rewrite (T2 T). split; apply nothing_zero.
  - intros v p o i H. rewrite (NC v p o i H). apply nothing_zero.
Qed.

(** * Through a file *)
Lemma column_nth {A} n ij (f : cpair -> A) z a p : p < n -> nth_error (column n ij f z a) p = Some (match a with Some a => f (a p (fst ij) (snd ij)) | None => z end).
Proof.
  intros L. unfold column. rewrite nth_error_map. rewrite (nth_error_nth' (seq 0 n) 0) by (rewrite seq_length; exact L). rewrite seq_nth by exact L. reflexivity.
Qed.
Lemma column_length {A} n ij (f : cpair -> A) z a : length (column n ij f z a) = n.
Proof. unfold column. rewrite map_length, seq_length. reflexivity. Qed.
Lemma numbers_sizes x : length (x_rot x) = length (x_freq x) -> EdiSpec.sizes (length (x_freq x)) (numbers x).
Proof.
  intros R. split; [reflexivity|]. split; [exact R|]. split; [intros c; apply column_length|]. split; [intros c; apply column_length|]. split; intros c; apply column_length.
Qed.
Lemma column_forall {A} (P : A -> Prop) n ij f z a : (forall p, p < n -> P (match a with Some a => f (a p (fst ij) (snd ij)) | None => z end)) -> Forall P (column n ij f z a).
Proof. intros H. apply Forall_forall. intros y I. unfold column in I. apply in_map_iff in I as (p & <- & J). apply in_seq in J. apply H. lia. Qed.
Definition z_row (c : EdiModel.zc) : chan := match c with EdiModel.ZXX | EdiModel.ZXY => Ex | _ => Ey end.
Definition z_col (c : EdiModel.zc) : chan := match c with EdiModel.ZXX | EdiModel.ZYX => Hx | _ => Hy end.
Definition t_col (c : EdiModel.tc) : chan := match c with EdiModel.TX => Hx | _ => Hy end.
Lemma z_placed c : at_place chan_dec (z_row c) [Ex; Ey] = Some (fst (z_place c)) /\ at_place chan_dec (z_col c) [Hx; Hy] = Some (snd (z_place c)).
Proof. destruct c; split; reflexivity. Qed.
Lemma t_placed c : at_place chan_dec Hz [Hz] = Some (fst (t_place c)) /\ at_place chan_dec (t_col c) [Hx; Hy] = Some (snd (t_place c)).
Proof. destruct c; split; reflexivity. Qed.
Lemma there_cases a t : consistent num t -> there a t \/ ~ there a t.
Proof. intros C. destruct (has_spec num a t C) as (h & _ & H). destruct h; [left; apply H; reflexivity|right; intros T; apply H in T; discriminate T]. Qed.
Lemma writable_zero empty : EdiSpec.writable empty 0%Q.
Proof. split; [left|left]; reflexivity. Qed.
Lemma numbers_writable empty rot t x : consistent num t -> edi_of rot t x -> all_writable spr empty t (x_rot x) -> EdiSpec.all_numbers (EdiSpec.writable empty) (numbers x).
Proof.
  intros C (XF & XR & Z1 & Z2 & T1 & T2) (W1 & W2 & W3). assert (LN : length (x_freq x) = length (periods num t)) by (rewrite XF; apply map_length). unfold numbers, EdiSpec.all_numbers.
  cbn [EdiModel.e_freq EdiModel.e_rot EdiModel.e_z EdiModel.e_zvar EdiModel.e_t EdiModel.e_tvar]. rewrite LN.
  split; [|split; [exact W2|]].
  { rewrite XF. apply Forall_forall. intros y I. apply in_map_iff in I as (q & <- & J). rewrite Forall_forall in W1. apply W1. exact J. }
  split; [|split; [|split]]; intros c; apply column_forall; intros p L.
  - destruct (there_cases AImp t C) as [T|T]; [|rewrite (Z2 T); split; apply writable_zero]. destruct (Z1 T) as (z & e & -> & A & B). cbn [option_map fst snd]. destruct (z_placed c) as [PR PC].
    rewrite (A p _ _ _ _ PR PC). destruct (W3 p (z_row c) (z_col c) L) as (X1 & X2 & _); [destruct c; cbn; auto|destruct c; cbn; auto|]. split; assumption.
  - destruct (there_cases AImp t C) as [T|T]; [|rewrite (Z2 T); apply writable_zero]. destruct (Z1 T) as (z & e & -> & A & B). cbn [option_map fst snd]. destruct (z_placed c) as [PR PC].
    rewrite (B p _ _ _ _ PR PC). destruct (W3 p (z_row c) (z_col c) L) as (_ & _ & X3); [destruct c; cbn; auto|destruct c; cbn; auto|]. exact X3.
  - destruct (there_cases ATip t C) as [T|T]; [|rewrite (T2 T); split; apply writable_zero]. destruct (T1 T) as (z & e & -> & A & B). cbn [option_map fst snd]. destruct (t_placed c) as [PR PC].
    rewrite (A p _ _ _ _ PR PC). destruct (W3 p Hz (t_col c) L) as (X1 & X2 & _); [cbn; auto|destruct c; cbn; auto|]. split; assumption.
  - destruct (there_cases ATip t C) as [T|T]; [|rewrite (T2 T); apply writable_zero]. destruct (T1 T) as (z & e & -> & A & B). cbn [option_map fst snd]. destruct (t_placed c) as [PR PC].
    rewrite (B p _ _ _ _ PR PC). destruct (W3 p Hz (t_col c) L) as (_ & _ & X3); [cbn; auto|destruct c; cbn; auto|]. exact X3.
Qed.
(** A tipper that is there is not zero, so its errors are written too. *)
Lemma kept_errors rot t x : consistent num t -> edi_of rot t x -> EdiSpec.tipper_errors_kept (numbers x).
Proof.
  intros C (XF & XR & Z1 & Z2 & T1 & T2) H. assert (LN : length (x_freq x) = length (periods num t)) by (rewrite XF; apply map_length).
  destruct (there_cases ATip t C) as [T|T].
  - exfalso. destruct (T1 T) as (z & e & E & A & B). destruct T as (p & o & i & Lp & Ho & Hi & N). cbn [base rows cols part] in Ho, Hi, N. destruct Ho as [<-|[]]. apply N. right. split; [reflexivity|]. 
    assert (exists c, t_col c = i) as (c & <-) by (destruct Hi as [<-|[<-|[]]]; [exists EdiModel.TX|exists EdiModel.TY]; reflexivity).
    destruct (t_placed c) as [PR PC]. specialize (H c). unfold numbers in H. cbn [EdiModel.e_t] in H. rewrite E, LN in H. cbn [option_map fst] in H.
    rewrite Forall_forall in H. destruct (H (no_nan (fst (z p (fst (t_place c)) (snd (t_place c)))), no_nan (snd (z p (fst (t_place c)) (snd (t_place c)))))) as [H1 H2].
    { eapply nth_error_In. exact (column_nth _ (t_place c) _ _ (Some z) p Lp). }
    rewrite (A p _ _ _ _ PR PC) in H1, H2. cbn [fst snd] in H1, H2. destruct (entry t VTf p Hz (t_col c)) as [a b] eqn:EE. cbn [fst snd] in H1, H2.
    assert (NZ : is_zero num (a, b) = false) by (destruct (is_zero num (a, b)) eqn:X; [exfalso; apply N; left; exact X|reflexivity]). cbn [is_zero is_nan cells fst snd] in NZ |- *. rewrite NZ. cbn [negb]. rewrite andb_true_r.
    apply andb_true_intro. split; [destruct a as [a|]|destruct b as [b|]]; cbn in *; try reflexivity; apply Qeq_bool_iff; assumption.
  - intros c. unfold numbers. cbn [EdiModel.e_tvar]. rewrite (T2 T). apply column_forall. intros p L. reflexivity.
Qed.

(** Lists one of which is the other, in the same or in the opposite order. *)
Definition moved {A B} (f : nat -> nat) (n : nat) (R : A -> B -> Prop) (l : list A) (l' : list B) : Prop :=
  length l' = n /\ forall p, p < n -> exists a b, nth_error l (f p) = Some a /\ nth_error l' p = Some b /\ R a b.
Lemma forall2_moved {A B} (R : A -> B -> Prop) l l' : Forall2 R l l' -> moved same_place (length l) R l l'.
Proof.
  intros F. split; [symmetry; clear - F; induction F; cbn; congruence|]. intros p. unfold same_place. revert p. induction F as [|a b l l' H F IH]; intros p L; [cbn in L; lia|]. destruct p as [|p]; [exists a, b; repeat split; exact H|]. apply IH. cbn in L. lia.
Qed.
Lemma rev_moved {A B} (R : A -> B -> Prop) l l' : Forall2 R (rev l) l' -> moved (other_end (length l)) (length l) R l l'.
Proof.
  intros F. apply forall2_moved in F as [L H]. rewrite rev_length in L, H. split; [exact L|]. intros p Lp. destruct (H p Lp) as (a & b & E1 & E2 & X). exists a, b. split; [|split; assumption].
  unfold same_place in E1. unfold other_end. rewrite (nth_error_nth' (rev l) a) in E1 by (rewrite rev_length; exact Lp). injection E1 as E1. rewrite rev_nth in E1 by exact Lp. rewrite (nth_error_nth' l a) by lia. rewrite E1. reflexivity.
Qed.
Lemma finite_close (n : nat) l l' : Forall2 EdiSpec.close l l' -> exists m, finite l' = Some m /\ Forall2 (fun q v => (Qabs (v - q) <= (5 # 10000000) * Qabs q)%Q) l m.
Proof.
  induction 1 as [|q y l l' (v & -> & B) F (m & E & IH)]; [exists []; split; [reflexivity|constructor]|]. exists (v :: m). split; [cbn [finite]; rewrite E; reflexivity|constructor; assumption].
Qed.
Lemma square_digits sq e y : sqrt_like sq -> EdiSpec.close (number_of e * number_of e)%Q y -> exists v, y = Fin v /\ (Qabs (sq (Qabs v) - Qabs (number_of e)) <= (1 # 1000000) * Qabs (number_of e))%Q.
Proof.
  intros SQ (v & -> & V). exists v. split; [reflexivity|]. set (q := number_of e) in *.
  assert (SS : (q * q == Qabs q * Qabs q)%Q). { destruct (Qlt_le_dec q 0). - rewrite Qabs_neg by lra. ring. - rewrite Qabs_pos by lra. ring. }
  rewrite Qabs_Qmult in V. rewrite SS in V. apply Qabs_Qle_condition in V as [V1 V2]. pose proof (Qabs_nonneg q) as PQ. assert (P0 : (0 <= Qabs q * Qabs q)%Q) by (apply Qmult_le_0_compat; exact PQ).
  assert (P : (0 <= v)%Q) by lra. assert (AV : (Qabs v == v)%Q) by (apply Qabs_pos; exact P). destruct (SQ (Qabs v) (Qabs_nonneg v)) as [R1 R2]. generalize dependent (sq (Qabs v)). intros r R1 R2. rewrite AV in R2. apply Qabs_Qle_condition in R2 as [R3 R4].
  destruct (Qlt_le_dec 0 (Qabs q)) as [S0|S0].
  - apply root_near; [exact R1|exact S0|discriminate|]. apply Qabs_Qle_condition. split; lra.
  - assert (Z : (Qabs q == 0)%Q) by lra. assert (ZZ : (Qabs q * Qabs q == 0)%Q) by (rewrite Z; reflexivity). rewrite Z.
    destruct (Qlt_le_dec 0 r) as [L|L]; [assert (0 < r * r)%Q by (apply Qmult_lt_0_compat; exact L); lra|]. apply Qabs_Qle_condition. split; lra.
Qed.
Lemma close_digits c y : EdiSpec.close (no_nan c) y -> digits c (cell_of y).
Proof. intros (v & -> & B). exists v. split; [reflexivity|exact B]. Qed.
Lemma close_zero_cell y : EdiSpec.close 0%Q y -> exists v, y = Fin v /\ (v == 0)%Q.
Proof. intros (v & -> & B). exists v. split; [reflexivity|]. assert (B' : (Qabs (v - 0) <= 0)%Q) by (eapply Qle_trans; [exact B|discriminate]). apply Qabs_Qle_condition in B'. lra. Qed.
Lemma zero_square sq v : sqrt_like sq -> (v == 0)%Q -> (sq (Qabs v) == 0)%Q.
Proof.
  intros SQ Z. destruct (SQ (Qabs v) (Qabs_nonneg v)) as [A B]. generalize dependent (sq (Qabs v)). intros r A B. rewrite Z in B. apply Qabs_Qle_condition in B as [_ B].
  destruct (Qlt_le_dec 0 r) as [L|L]; [|lra]. assert (0 < r * r)%Q by (apply Qmult_lt_0_compat; exact L). unfold Qabs in B. cbn in B. lra.
Qed.
(** Reading a file whose numbers are those of [x], moved by [f]. *)
Lemma file_back rot f t x e' t0 : sqrt_like root -> consistent num t -> edi_of rot t x -> fresh spr t0 -> (forall p, p < length (periods num t) -> f p < length (periods num t)) ->
  (forall c, moved f (length (periods num t)) (EdiSpec.on_pair EdiSpec.close) (EdiModel.e_z (numbers x) c) (EdiModel.e_z e' c)) ->
  (forall c, moved f (length (periods num t)) EdiSpec.close (EdiModel.e_zvar (numbers x) c) (EdiModel.e_zvar e' c)) ->
  (forall c, moved f (length (periods num t)) (EdiSpec.on_pair EdiSpec.close) (EdiModel.e_t (numbers x) c) (EdiModel.e_t e' c)) ->
  (forall c, moved f (length (periods num t)) EdiSpec.close (EdiModel.e_tvar (numbers x) c) (EdiModel.e_tvar e' c)) ->
  forall fs rs, finite (EdiModel.e_freq e') = Some fs -> finite (EdiModel.e_rot e') = Some rs ->
  exists x' t', of_read root e' = Some x' /\ from_edi spr x' t0 = (t', None, RMany rs) /\ consistent num t' /\ periods num t' = map (fun f => (1 / f)%Q) fs /\
    quantity_moved spr f AImp value_digits error_digits t t' /\ quantity_moved spr f ATip value_digits error_digits t t' /\ no_covariances spr t'.
Proof.
  intros SQ C (XF & XR & Z1 & Z2 & T1 & T2) F0 FB MZ MZV MT MTV fs rs EF ER. unfold of_read. rewrite EF, ER. assert (LN : length (x_freq x) = length (periods num t)) by (rewrite XF; apply map_length).
  eexists. match goal with |- exists t', Some ?x' = _ /\ _ => destruct (from_edi_ok x' t0 F0) as (t' & E' & C' & P' & HZ & HZE & HT & HTE & NC) end. exists t'. split; [reflexivity|]. split; [exact E'|]. split; [exact C'|]. split; [exact P'|].
  cbn [x_z x_t option_map fst snd] in HZ, HZE, HT, HTE.
  assert (MOVE : forall a ij (w1 : option (earr * earr)) (le : list (pynum * pynum)) (lv : list pynum) p o i r c,
    moved f (length (periods num t)) (EdiSpec.on_pair EdiSpec.close) (column (length (x_freq x)) ij (fun c => (no_nan (fst c), no_nan (snd c))) (0, 0)%Q (option_map fst w1)) le ->
    moved f (length (periods num t)) EdiSpec.close (column (length (x_freq x)) ij (fun c => (no_nan (fst c) * no_nan (fst c))%Q) 0%Q (option_map snd w1)) lv ->
    (there a t -> exists z e, w1 = Some (z, e) /\ holds spr t VTf (rows a) (cols a) (fun x => x) z /\ holds spr t VErr (rows a) (cols a) (fun x => x) e) -> (~ there a t -> w1 = None) ->
    p < length (periods num t) -> at_place chan_dec o (rows a) = Some r -> at_place chan_dec i (cols a) = Some c -> ij = (r, c) ->
    (there a t -> value_digits (entry t VTf (f p) o i) (pair_cell le p) /\ error_digits (entry t VErr (f p) o i) (kept num VErr (error_cell root lv p))) /\
    (~ there a t -> nothing_there (pair_cell le p) /\ nothing_there (kept num VErr (error_cell root lv p)))).
  { intros a ij w1 le lv p o i r c [L1 M1] [L2 M2] TA TB Lp PR PC ->. destruct (M1 p Lp) as (y1 & y2 & Y1 & Y2 & YC). destruct (M2 p Lp) as (v1 & v2 & V1 & V2 & VC).
    rewrite column_nth in Y1 by (rewrite LN; apply FB; exact Lp). rewrite column_nth in V1 by (rewrite LN; apply FB; exact Lp). injection Y1 as <-. injection V1 as <-. unfold pair_cell, error_cell. rewrite Y2, V2. destruct y2 as [y2 y3]. cbn [fst snd] in YC |- *. split; intros T.
    - destruct (TA T) as (z & e & -> & A & B). cbn [option_map fst snd] in YC, VC. rewrite (A (f p) o i r c PR PC) in YC. rewrite (B (f p) o i r c PR PC) in VC. destruct YC as [Y3 Y4]. cbn [fst snd] in Y3, Y4. split.
      + split; cbn [fst snd]; apply close_digits; assumption.
      + destruct (square_digits root _ _ SQ VC) as (v & -> & W). exists (root (Qabs v)). split; [reflexivity|exact W].
    - rewrite (TB T) in YC, VC. cbn [option_map] in YC, VC. destruct YC as [Y3 Y4]. cbn [fst snd] in Y3, Y4. apply close_zero_cell in Y3 as (a1 & -> & A1). apply close_zero_cell in Y4 as (a2 & -> & A2). apply close_zero_cell in VC as (a3 & -> & A3). split.
      + exists a1, a2. repeat split; assumption.
      + exists (root (Qabs a3)), 0%Q. split; [reflexivity|]. split; [apply zero_square; assumption|reflexivity]. }
  split; [|split].
  - intros p o i Lp Ho Hi. destruct (place_of o _ Ho) as (r & PR & LR). destruct (place_of i _ Hi) as (c & PC & LC). rewrite (HZ p o i r c PR PC), (HZE p o i r c PR PC).
    apply (MOVE AImp (z_place (z_at r c)) (x_z x) (EdiModel.e_z e' (z_at r c)) (EdiModel.e_zvar e' (z_at r c)) p o i r c (MZ (z_at r c)) (MZV (z_at r c)) Z1 Z2 Lp PR PC).
    destruct o; try discriminate PR; destruct i; try discriminate PC; injection PR as <-; injection PC as <-; reflexivity.
  - intros p o i Lp Ho Hi. destruct (place_of o _ Ho) as (r & PR & LR). destruct (place_of i _ Hi) as (c & PC & LC). rewrite (HT p o i r c PR PC), (HTE p o i r c PR PC).
    apply (MOVE ATip (t_place (t_at c)) (x_t x) (EdiModel.e_t e' (t_at c)) (EdiModel.e_tvar e' (t_at c)) p o i r c (MT (t_at c)) (MTV (t_at c)) T1 T2 Lp PR PC).
    destruct o; try discriminate PR; destruct i; try discriminate PC; injection PR as <-; injection PC as <-; reflexivity.
  - intros v p o i H. rewrite (NC v p o i H). apply nothing_zero.
Qed.
Lemma period_back q v : (0 < q)%Q -> (Qabs (v - 1 / q) <= (5 # 10000000) * Qabs (1 / q))%Q -> (Qabs (1 / v - q) <= (1 # 1000000) * q)%Q.
Proof.
  intros P B. assert (PI : (0 < 1 / q)%Q) by (apply Qlt_shift_div_l; lra). rewrite (Qabs_pos (1 / q)) in B by lra. apply Qabs_Qle_condition in B as [B1 B2].
  assert (V : (0 < v)%Q) by lra. set (u := (1 / q)%Q) in *. assert (U : (q * u == 1)%Q) by (unfold u; field; lra). set (w := (1 / v)%Q). assert (W : (w * v == 1)%Q) by (unfold w; field; lra). assert (PW : (0 < w)%Q) by (apply Qlt_shift_div_l; lra).
  (* w - q = w q (u - v) *)
  assert (E : (w - q == w * q * (u - v))%Q). { setoid_replace (w * q * (u - v))%Q with (w * (q * u) - q * (w * v))%Q by ring. rewrite U, W. ring. }
  assert (WQ : (0 < w * q)%Q) by (apply Qmult_lt_0_compat; assumption). assert (WU : (w * q * u == w)%Q) by (setoid_replace (w * q * u)%Q with (w * (q * u))%Q by ring; rewrite U; ring).
  assert (BW : (Qabs (w - q) <= (5 # 10000000) * w)%Q). { rewrite E. apply Qabs_Qle_condition. split; nra. }
  apply Qabs_Qle_condition in BW as [BW1 BW2]. apply Qabs_Qle_condition. split; lra.
Qed.
Lemma angles_length n rot l : angles n rot l -> (forall m, rot = RMany m -> length m = n) -> length l = n.
Proof. destruct rot as [a|m]; cbn; [intros [H _] _; exact H|intros -> H; apply H; reflexivity]. Qed.

Theorem C94_file empty rot t q0 q1 qs x t0 : sqrt_like root -> EdiSpec.good_marker empty -> consistent num t -> (forall m, rot = RMany m -> length m = length (periods num t)) ->
  periods num t = q0 :: q1 :: qs -> (q0 <= q1)%Q -> to_edi spr rot t = Ok x -> all_writable spr empty t (x_rot x) -> fresh spr t0 ->
  exists s e' x' t' l', write_object empty x = Ok s /\ EdiModel.read_mt empty (EdiModel.file_lines s) = Ok e' /\ of_read root e' = Some x' /\ from_edi spr x' t0 = (t', None, RMany l') /\
    consistent num t' /\ periods_digits (periods num t) (periods num t') /\ (exists l, angles (length (periods num t)) rot l /\ angles_digits l l') /\
    quantity_moved spr same_place AImp value_digits error_digits t t' /\ quantity_moved spr same_place ATip value_digits error_digits t t' /\ no_covariances spr t'.
Proof.
  intros SQ G C LM EP LE EX W F0. destruct (to_edi_ok rot t C) as (x1 & EX1 & XO). rewrite EX in EX1. injection EX1 as <-. pose proof XO as (XF & XR & _).
  assert (LN : length (x_freq x) = length (periods num t)) by (rewrite XF; apply map_length). assert (LR : length (x_rot x) = length (x_freq x)) by (rewrite LN; apply (angles_length _ rot); assumption).
  assert (F : EdiModel.e_freq (numbers x) = (1 / q0)%Q :: (1 / q1)%Q :: map (fun q => (1 / q)%Q) qs) by (unfold numbers; cbn [EdiModel.e_freq]; rewrite XF, EP; reflexivity).
  pose proof W as (W1 & _). rewrite EP in W1. inversion W1 as [|? ? [P0 _] W1']; subst. inversion W1' as [|? ? [P1 _] _]; subst.
  destruct (TfEdiFile.object_falling empty x (length (x_freq x)) (1 / q0)%Q (1 / q1)%Q (map (fun q => (1 / q)%Q) qs) G (numbers_sizes x LR) (numbers_writable empty rot t x C XO W) (kept_errors rot t x C XO) F) as (s & e' & E1 & E2 & (D1 & D2 & D3 & D4 & D5 & D6)).
  { apply Qlt_shift_div_l; lra. }
  { apply Qle_shift_div_l; [exact P0|]. setoid_replace (1 / q1 * q0)%Q with (q0 / q1)%Q by (field; lra). apply Qle_shift_div_r; lra. }
  destruct (finite_close 0 _ _ D1) as (fs & EF & DF). destruct (finite_close 0 _ _ D2) as (rs & ER & DR).
  assert (LL : forall {A B} (R : A -> B -> Prop) l l', length l = length (x_freq x) -> Forall2 R l l' -> moved same_place (length (periods num t)) R l l') by (intros A B R l l' L H; rewrite <- LN, <- L; apply forall2_moved; exact H).
  destruct (file_back rot same_place t x e' t0 SQ C XO F0 (fun p L => L) (fun c => LL _ _ _ _ _ (column_length _ _ _ _ _) (D3 c)) (fun c => LL _ _ _ _ _ (column_length _ _ _ _ _) (D4 c)) (fun c => LL _ _ _ _ _ (column_length _ _ _ _ _) (D5 c)) (fun c => LL _ _ _ _ _ (column_length _ _ _ _ _) (D6 c)) fs rs EF ER) as (x' & t' & O & FE & C' & P' & QI & QT & NC).
  exists s, e', x', t', rs. split; [exact E1|]. split; [exact E2|]. split; [exact O|]. split; [exact FE|]. split; [exact C'|]. split; [|split; [|split; [exact QI|split; [exact QT|exact NC]]]].
  - rewrite P'. unfold numbers in DF. cbn [EdiModel.e_freq] in DF. rewrite XF in DF. destruct W as (W & _). clear - W DF. revert fs DF. induction W as [|q l [P _] W IH]; intros fs DF; inversion DF as [|? v ? fs' H DF']; subst; [constructor|]. constructor; [apply period_back; assumption|apply IH; exact DF'].
  - exists (x_rot x). split; [exact XR|exact DR].
Qed.
(** Falling periods: everything comes back in the opposite order, except the angles. *)
Theorem C94_file_falling empty rot t q0 q1 qs x t0 : sqrt_like root -> EdiSpec.good_marker empty -> consistent num t -> (forall m, rot = RMany m -> length m = length (periods num t)) ->
  periods num t = q0 :: q1 :: qs -> ((5 # 10000000) * (1 / q0 + 1 / q1) < 1 / q1 - 1 / q0)%Q -> to_edi spr rot t = Ok x -> all_writable spr empty t (x_rot x) -> fresh spr t0 ->
  exists s e' x' t' l', write_object empty x = Ok s /\ EdiModel.read_mt empty (EdiModel.file_lines s) = Ok e' /\ of_read root e' = Some x' /\ from_edi spr x' t0 = (t', None, RMany l') /\
    consistent num t' /\ periods_digits (rev (periods num t)) (periods num t') /\ (exists l, angles (length (periods num t)) rot l /\ angles_digits l l') /\
    quantity_moved spr (other_end (length (periods num t))) AImp value_digits error_digits t t' /\ quantity_moved spr (other_end (length (periods num t))) ATip value_digits error_digits t t' /\ no_covariances spr t'.
Proof.
  intros SQ G C LM EP LE EX W F0. destruct (to_edi_ok rot t C) as (x1 & EX1 & XO). rewrite EX in EX1. injection EX1 as <-. pose proof XO as (XF & XR & _).
  assert (LN : length (x_freq x) = length (periods num t)) by (rewrite XF; apply map_length). assert (LR : length (x_rot x) = length (x_freq x)) by (rewrite LN; apply (angles_length _ rot); assumption).
  assert (F : EdiModel.e_freq (numbers x) = (1 / q0)%Q :: (1 / q1)%Q :: map (fun q => (1 / q)%Q) qs) by (unfold numbers; cbn [EdiModel.e_freq]; rewrite XF, EP; reflexivity).
  pose proof W as (W1 & _). rewrite EP in W1. inversion W1 as [|? ? [P0 _] W1']; subst.
  destruct (TfEdiFile.object_rising empty x (length (x_freq x)) (1 / q0)%Q (1 / q1)%Q (map (fun q => (1 / q)%Q) qs) G (numbers_sizes x LR) (numbers_writable empty rot t x C XO W) (kept_errors rot t x C XO) F) as (s & e' & E1 & E2 & (D1 & D2 & D3 & D4 & D5 & D6)); [apply Qlt_shift_div_l; lra|exact LE|].
  destruct (finite_close 0 _ _ D1) as (fs & EF & DF). destruct (finite_close 0 _ _ D2) as (rs & ER & DR).
  assert (LL : forall {A B} (R : A -> B -> Prop) l l', length l = length (x_freq x) -> Forall2 R (rev l) l' -> moved (other_end (length (periods num t))) (length (periods num t)) R l l') by (intros A B R l l' L H; rewrite <- LN, <- L; apply rev_moved; exact H).
  assert (FB : forall p, p < length (periods num t) -> other_end (length (periods num t)) p < length (periods num t)) by (intros p L; unfold other_end; lia).
  destruct (file_back rot (other_end (length (periods num t))) t x e' t0 SQ C XO F0 FB (fun c => LL _ _ _ _ _ (column_length _ _ _ _ _) (D3 c)) (fun c => LL _ _ _ _ _ (column_length _ _ _ _ _) (D4 c)) (fun c => LL _ _ _ _ _ (column_length _ _ _ _ _) (D5 c)) (fun c => LL _ _ _ _ _ (column_length _ _ _ _ _) (D6 c)) fs rs EF ER) as (x' & t' & O & FE & C' & P' & QI & QT & NC).
  exists s, e', x', t', rs. split; [exact E1|]. split; [exact E2|]. split; [exact O|]. split; [exact FE|]. split; [exact C'|]. split; [|split; [|split; [exact QI|split; [exact QT|exact NC]]]].
  - rewrite P'. unfold EdiSpec.flip_but_rotation, numbers in DF. cbn [EdiModel.e_freq] in DF. rewrite XF, <- map_rev in DF. destruct W as (W & _). apply Forall_rev in W. clear - W DF. revert fs DF. induction W as [|q l [P _] W IH]; intros fs DF; inversion DF as [|? v ? fs' H DF']; subst; [constructor|]. constructor; [apply period_back; assumption|apply IH; exact DF'].
  - exists (x_rot x). split; [exact XR|exact DR].
Qed.
(** * What is not so *)
(** An object whose angles do not go with its periods cannot be written. *)
Theorem C94_angles_refuted empty m t x : to_edi spr (RMany m) t = Ok x -> length m <> length (periods num t) -> write_object empty x = Err ValueError.
Proof.
  intros E N. unfold to_edi in E. destruct (has_impedance num t) as [hi|]; [|discriminate E]. cbn [bindR] in E. destruct (if hi then _ else _) as [z|]; [|discriminate E]. cbn [bindR] in E.
  destruct (has_tipper num t) as [ht|]; [|discriminate E]. cbn [bindR] in E. destruct (if ht then _ else _) as [w|]; [|discriminate E]. cbn [bindR] in E. injection E as <-. unfold write_object. cbn [x_rot x_freq]. rewrite map_length.
  destruct (length m =? length (d_periods num (t_data num t))) eqn:L; [apply Nat.eqb_eq in L; contradiction|reflexivity].
Qed.
End Conversion.

(** * Cases that meet the hypotheses *)
Local Ltac wr := split; [first [left; reflexivity|right; split; [vm_compute; discriminate|vm_compute; reflexivity]]|first [left; vm_compute; reflexivity|right; vm_compute; reflexivity]].
Local Ltac wr_all := split; [repeat (apply Forall_cons; [split; [vm_compute; reflexivity|wr]|]); apply Forall_nil|split; [repeat (apply Forall_cons; [wr|]); apply Forall_nil|]];
  intros p o i Lp Ho Hi; vm_compute in Lp; destruct Ho as [<-|[<-|[<-|[]]]]; destruct Hi as [<-|[<-|[]]]; (destruct p as [|[|[|p]]]; [| | |exfalso; lia]) || (destruct p as [|[|p]]; [| |exfalso; lia]); (split; [wr|split; wr]).
Definition tipper_only : TfModel.tf nn := fst (andthen no_spread (set nn ATip (GArray nn [2; 1; 2] (value 4)) (mkTf nn default_names [] (initialize nn default_names [10%Q; 1%Q]))) (set nn ATipErr (GArray nn [2; 1; 2] (value 2)))).
Example C94_file_hyp : exists x, to_edi no_spread (ROne 30%Q) with_impedance = Ok x /\ consistent nn with_impedance /\ there nn AImp with_impedance /\ ~ there nn ATip with_impedance /\
  all_writable no_spread EdiProps.default_empty with_impedance (x_rot x) /\ periods nn with_impedance = [(1 # 10)%Q; 1%Q; 10%Q] /\ sqrt_like a_root /\ EdiSpec.good_marker EdiProps.default_empty /\ exists t0, fresh no_spread t0.
Proof.
  destruct C93_missing_hyp as (C & TI & NT & _). destruct (to_edi_ok no_spread (ROne 30%Q) with_impedance C) as (x & E & XO). exists x. split; [exact E|]. split; [exact C|]. split; [exact TI|]. split; [exact NT|].
  split; [|split; [reflexivity|split; [exact a_root_like|split; [exact EdiProps.default_marker|eexists; reflexivity]]]].
  assert (ER : x_rot x = [30%Q; 30%Q; 30%Q]) by (vm_compute in E; injection E as <-; reflexivity). rewrite ER. wr_all.
Qed.
Example C94_file_falling_hyp : exists x, to_edi no_spread (RMany [0%Q; 45%Q]) tipper_only = Ok x /\ consistent nn tipper_only /\ there nn ATip tipper_only /\ ~ there nn AImp tipper_only /\
  all_writable no_spread EdiProps.default_empty tipper_only (x_rot x) /\ periods nn tipper_only = [10%Q; 1%Q] /\ ((5 # 10000000) * (1 / 10 + 1 / 1) < 1 / 1 - 1 / 10)%Q.
Proof.
  assert (C : consistent nn tipper_only).
  { assert (A : t_names nn tipper_only = default_names /\ d_labels nn (t_data nn tipper_only) = all_names default_names) by (vm_compute; split; reflexivity). unfold consistent. destruct A as [-> ->]. split; [apply default_inj|intros c; destruct c; unfold all_names; cbn; auto 10]. }
  destruct (to_edi_ok no_spread (RMany [0%Q; 45%Q]) tipper_only C) as (x & E & XO). exists x. split; [exact E|]. split; [exact C|].
  split; [exists 0, Hz, Hx; split; [vm_compute; lia|split; [cbn; tauto|split; [cbn; tauto|intros [X|(_ & Y)]; [vm_compute in X; discriminate X|vm_compute in Y; discriminate Y]]]]|].
  split; [intros (p & o & i & _ & Ho & Hi & N); apply N; left; cbn in Ho, Hi; destruct Ho as [<-|[<-|[]]], Hi as [<-|[<-|[]]]; lazy; reflexivity|].
  split; [|split; reflexivity]. destruct XO as (_ & ER & _). cbn in ER. rewrite ER. wr_all.
Qed.
Example C94_angles_hyp : exists x, to_edi no_spread (RMany [0%Q]) with_impedance = Ok x /\ 1 <> length (periods nn with_impedance).
Proof. destruct (to_edi_ok no_spread (RMany [0%Q]) with_impedance (proj1 samples_consistent)) as (x & E & _). exists x. split; [exact E|vm_compute; lia]. Qed.
Print Assumptions C94_object.
Print Assumptions C94_file.
Print Assumptions C94_file_falling.
Print Assumptions C94_angles_refuted.
