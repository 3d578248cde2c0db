(** C93: transfer functions through EMTF XML. *)
From Coq Require Import QArith Qabs Lqa.
From Verif Require Import PyBase PyText TfModel TfSpec TfProofs TfEmtfModel TfEmtfSpec TfEmtfProofs.
From Verif Require XmlModel EmtfModel EmtfSpec EmtfProps.
Local Open Scope nat_scope.

Lemma forall2_nth {A B} (R : A -> B -> Prop) (l : list A) : forall l' : list B, length l' = length l -> (forall p a b, nth_error l p = Some a -> nth_error l' p = Some b -> R a b) -> Forall2 R l l'.
Proof.
  induction l as [|a l IH]; intros [|b l'] E H; try discriminate E; [constructor|]. constructor; [apply (H 0); reflexivity|]. apply IH; [injection E; auto|]. intros p x y Hx Hy. apply (H (S p)); assumption.
Qed.

Section Conversion.
Variable root : Q -> Q.
Variable spr : cpair -> cpair -> cpair.
Notation num := (cells spr).
Notation tf := (TfModel.tf num).
Notation entry := (entry num).
Notation there := (there num).

(** * Every object can be converted *)
Theorem C93_to t : consistent num t -> exists d, to_emtf spr t = Ok d /\ EmtfModel.e_period d = periods num t.
Proof. intros C. destruct (to_emtf_ok spr t C) as (d & E & P & _). exists d. split; assumption. Qed.

(** * Through a file *)
Lemma square_blank e : EmtfSpec.blank (fst (square e)) <-> match fst e with Some q => (q == 0)%Q | None => True end.
Proof.
  unfold square, EmtfSpec.blank. cbn [fst]. destruct (fst e) as [q|]; [|reflexivity]. split; intros H; [|rewrite H; reflexivity]. apply Qmult_integral in H. destruct H; assumption.
Qed.
Lemma error_comes sq x y : sqrt_like sq -> EmtfSpec.came_back EmtfModel.KZVar (square x) y -> error_back x (sqrt_cell sq y).
Proof.
  intros SQ [H _]. specialize (H (or_introl eq_refl)).
  assert (BIG : EmtfSpec.is_1e32 (fst y) -> exists v, fst (sqrt_cell sq y) = Some v /\ (Qabs (v - inject_Z (10 ^ 16)) <= inject_Z (10 ^ 4))%Q).
  { intros (v & E & V). unfold sqrt_cell. cbn [fst]. rewrite E. assert (P : (0 <= v)%Q) by (rewrite V; discriminate). apply Qle_bool_iff in P as P'. rewrite P'.
    exists (sq v). split; [reflexivity|]. destruct (SQ v P) as [R1 R2]. clear E P'. generalize dependent (sq v). intros r R1 R2. rewrite V in R2.
    assert (B := root_near r (inject_Z (10 ^ 16)) (1 # 1000000000000) R1 ltac:(reflexivity) ltac:(discriminate)).
    change (inject_Z (10 ^ 16) * inject_Z (10 ^ 16))%Q with (inject_Z (10 ^ 32)) in B. specialize (B R2). eapply Qle_trans; [exact B|vm_compute; discriminate]. }
  unfold error_back. destruct H as [(B & Y)|(B & v & E & V)].
  - destruct (BIG Y) as (v & E & V). exists v. split; [exact E|]. apply (proj1 (square_blank x)) in B. destruct (fst x) as [e|]; [|exact V]. apply Qeq_bool_iff in B. rewrite B. exact V.
  - rewrite square_blank in B. unfold square in V. cbn [fst] in V. destruct (fst x) as [e|] eqn:X; [|exfalso; apply B; exact I].
    assert (N : Qeq_bool e 0 = false) by (destruct (Qeq_bool e 0) eqn:Z; [apply Qeq_bool_iff in Z; contradiction|reflexivity]). rewrite N.
    assert (S0 : (0 < Qabs e)%Q). { destruct (Qlt_le_dec 0 (Qabs e)) as [L|L]; [exact L|]. exfalso. apply B. apply Qabs_Qle_condition in L. lra. }
    assert (SS : (e * e == Qabs e * Qabs e)%Q). { destruct (Qlt_le_dec e 0). - rewrite Qabs_neg by lra. ring. - rewrite Qabs_pos by lra. ring. }
    assert (PE : (0 < Qabs e * Qabs e)%Q) by (apply Qmult_lt_0_compat; exact S0).
    rewrite Qabs_Qmult in V. rewrite SS in V. apply Qabs_Qle_condition in V as [V1 V2].
    assert (P : (0 <= v)%Q) by lra. unfold sqrt_cell. cbn [fst]. rewrite E. apply Qle_bool_iff in P as P'. rewrite P'. exists (sq v). split; [reflexivity|].
    destruct (SQ v P) as [R1 R2]. apply root_near; [exact R1|exact S0|discriminate|]. apply Qabs_Qle_condition in R2 as [R3 R4]. apply Qabs_Qle_condition. split; lra.
Qed.
Lemma zero_comes sq y : sqrt_like sq -> EmtfSpec.all_zero y -> nothing_there y /\ nothing_there (sqrt_cell sq y).
Proof.
  intros SQ ->. split; [exists 0%Q, 0%Q; repeat split; reflexivity|]. unfold sqrt_cell. cbn [fst]. exists (sq 0%Q), 0%Q. split; [reflexivity|]. split; [|reflexivity].
  destruct (SQ 0%Q ltac:(discriminate)) as [A B]. assert (B' : (Qabs (sq 0 * sq 0 - 0) <= 0)%Q) by (eapply Qle_trans; [exact B|discriminate]). apply Qabs_Qle_condition in B' as [_ B'].
  destruct (Qlt_le_dec 0 (sq 0%Q)) as [L|L]; [|lra]. assert (0 < sq 0 * sq 0)%Q by (apply Qmult_lt_0_compat; exact L). lra.
Qed.
Lemma nothing_zero : nothing_there (Some 0%Q, Some 0%Q).
Proof. exists 0%Q, 0%Q. repeat split; reflexivity. Qed.
Lemma place_of (o : chan) l : In o l -> exists r, at_place chan_dec o l = Some r /\ r < length l.
Proof.
  intros I. destruct (at_place_In chan_dec o l I) as [r E]. exists r. split; [exact E|]. apply at_place_nth in E. apply nth_error_Some. congruence.
Qed.
Theorem C93_file t d x f d' t0 : sqrt_like root -> consistent num t -> 2 <= length (periods num t) -> to_emtf spr t = Ok d ->
  EmtfSpec.file_of d x -> EmtfSpec.readable x -> EmtfModel.read_tree x = Ok f -> EmtfSpec.as_read f d' -> fresh spr t0 ->
  exists t', from_emtf root spr d' t0 = (t', None) /\ consistent num t' /\ periods_near (periods num t) (periods num t') /\
    quantity_back spr AImp back error_back t t' /\ quantity_back spr ATip back error_back t t' /\ covariances_back spr back t t'.
Proof.
  intros SQ C L ED F R ER (LEN & PER & ARR) F0. destruct (to_emtf_ok spr t C) as (d1 & ED1 & (PD & Z1 & Z2 & T1 & T2 & V1 & V2)). rewrite ED in ED1. injection ED1 as <-.
  assert (L' : 2 <= List.length (EmtfModel.e_period d)) by (rewrite PD; exact L).
  destruct (EmtfProps.C92_file d x L' F R) as (f1 & ER1 & (N & P & A)). rewrite ER in ER1. injection ER1 as <-.
  set (a := fun k => match EmtfModel.e_arr d' k with Some a => a | None => fun _ _ _ => (None, None) end).
  assert (AA : forall k, EmtfModel.e_arr d' k = Some (a k)) by (intros k; unfold a; destruct (ARR k) as (b & -> & _); reflexivity).
  assert (AF : forall k p i j, a k p i j = EmtfModel.f_arr f k p i j) by (intros k p i j; unfold a; destruct (ARR k) as (b & -> & B); apply B).
  destruct (from_emtf_ok root spr d' t0 a F0 AA) as (t' & EF & C' & N' & P' & TK). exists t'. split; [exact EF|]. split; [exact C'|].
  rewrite PD in N, P, A. split; [|split; [|split]].
  - rewrite P'. apply forall2_nth; [congruence|]. intros p q v Hq Hv. destruct (P p q Hq) as (v' & E & B). rewrite (PER p v Hv) in E. injection E as <-. exact B.
  - intros p o i Hp Ho Hi. destruct (place_of o _ Ho) as (r & PR & LR). destruct (place_of i _ Hi) as (c & PC & LC). destruct (TK p o i) as (K & _). destruct (K r c PR PC) as [K1 K2]. rewrite K1, K2, !AF.
    split; intros T.
    + destruct (Z1 T) as (z & v & EZ & EV & HZ & HV). split.
      * assert (B := A EmtfModel.KZ p r c Hp LR LC). rewrite EZ in B. rewrite (HZ p o i r c PR PC) in B. exact B.
      * assert (B := A EmtfModel.KZVar p r c Hp LR LC). rewrite EV in B. rewrite (HV p o i r c PR PC) in B. apply error_comes; assumption.
    + destruct (Z2 T) as [EZ EV]. assert (B := A EmtfModel.KZ p r c Hp LR LC). assert (B' := A EmtfModel.KZVar p r c Hp LR LC). rewrite EZ in B. rewrite EV in B'. split; [apply (zero_comes root _ SQ B)|apply (zero_comes root _ SQ B')].
  - intros p o i Hp Ho Hi. destruct (place_of o _ Ho) as (r & PR & LR). destruct (place_of i _ Hi) as (c & PC & LC). destruct (TK p o i) as (_ & K & _). destruct (K r c PR PC) as [K1 K2]. rewrite K1, K2, !AF.
    split; intros T.
    + destruct (T1 T) as (z & v & EZ & EV & HZ & HV). split.
      * assert (B := A EmtfModel.KT p r c Hp LR LC). rewrite EZ in B. rewrite (HZ p o i r c PR PC) in B. split; intros G; [destruct G; discriminate|]. apply B. intros [X|X]; discriminate X.
      * assert (B := A EmtfModel.KTVar p r c Hp LR LC). rewrite EV in B. rewrite (HV p o i r c PR PC) in B. apply error_comes; [exact SQ|]. split; intros G; [apply B; right; reflexivity|exfalso; apply G; left; reflexivity].
    + destruct (T2 T) as [EZ EV]. assert (B := A EmtfModel.KT p r c Hp LR LC). assert (B' := A EmtfModel.KTVar p r c Hp LR LC). rewrite EZ in B. rewrite EV in B'. split; [apply (zero_comes root _ SQ B)|apply (zero_comes root _ SQ B')].
  - intros p o i Hp. destruct (TK p o i) as (_ & _ & KS & KR & KW & KX).
    assert (CB : forall k y z, (k = EmtfModel.KTInv \/ k = EmtfModel.KZRes \/ k = EmtfModel.KTRes) -> EmtfSpec.came_back k y z -> back y z).
    { intros k y z K [_ H]. split; intros G; [destruct G; discriminate|]. apply H. intros [-> | ->]; destruct K as [K|[K|K]]; discriminate K. }
    split; [|split].
    + intros Ho Hi. destruct (place_of o _ Ho) as (r & PR & LR). destruct (place_of i _ Hi) as (c & PC & LC). rewrite (KS r c PR PC), AF. assert (B := A EmtfModel.KTInv p r c Hp LR LC). split; intros T.
      * destruct (V1 T) as (s & rr & w & E1 & E2 & E3 & E4 & H1 & H2 & H3). rewrite E2, (H1 p o i r c PR PC) in B. apply (CB EmtfModel.KTInv); [auto|exact B].
      * rewrite (V2 T EmtfModel.KTInv) in B by (cbn; auto). apply (zero_comes root _ SQ B).
    + intros [[Ho Hi]|[-> ->]].
      * destruct (place_of o _ Ho) as (r & PR & LR). destruct (place_of i _ Hi) as (c & PC & LC). rewrite (KR r c PR PC), AF. assert (B := A EmtfModel.KZRes p r c Hp LR LC). split; intros T.
        -- destruct (V1 T) as (s & rr & w & E1 & E2 & E3 & E4 & H1 & H2 & H3). rewrite E3, (H2 p o i r c PR PC) in B. apply (CB EmtfModel.KZRes); [auto|exact B].
        -- rewrite (V2 T EmtfModel.KZRes) in B by (cbn; auto). apply (zero_comes root _ SQ B).
      * rewrite (KW eq_refl eq_refl), AF. assert (B := A EmtfModel.KTRes p 0 0 Hp ltac:(cbn; lia) ltac:(cbn; lia)). split; intros T.
        -- destruct (V1 T) as (s & rr & w & E1 & E2 & E3 & E4 & H1 & H2 & H3). rewrite E4, (H3 p Hz Hz 0 0 eq_refl eq_refl) in B. apply (CB EmtfModel.KTRes); [auto|exact B].
        -- rewrite (V2 T EmtfModel.KTRes) in B by (cbn; auto). apply (zero_comes root _ SQ B).
    + intros G. rewrite (KX G). apply nothing_zero.
Qed.

(** What was read can be held by data. *)
Theorem C93_held d x f : 2 <= length (EmtfModel.e_period d) -> EmtfSpec.file_of d x -> EmtfSpec.readable x -> EmtfModel.read_tree x = Ok f -> exists d', EmtfSpec.as_read f d'.
Proof.
  intros L F R ER. destruct (EmtfProps.C92_file d x L F R) as (f1 & ER1 & (N & P & A)). rewrite ER in ER1. injection ER1 as <-.
  exists (EmtfModel.mkEmtf (map (fun p => match EmtfModel.f_period f p with Some v => v | None => 0%Q end) (seq 0 (EmtfModel.f_n f))) (fun k => Some (EmtfModel.f_arr f k))).
  split; [cbn [EmtfModel.e_period]; rewrite map_length, seq_length; reflexivity|]. split; [|intros k; eexists; split; [reflexivity|reflexivity]].
  cbn [EmtfModel.e_period]. intros p q H. rewrite nth_error_map in H. destruct (nth_error (seq 0 (EmtfModel.f_n f)) p) as [p'|] eqn:E; [|discriminate H]. injection H as H.
  assert (p < EmtfModel.f_n f) as LT by (rewrite <- (seq_length (EmtfModel.f_n f) 0); apply nth_error_Some; congruence).
  assert (p' = p) as ->. { apply nth_error_nth with (d := 0) in E. rewrite seq_nth in E by exact LT. cbn in E. congruence. }
  rewrite N in LT. apply nth_error_Some in LT. destruct (nth_error (EmtfModel.e_period d) p) as [y|] eqn:Y; [|contradiction]. destruct (P p y Y) as (v & EV & _). rewrite EV in *. congruence.
Qed.

(** * Without a file *)
Lemma error_same_root x : sqrt_like root -> error_same x (sqrt_cell root (square x)).
Proof.
  intros SQ. unfold error_same, sqrt_cell, square. cbn [fst]. destruct (fst x) as [e|]; [|reflexivity].
  assert (SS : (e * e == Qabs e * Qabs e)%Q). { destruct (Qlt_le_dec e 0). - rewrite Qabs_neg by lra. ring. - rewrite Qabs_pos by lra. ring. }
  assert (P : (0 <= e * e)%Q) by (rewrite SS; apply Qmult_le_0_compat; apply Qabs_nonneg). apply Qle_bool_iff in P as P'. rewrite P'. exists (root (e * e)%Q). split; [reflexivity|].
  destruct (SQ _ P) as [R1 R2]. clear P'. generalize dependent (root (e * e)%Q). intros r R1 R2. rewrite SS in R2.
  destruct (Qlt_le_dec 0 (Qabs e)) as [S0|S0]; [apply root_near; [exact R1|exact S0|discriminate|exact R2]|].
  assert (Z : (Qabs e == 0)%Q) by (pose proof (Qabs_nonneg e); lra). rewrite Z in R2 |- *. apply Qabs_Qle_condition in R2 as [_ R2].
  destruct (Qlt_le_dec 0 r) as [L|L]; [assert (0 < r * r)%Q by (apply Qmult_lt_0_compat; exact L); lra|]. apply Qabs_Qle_condition. split; lra.
Qed.
Theorem C93_object t d t0 : sqrt_like root -> consistent num t -> there AImp t -> there ATip t -> both_covariances spr t -> to_emtf spr t = Ok d -> fresh spr t0 ->
  exists t', from_emtf root spr d t0 = (t', None) /\ consistent num t' /\ periods num t' = periods num t /\
    quantity_back spr AImp eq error_same t t' /\ quantity_back spr ATip eq error_same t t' /\ covariances_back spr eq t t'.
Proof.
  intros SQ C TI TT TC ED F0. destruct (to_emtf_ok spr t C) as (d1 & ED1 & (PD & Z1 & _ & T1 & _ & V1 & _)). rewrite ED in ED1. injection ED1 as <-.
  destruct (Z1 TI) as (z & zv & EZ & EZV & HZ & HZV). destruct (T1 TT) as (w & wv & EW & EWV & HW & HWV). destruct (V1 TC) as (s & r & u & E1 & E2 & E3 & E4 & H1 & H2 & H3).
  set (a := fun k => match EmtfModel.e_arr d k with Some a => a | None => fun _ _ _ => (None, None) end).
  assert (AA : forall k, EmtfModel.e_arr d k = Some (a k)) by (intros k; unfold a; destruct k; [rewrite EZ|rewrite EZV|rewrite E1|rewrite E3|rewrite EW|rewrite EWV|rewrite E2|rewrite E4]; reflexivity).
  assert (AK : a EmtfModel.KZ = z /\ a EmtfModel.KZVar = zv /\ a EmtfModel.KZRes = r /\ a EmtfModel.KT = w /\ a EmtfModel.KTVar = wv /\ a EmtfModel.KTInv = s /\ a EmtfModel.KTRes = u) by (unfold a; rewrite EZ, EZV, E3, EW, EWV, E2, E4; repeat split).
  destruct AK as (K1 & K2 & K3 & K4 & K5 & K6 & K7).
  destruct (from_emtf_ok root spr d t0 a F0 AA) as (t' & EF & C' & N' & P' & TK). exists t'. split; [exact EF|]. split; [exact C'|]. split; [congruence|]. split; [|split].
  - intros p o i Hp Ho Hi. split; [intros _|contradiction]. destruct (place_of o _ Ho) as (x & PR & _). destruct (place_of i _ Hi) as (y & PC & _). destruct (TK p o i) as (K & _). destruct (K x y PR PC) as [-> ->].
    rewrite K1, K2, (HZ p o i x y PR PC), (HZV p o i x y PR PC). split; [reflexivity|apply error_same_root; exact SQ].
  - intros p o i Hp Ho Hi. split; [intros _|contradiction]. destruct (place_of o _ Ho) as (x & PR & _). destruct (place_of i _ Hi) as (y & PC & _). destruct (TK p o i) as (_ & K & _). destruct (K x y PR PC) as [-> ->].
    rewrite K4, K5, (HW p o i x y PR PC), (HWV p o i x y PR PC). split; [reflexivity|apply error_same_root; exact SQ].
  - intros p o i Hp. destruct (TK p o i) as (_ & _ & KS & KR & KW & KX). split; [|split].
    + intros Ho Hi. split; [intros _|contradiction]. destruct (place_of o _ Ho) as (x & PR & _). destruct (place_of i _ Hi) as (y & PC & _). rewrite (KS x y PR PC), K6, (H1 p o i x y PR PC). reflexivity.
    + intros [[Ho Hi]|[-> ->]]; (split; [intros _|contradiction]).
      * destruct (place_of o _ Ho) as (x & PR & _). destruct (place_of i _ Hi) as (y & PC & _). rewrite (KR x y PR PC), K3, (H2 p o i x y PR PC). reflexivity.
      * rewrite (KW eq_refl eq_refl), K7, (H3 p Hz Hz 0 0 eq_refl eq_refl). reflexivity.
    + intros G. rewrite (KX G). apply nothing_zero.
Qed.
(** * What is not so *)
(** Without a file the conversion fails as soon as one of the quantities is not there. *)
Lemma short_array a n t : a <> ATfModel -> length (periods num t) <> 0 -> forall f, set num a (GArray num (0 :: n) f) t = (t, Some TFError).
Proof. intros A N f. unfold set. rewrite bad_array; [reflexivity|exact A|]. unfold fits. intros E. injection E as E _. congruence. Qed.
Lemma short_put v outs ins n t f : length (periods num t) <> 0 -> exists e, put spr v outs ins (GArray num (0 :: n) f) t = (t, Some e).
Proof. intros N. unfold put. destruct (located _ _ _ _); [|eexists; reflexivity]. cbn [hd]. destruct (0 =? length (d_periods num (t_data num t))) eqn:E; [apply Nat.eqb_eq in E; unfold periods in N; congruence|eexists; reflexivity]. Qed.
Lemma andthen_err r k e t : r = (t, Some e) -> andthen spr r k = (t, Some e).
Proof. intros ->. reflexivity. Qed.
Lemma fails_later (r : tf * option exn) k : (exists t e, r = (t, Some e)) \/ (exists t, r = (t, None) /\ exists t' e, k t = (t', Some e)) -> exists t e, andthen spr r k = (t, Some e).
Proof. intros [(t & e & ->)|(t & -> & t' & e & E)]; [exists t, e; reflexivity|exists t', e; exact E]. Qed.
Theorem C93_object_refuted t d t0 : consistent num t -> periods num t <> [] -> ~ (there AImp t /\ there ATip t /\ both_covariances spr t) -> to_emtf spr t = Ok d -> fresh spr t0 ->
  exists t' e, from_emtf root spr d t0 = (t', Some e).
Proof.
  intros C NP NT ED F0. destruct (to_emtf_ok spr t C) as (d1 & ED1 & (PD & Z1 & Z2 & T1 & T2 & V1 & V2)). rewrite ED in ED1. injection ED1 as <-.
  destruct (fresh_period spr (EmtfModel.e_period d) t0 F0) as (t1 & S1 & C1 & N1 & P1 & _). unfold from_emtf. rewrite S1. cbn [andthen].
  assert (LN : forall u : tf, periods num u = EmtfModel.e_period d -> length (periods num u) <> 0) by (intros u E; rewrite E, PD; destruct (periods num t); [contradiction|discriminate]).
  apply fails_later. destruct (has_spec num AImp t C) as (hi & _ & Hi). destruct hi; [right|left].
  2: { assert (NI : ~ there AImp t) by (intros T; apply Hi in T; discriminate T). destruct (Z2 NI) as [EZ _]. unfold emtf_array. rewrite EZ. rewrite short_array; [|discriminate|apply LN; exact P1]. eexists _, _. reflexivity. }
  destruct (Z1 (proj1 Hi eq_refl)) as (z & zv & EZ & EZV & _). unfold emtf_array at 1. rewrite EZ.
  destruct (set_step spr AImp [length (EmtfModel.e_period d); 2; 2] z t1 C1 ltac:(discriminate) eq_refl ltac:(unfold fits; rewrite P1; reflexivity)) as (t2 & S2 & C2 & N2 & P2 & _). exists t2. split; [exact S2|].
  apply fails_later. right. unfold emtf_array at 1. rewrite EZV. cbn [sqrt_given].
  destruct (set_step spr AImpErr [length (EmtfModel.e_period d); 2; 2] (fun p i j => sqrt_cell root (zv p i j)) t2 C2 ltac:(discriminate) eq_refl ltac:(unfold fits; rewrite P2, P1; reflexivity)) as (t3 & S3 & C3 & N3 & P3 & _). exists t3. split; [exact S3|].
  assert (BD : both_covariances spr t \/ ~ both_covariances spr t).
  { unfold both_covariances. destruct (has_spec num ARes t C) as (hr & _ & Hr). destruct (has_spec num AIsp t C) as (hs & _ & Hs). destruct hr; [destruct hs|].
    - left. split; [apply Hr|apply Hs]; reflexivity.
    - right. intros [_ T]. apply Hs in T. discriminate T.
    - right. intros [T _]. apply Hr in T. discriminate T. }
  apply fails_later. destruct BD as [TC|NC]; [right|left].
  2: { unfold emtf_array. rewrite (V2 NC EmtfModel.KZInv) by (cbn; auto). destruct (short_put VIsp [txt "hx"; txt "hy"] [txt "hx"; txt "hy"] [2; 2] t3 (fun _ _ _ => (None, None))) as (e & E); [apply LN; congruence|]. eexists _, _. exact E. }
  destruct (V1 TC) as (s & r & u & E1 & E2 & E3 & E4 & _). unfold emtf_array at 1. rewrite E1.
  destruct (put_step spr VIsp [Hx; Hy] [Hx; Hy] [length (EmtfModel.e_period d); 2; 2] s t3 C3 ltac:(rewrite P3, P2, P1; reflexivity)) as (t4 & S4 & C4 & N4 & P4 & _). rewrite N3, N2, N1 in S4. exists t4. split; [exact S4|].
  apply fails_later. right. unfold emtf_array at 1. rewrite E3.
  destruct (put_step spr VRes [Ex; Ey] [Ex; Ey] [length (EmtfModel.e_period d); 2; 2] r t4 C4 ltac:(rewrite P4, P3, P2, P1; reflexivity)) as (t5 & S5 & C5 & N5 & P5 & _). rewrite N4, N3, N2, N1 in S5. exists t5. split; [exact S5|].
  apply fails_later. left. assert (NTI : ~ there ATip t) by (intros T; apply NT; split; [apply Hi; reflexivity|split; assumption]). destruct (T2 NTI) as [EW _]. unfold emtf_array. rewrite EW. rewrite short_array; [|discriminate|apply LN; congruence]. eexists _, _. reflexivity.
Qed.
(** An object with other names for the magnetic channels cannot read any of it. *)
Theorem C93_names_refuted ns d t0 a : (forall c c', name ns c = name ns c' -> c = c') -> (forall c, name ns c <> txt "hx") -> new num None [KNames num ns] = Ok t0 ->
  (forall k, EmtfModel.e_arr d k = Some (a k)) -> exists t', from_emtf root spr d t0 = (t', Some KeyError).
Proof.
  intros D X E A. cbn in E. injection E as <-. unfold from_emtf, emtf_array. rewrite !A. cbn [sqrt_given].
  assert (E1 : exists t1, set_period num (EmtfModel.e_period d) (mkTf num ns [] (initialize num ns [1%Q])) = (t1, None) /\ consistent num t1 /\ t_names num t1 = ns /\ periods num t1 = EmtfModel.e_period d /\ d_labels num (t_data num t1) = all_names ns).
  { eexists. split; [reflexivity|]. split; [|repeat split]. split; [exact D|]. intros c. destruct c; cbn; auto 10. }
  destruct E1 as (t1 & E1 & C1 & N1 & P1 & L1). rewrite E1. cbn [andthen].
  unfold set at 1. rewrite set_array; [|exact C1|discriminate|unfold fits; rewrite P1; reflexivity]. cbn [andthen].
  match goal with |- context [mkTf num (t_names num t1) (t_inverse num t1) ?dd] => set (t2 := mkTf num (t_names num t1) (t_inverse num t1) dd) end.
  assert (C2 : consistent num t2) by (apply consistent_assign; exact C1).
  unfold set at 1. rewrite set_array; [|exact C2|discriminate|unfold fits; change (periods num t2) with (periods num t1); rewrite P1; reflexivity]. cbn [andthen].
  match goal with |- context [mkTf num (t_names num t2) (t_inverse num t2) ?dd] => set (t3 := mkTf num (t_names num t2) (t_inverse num t2) dd) end.
  exists t3. apply andthen_err. unfold put. assert (LOC : located num (t_data num t3) [txt "hx"; txt "hy"] [txt "hx"; txt "hy"] = false).
  { unfold located. change (d_labels num (t_data num t3)) with (d_labels num (t_data num t1)). rewrite L1. cbn [forallb]. assert (M : member (txt "hx") (all_names ns) = false); [|rewrite M; reflexivity].
    destruct (member (txt "hx") (all_names ns)) eqn:M; [|reflexivity]. exfalso. apply member_In in M. unfold all_names in M. cbn in M.
    destruct M as [M|[M|[M|[M|[M|[]]]]]]; [apply (X Ex)|apply (X Ey)|apply (X Hz)|apply (X Hx)|apply (X Hy)]; exact M. }
  rewrite LOC. reflexivity.
Qed.
(** The inverse signal power is the one of the tipper: where a file has none there, the one of the impedance is lost. *)
Theorem C93_signal_refuted d t0 a p o i : fresh spr t0 -> (forall k, EmtfModel.e_arr d k = Some (a k)) -> In o [Hx; Hy] -> In i [Hx; Hy] -> (forall r c, a EmtfModel.KTInv p r c = (Some 0%Q, Some 0%Q)) ->
  exists t', from_emtf root spr d t0 = (t', None) /\ nothing_there (entry t' VIsp p o i).
Proof.
  intros F A Ho Hi Z. destruct (from_emtf_ok root spr d t0 a F A) as (t' & E & _ & _ & _ & TK). exists t'. split; [exact E|]. destruct (TK p o i) as (_ & _ & KS & _).
  destruct (place_of o _ Ho) as (r & PR & _). destruct (place_of i _ Hi) as (c & PC & _). rewrite (KS r c PR PC), Z. apply nothing_zero.
Qed.
End Conversion.

(** * Cases that meet the hypotheses *)
(** A square root of thirteen digits and more: of [n / d] with [k] such that [n * d * 10 ^ 2k] is big enough. *)
Definition a_root (v : Q) : Q := let n := (Qnum v * Z.pos (Qden v))%Z in Qmake (Z.sqrt (n * 10 ^ 26)) (Qden v * 10 ^ 13)%positive.
Lemma sqrt_bounds n : (0 <= n)%Z -> (0 <= Z.sqrt n /\ Z.sqrt n * Z.sqrt n <= n /\ n - Z.sqrt n * Z.sqrt n <= 2 * Z.sqrt n)%Z.
Proof. intros H. pose proof (Z.sqrt_nonneg n). destruct (Z.sqrt_spec n H) as [A B]. repeat split; lia. Qed.
Lemma a_root_like : sqrt_like a_root.
Proof.
  intros [n d] P. unfold a_root. cbn [Qnum Qden]. assert (N : (0 <= n)%Z) by (unfold Qle in P; cbn in P; lia). set (m := (n * Z.pos d)%Z).
  assert (M : (0 <= m)%Z) by (apply Z.mul_nonneg_nonneg; lia). destruct (sqrt_bounds (m * 10 ^ 26)) as (A & B & C); [apply Z.mul_nonneg_nonneg; lia|]. set (s := Z.sqrt (m * 10 ^ 26)) in *.
  split; [unfold Qle; cbn [Qnum Qden]; lia|].
  assert (S13 : (s * 10 ^ 13 <= m * 10 ^ 26)%Z). { destruct (Z.eq_dec m 0) as [E|E]; [unfold s; rewrite E; reflexivity|]. assert (10 ^ 13 <= s)%Z by (apply Z.sqrt_le_square; lia). nia. }
  assert (R : (Qmake s (d * 10 ^ 13) * Qmake s (d * 10 ^ 13) - (n # d) == Qmake (s * s - m * 10 ^ 26) (d * d * 10 ^ 26))%Q).
  { unfold Qeq, Qminus, Qplus, Qmult, Qopp, m. cbn [Qnum Qden]. rewrite !Pos2Z.inj_mul. change (Z.pos (10 ^ 13)) with (10 ^ 13)%Z. change (Z.pos (10 ^ 26)) with (10 ^ 26)%Z. ring. }
  rewrite R. unfold Qle, Qabs, Qmult. cbn [Qnum Qden]. rewrite Z.abs_neq by lia. rewrite !Pos2Z.inj_mul. change (Z.pos (10 ^ 26)) with (10 ^ 26)%Z.
  rewrite Z.mul_1_l. transitivity (m * 10 ^ 14 * (1000000000000 * Z.pos d))%Z; [apply Z.mul_le_mono_nonneg_r; [lia|lia]|]. unfold m. apply Z.eq_le_incl. ring.
Qed.
Definition no_spread (x y : cpair) : cpair := (Some 0%Q, Some 0%Q).
Notation nn := (cells no_spread).
Definition value (k : Z) : nat -> nat -> nat -> cpair := fun p i j => (Some (inject_Z (k + Z.of_nat (4 * p + 2 * i + j))), Some (1 # 3)%Q).
Definition three : TfModel.tf nn := mkTf nn default_names [] (initialize nn default_names [(1 # 10)%Q; 1%Q; 10%Q]).
Definition after (r : TfModel.tf nn * option exn) (a : atype) (n m : nat) (k : Z) : TfModel.tf nn * option exn := andthen no_spread r (set nn a (GArray nn [3; n; m] (value k))).
Definition with_impedance : TfModel.tf nn := fst (after (after (three, None) AImp 2 2 1) AImpErr 2 2 5).
Definition with_all : TfModel.tf nn := fst (after (after (after (after (after (after (three, None) AImp 2 2 1) AIsp 2 2 (-3)) ARes 3 3 40) ATip 1 2 30) AImpErr 2 2 5) ATipErr 1 2 7).
Lemma samples_consistent : consistent nn with_impedance /\ consistent nn with_all.
Proof.
  assert (A : t_names nn with_impedance = default_names /\ d_labels nn (t_data nn with_impedance) = all_names default_names) by (vm_compute; split; reflexivity).
  assert (B : t_names nn with_all = default_names /\ d_labels nn (t_data nn with_all) = all_names default_names) by (vm_compute; split; reflexivity).
  unfold consistent. destruct A as [-> ->], B as [-> ->]. split; (split; [apply default_inj|intros c; destruct c; unfold all_names; cbn; auto 10]).
Qed.
Local Ltac here := split; [vm_compute; lia|]; split; [cbn; tauto|]; split; [cbn; tauto|]; intros [X|(X & Y)]; [vm_compute in X; discriminate X|discriminate X || (vm_compute in Y; discriminate Y)].
Example C93_object_hyp : sqrt_like a_root /\ consistent nn with_all /\ there nn AImp with_all /\ there nn ATip with_all /\ both_covariances no_spread with_all /\ (exists t0, fresh no_spread t0) /\
  entry nn with_all VErr 1 Ey Hx = (Some 11%Q, Some 0%Q) /\ periods nn with_all = [(1 # 10)%Q; 1%Q; 10%Q].
Proof.
  split; [exact a_root_like|]. split; [apply samples_consistent|]. split; [exists 0, Ex, Hx; here|]. split; [exists 0, Hz, Hx; here|]. split; [split; [exists 0, Ex, Ex; here|exists 0, Hx, Hx; here]|].
  split; [eexists; reflexivity|]. split; vm_compute; reflexivity.
Qed.
Example C93_missing_hyp : consistent nn with_impedance /\ there nn AImp with_impedance /\ ~ there nn ATip with_impedance /\ ~ both_covariances no_spread with_impedance /\ periods nn with_impedance <> [].
Proof.
  split; [apply samples_consistent|]. split; [exists 0, Ex, Hx; here|]. split; [|split; [|vm_compute; discriminate]].
  - intros (p & o & i & _ & Ho & Hi & N). apply N. left. cbn in Ho, Hi. destruct Ho as [<-|[]], Hi as [<-|[<-|[]]]; lazy; reflexivity.
  - intros [_ (p & o & i & _ & Ho & Hi & N)]. apply N. left. cbn in Ho, Hi. destruct Ho as [<-|[<-|[]]], Hi as [<-|[<-|[]]]; lazy; reflexivity.
Qed.
(** The file of the object with an impedance only. *)
Example C93_file_hyp : exists d f d', to_emtf no_spread with_impedance = Ok d /\ EmtfSpec.file_of d (XmlModel.Elem (txt "EM_TF") [] None [EmtfModel.to_xml d]) /\ EmtfSpec.readable (XmlModel.Elem (txt "EM_TF") [] None [EmtfModel.to_xml d]) /\
  EmtfModel.read_tree (XmlModel.Elem (txt "EM_TF") [] None [EmtfModel.to_xml d]) = Ok f /\ EmtfSpec.as_read f d' /\ 2 <= length (periods nn with_impedance).
Proof.
  destruct (C93_to no_spread with_impedance (proj1 samples_consistent)) as (d & E & P). assert (L : 2 <= length (EmtfModel.e_period d)) by (rewrite P; vm_compute; lia).
  destruct (EmtfProps.C92_alone d (txt "EM_TF") L) as (f & R & _). destruct (C93_held d _ f L (EmtfProps.alone_file d (txt "EM_TF")) (EmtfProps.alone_readable d (txt "EM_TF")) R) as (d' & H).
  exists d, f, d'. split; [exact E|]. split; [apply EmtfProps.alone_file|]. split; [apply EmtfProps.alone_readable|]. split; [exact R|]. split; [exact H|vm_compute; lia].
Qed.
Definition field_names : names := mkNames (txt "e1") (txt "e2") (txt "bx") (txt "by") (txt "bz").
Example C93_names_hyp : (forall c c', name field_names c = name field_names c' -> c = c') /\ (forall c, name field_names c <> txt "hx") /\ exists t0, new nn None [KNames nn field_names] = Ok t0.
Proof. split; [intros c c'; destruct c, c'; intros E; (reflexivity || discriminate E)|]. split; [intros c; destruct c; discriminate|eexists; reflexivity]. Qed.
Print Assumptions C93_to.
Print Assumptions C93_file.
Print Assumptions C93_held.
Print Assumptions C93_object.
Print Assumptions C93_object_refuted.
Print Assumptions C93_names_refuted.
Print Assumptions C93_signal_refuted.
