(** Lemmas for C96: what the object holds after reading. *)
From Coq Require Import QArith Qabs Reals Qreals.
From Verif Require Import PyBase PyText TextFacts PyNum PyFloat Cplx TfModel TfSpec TfProofs TfEffects TfZmmModel TfZmmSpec TfZmmProofs TfZmmFile TfZmmRead TfZmmTurn.
From Verif Require ZmmModel ZmmSpec ZmmFile ZheadModel ZheadSpec ZheadFile ZheadProps ZrotModel ZrotSpec ZrotProps TfEmtfModel.
From Coq Require Import Lra.
Local Open Scope nat_scope.

Lemma row_in (rs : list ZmmModel.zread) (f : ZmmModel.zread -> nat -> nat -> ZmmModel.zval) p r i j : nth_error rs p = Some r -> row_at (map Some rs) f p i j = value_of (f r i j).
Proof. intros H. unfold row_at. rewrite (nth_error_nth (map Some rs) p None (map_nth_error Some p rs H)). reflexivity. Qed.
Lemma at_place_lt (l : list chan) o r : at_place chan_dec o l = Some r -> r < length l.
Proof. intros H. apply at_place_nth in H. apply nth_error_Some. congruence. Qed.
Lemma at_place_nth' (l : list chan) o r : at_place chan_dec o l = Some r -> nth r l Ex = o.
Proof. intros H. apply at_place_nth in H. apply nth_error_nth. exact H. Qed.
Lemma at_place_some o l : In o l -> exists r, at_place chan_dec o l = Some r.
Proof. apply at_place_In. Qed.
Lemma Forall2_from {A B} (P : A -> B -> Prop) l : forall l', length l' = length l -> (forall p x y, nth_error l p = Some x -> nth_error l' p = Some y -> P x y) -> Forall2 P l l'.
Proof.
  induction l as [|x l IH]; intros [|y l'] E H; try discriminate E; [constructor|]. constructor; [apply (H 0); reflexivity|]. apply IH; [injection E as E; exact E|]. intros p a b. apply (H (S p)).
Qed.

Section Written.
Variable spr : cpair -> cpair -> cpair.
Notation cells := (TfEmtfModel.cells spr).

Section Read.
Variables (t : tf cells) (outs : list chan) (rs : list ZmmModel.zread) (z : zfile) (t0 : tf cx).
Hypothesis FD : finite_data spr t outs.
Hypothesis LR : length rs = length (periods cells t).
Hypothesis ROWS : forall p r, nth_error rs p = Some r -> row_ok spr t outs p r.
Hypothesis FR : fresh t0.
Hypothesis EP : zf_periods z = map row_period (map Some rs).
Hypothesis ZI : zf_ins z = nm inputs.
Hypothesis ZO : zf_outs z = nm outs.
Hypothesis CZ : consistent cx (wrap (zf_data z)).
Hypothesis SIG : forall p o i r c, at_place chan_dec o inputs = Some r -> at_place chan_dec i inputs = Some c -> ent (wrap (zf_data z)) VIsp p o i = row_at (map Some rs) ZmmModel.zr_sig p r c.
Hypothesis RES : forall p o i r c, at_place chan_dec o outs = Some r -> at_place chan_dec i outs = Some c -> ent (wrap (zf_data z)) VRes p o i = row_at (map Some rs) ZmmModel.zr_res p r c.

Lemma row_here p : p < length (periods cells t) -> exists r, nth_error rs p = Some r /\ row_ok spr t outs p r.
Proof. intros H. rewrite <- LR in H. apply nth_error_Some in H. destruct (nth_error rs p) as [r|] eqn:E; [|contradiction]. exists r. split; [reflexivity|apply ROWS; exact E]. Qed.

Lemma sig_near p i j : p < length (periods cells t) -> below inputs i j -> near (entry cells t VIsp p i j) (ent (wrap (zf_data z)) VIsp p i j) /\
  (i <> j -> conjugate (ent (wrap (zf_data z)) VIsp p i j) (ent (wrap (zf_data z)) VIsp p j i)).
Proof.
  intros Hp B. pose proof B as (r & c & Hi & Hj & L). destruct (row_here p Hp) as (x & Ex0 & (_ & _ & S0 & _ & H1 & _)).
  assert (NR : near (entry cells t VIsp p i j) (value_of (ZmmModel.zr_sig x r c))).
  { apply near_value; [apply (proj1 (proj2 (FD p Hp))); exact B|]. specialize (S0 r c ltac:(apply at_place_lt in Hi; exact Hi) L). rewrite (at_place_nth' _ _ _ Hi), (at_place_nth' _ _ _ Hj) in S0. exact S0. }
  rewrite (SIG p i j r c Hi Hj), (SIG p j i c r Hj Hi), !(row_in rs _ p x) by exact Ex0. split; [exact NR|]. intros NE.
  destruct (near_some _ _ NR) as (u & U). apply (conj_value _ _ u); [|exact U]. apply H1; [|apply at_place_lt in Hi; exact Hi]. destruct (Nat.eq_dec c r) as [->|]; [|lia]. destruct NE. rewrite <- (at_place_nth' _ _ _ Hi). exact (at_place_nth' _ _ _ Hj).
Qed.
Lemma res_near p i j : p < length (periods cells t) -> below outs i j -> near (entry cells t VRes p i j) (ent (wrap (zf_data z)) VRes p i j) /\
  (i <> j -> conjugate (ent (wrap (zf_data z)) VRes p i j) (ent (wrap (zf_data z)) VRes p j i)).
Proof.
  intros Hp B. pose proof B as (r & c & Hi & Hj & L). destruct (row_here p Hp) as (x & Ex0 & (_ & _ & _ & S0 & _ & H1)).
  assert (NR : near (entry cells t VRes p i j) (value_of (ZmmModel.zr_res x r c))).
  { apply near_value; [apply (proj2 (proj2 (FD p Hp))); exact B|]. specialize (S0 r c ltac:(apply at_place_lt in Hi; exact Hi) L). rewrite (at_place_nth' _ _ _ Hi), (at_place_nth' _ _ _ Hj) in S0. exact S0. }
  rewrite (RES p i j r c Hi Hj), (RES p j i c r Hj Hi), !(row_in rs _ p x) by exact Ex0. split; [exact NR|]. intros NE.
  destruct (near_some _ _ NR) as (u & U). apply (conj_value _ _ u); [|exact U]. apply H1; [|apply at_place_lt in Hi; exact Hi]. destruct (Nat.eq_dec c r) as [->|]; [|lia]. destruct NE. rewrite <- (at_place_nth' _ _ _ Hi). exact (at_place_nth' _ _ _ Hj).
Qed.
Lemma below_in l o o' : below l o o' -> In o l /\ In o' l.
Proof. intros (r & c & H1 & H2 & _). split; [exact (at_place_In' _ _ _ _ H1)|exact (at_place_In' _ _ _ _ H2)]. Qed.
Lemma below_or l o o' : In o l -> In o' l -> below l o o' \/ below l o' o.
Proof.
  intros H1 H2. destruct (at_place_some o l H1) as (r & E1). destruct (at_place_some o' l H2) as (c & E2). destruct (Nat.le_ge_cases c r); [left; exists r, c|right; exists c, r]; auto.
Qed.
Lemma below_refl l o : In o l -> below l o o.
Proof. intros H. destruct (at_place_some o l H) as (r & E). exists r, r. auto. Qed.

Lemma copied_there tm : copied z outs tm ->
  (forall p o i, In o inputs -> In i inputs -> ent tm VIsp p o i = ent (wrap (zf_data z)) VIsp p o i) /\
  (forall p o i, In o outs -> In i outs -> ent tm VRes p o i = ent (wrap (zf_data z)) VRes p o i) /\
  (forall p o i, In o outs -> In i inputs -> ent tm VTf p o i = ent (wrap (zf_data z)) VTf p o i) /\
  length (periods cx tm) = length (periods cells t).
Proof.
  intros (_ & P & _ & E). split; [|split; [|split]].
  - intros p o i Ho Hi. rewrite E by discriminate. destruct (at_place_some _ _ Ho) as (r & ->). destruct (at_place_some _ _ Hi) as (c & ->). reflexivity.
  - intros p o i Ho Hi. rewrite E by discriminate. destruct (at_place_some _ _ Ho) as (r & ->). destruct (at_place_some _ _ Hi) as (c & ->). reflexivity.
  - intros p o i Ho Hi. rewrite E by discriminate. destruct (at_place_some _ _ Ho) as (r & ->). destruct (at_place_some _ _ Hi) as (c & ->). reflexivity.
  - rewrite P, EP, !map_length. exact LR.
Qed.
Lemma not_place o l : ~ In o l -> at_place chan_dec o l = None.
Proof. intros H. destruct (at_place chan_dec o l) as [r|] eqn:E; [|reflexivity]. destruct H. exact (at_place_In' _ _ _ _ E). Qed.
Lemma copied_zero tm : copied z outs tm ->
  (forall p o i, ~ (In o outs /\ In i inputs) -> zero_at tm VTf p o i) /\
  (forall p o i, ~ (In o inputs /\ In i inputs) -> zero_at tm VIsp p o i) /\
  (forall p o i, ~ (In o outs /\ In i outs) -> zero_at tm VRes p o i) /\
  (forall p o i, zero_at tm VModel p o i).
Proof.
  intros (_ & _ & _ & E). assert (X : forall o i l l', ~ (In o l /\ In i l') -> forall A (x y : A), match at_place chan_dec o l, at_place chan_dec i l' with Some _, Some _ => x | _, _ => y end = y).
  { intros o i l l' H A x y. destruct (at_place chan_dec o l) as [r|] eqn:E1; [|reflexivity]. destruct (at_place chan_dec i l') as [c|] eqn:E2; [|reflexivity]. destruct H. split; eapply at_place_In'; eassumption. }
  split; [|split; [|split]]; intros p o i; [intros H|intros H|intros H|]; unfold zero_at; rewrite E by discriminate; [apply (X o i _ _ H)|apply (X o i _ _ H)|apply (X o i _ _ H)|reflexivity].
Qed.

Lemma outs_rows : incl outs [Ex; Ey; Hz] -> forall o, In o outs -> In o (rows ARes).
Proof. intros H o Ho. exact (H o Ho). Qed.

Lemma read_back : incl outs [Ex; Ey; Hz] -> has_power spr t -> TfZmmSpec.has_residual spr t outs ->
  exists t1, from_zmm z t0 = (t1, None) /\ rest_back spr t outs t1 /\ forall p o i, In o outs -> In i inputs -> ent t1 VTf p o i = ent (wrap (zf_data z)) VTf p o i.
Proof.
  intros IN (pa & ia & ja & Ha & Ba & Na) (pb & ib & jb & Hb & Bb & Nb).
  destruct (from_zmm_copies z outs t0 FR ZI ZO CZ) as (tm & EF & CP). destruct (copied_there tm CP) as (T1 & T2 & T3 & TL). destruct (copied_zero tm CP) as (Z1 & Z2 & Z3 & Z4).
  assert (CM : consistent cx tm) by apply CP.
  assert (HI : there cx AIsp tm).
  { exists pa, ia, ja. split; [rewrite TL; exact Ha|]. destruct (below_in _ _ _ Ba) as [I1 I2]. split; [exact I1|]. split; [exact I2|]. intros [N|[N _]]; [|discriminate N]. change (part (base AIsp)) with VIsp in N. rewrite T1 in N by assumption.
    rewrite (near_not_zero spr _ _ (proj1 (sig_near pa ia ja Ha Ba)) Na) in N. discriminate N. }
  assert (HR : there cx ARes tm).
  { exists pb, ib, jb. split; [rewrite TL; exact Hb|]. destruct (below_in _ _ _ Bb) as [I1 I2]. split; [exact (IN _ I1)|]. split; [exact (IN _ I2)|]. intros [N|[N _]]; [|discriminate N]. change (part (base ARes)) with VRes in N. rewrite T2 in N by assumption.
    rewrite (near_not_zero spr _ _ (proj1 (res_near pb ib jb Hb Bb)) Nb) in N. discriminate N. }
  destruct (compute_spec cx tm CM HR HI) as (t1 & EC & (K1 & K2 & K3) & E). exists t1. split; [rewrite EF; exact EC|].
  assert (OTH : forall v p o i, v <> VErr -> ent t1 v p o i = ent tm v p o i).
  { intros v p o i NV. rewrite E. unfold place. cbn [part]. destruct (var_dec v VErr) as [->|_]; [contradiction|reflexivity]. }
  assert (P1 : periods cx t1 = map row_period (map Some rs)). { destruct CP as (_ & P & _). congruence. }
  split; [|intros p o i Ho Hi; rewrite OTH by discriminate; apply T3; assumption].
  split; [|split; [|split; [|split; [|split; [|split]]]]].
  - destruct CP as (N & _). congruence.
  - rewrite P1. apply Forall2_from; [rewrite !map_length; exact LR|]. intros p q q' Hq Hq'. rewrite map_map in Hq'.
    destruct (row_here p) as (r & Er & ((v & Ev & B) & _)); [apply nth_error_Some; congruence|]. rewrite (map_nth_error _ _ _ Er) in Hq'. injection Hq' as <-. cbn [row_period]. rewrite Ev. rewrite (nth_error_nth _ _ 0%Q Hq) in B. exact B.
  - intros p Hp. split; [|split].
    + intros i j B. rewrite !OTH by discriminate. destruct (below_in _ _ _ B) as [I1 I2]. rewrite !T1 by assumption. apply sig_near; assumption.
    + intros i j B. rewrite !OTH by discriminate. destruct (below_in _ _ _ B) as [I1 I2]. rewrite !T2 by assumption. apply res_near; assumption.
    + intros o i Ho Hi. rewrite !(OTH VRes), !(OTH VIsp) by discriminate. rewrite (E VErr). assert (PL : exists rc, place ATfErr VErr o i = Some rc).
      { unfold place. cbn [part]. destruct (var_dec VErr VErr) as [_|N]; [|contradiction]. destruct (at_place_some o (rows ATfErr) Ho) as (r & ->). destruct (at_place_some i (cols ATfErr) Hi) as (c & ->). eexists; reflexivity. }
      destruct PL as (rc & ->). assert (SB : exists b, ent tm VIsp p i i = Some b). { rewrite T1 by assumption. apply (near_some (entry cells t VIsp p i i)). apply sig_near; [assumption|apply below_refl; assumption]. }
      assert (SA : exists a, ent tm VRes p o o = Some a).
      { destruct (in_dec chan_dec o outs) as [Y|N]; [rewrite T2 by assumption; apply (near_some (entry cells t VRes p o o)); apply res_near; [assumption|apply below_refl; assumption]|]. exists C0. apply Z3. intros [Y _]. contradiction. }
      destruct SA as (a & A). destruct SB as (b & B). exists a, b. split; [exact A|]. split; [exact B|]. rewrite A, B. cbn. rewrite (Rabs_right (Cabs (Cmul a b))) by (apply Rle_ge, Cabs_nonneg). reflexivity.
  - intros p o i H. unfold zero_at. rewrite OTH by discriminate. apply Z1, H.
  - intros p o i H. unfold zero_at. rewrite OTH by discriminate. apply Z2, H.
  - intros p o i H. unfold zero_at. rewrite OTH by discriminate. apply Z3, H.
  - intros p o i. unfold zero_at. rewrite OTH by discriminate. apply Z4.
Qed.

(** Without covariances. *)
Lemma no_back : ~ has_power spr t -> exists t1, from_zmm z t0 = (t1, Some AttributeError).
Proof.
  intros NP. destruct (from_zmm_copies z outs t0 FR ZI ZO CZ) as (tm & EF & CP). destruct (copied_there tm CP) as (T1 & _ & _ & TL).
  assert (CM : consistent cx tm) by apply CP. exists tm. rewrite EF.
  assert (ZZ : forall p i j, p < length (periods cells t) -> below inputs i j -> ent (wrap (zf_data z)) VIsp p i j = Some C0).
  { intros p i j Hp B. apply (near_zero spr (entry cells t VIsp p i j)); [apply sig_near; assumption|]. intros N. apply NP. exists p, i, j. split; [exact Hp|]. split; assumption. }
  assert (HI : ~ there cx AIsp tm).
  { intros (p & i & j & Hp & Hi & Hj & N). apply N. left. change (part (base AIsp)) with VIsp. rewrite T1 by assumption. rewrite TL in Hp.
    assert (X : ent (wrap (zf_data z)) VIsp p i j = Some C0 \/ ent (wrap (zf_data z)) VIsp p i j = Some (0, -0)%R).
    { destruct (below_or inputs i j Hi Hj) as [B|B]; [left; apply ZZ; assumption|]. destruct (chan_dec i j) as [->|NE]; [left; apply ZZ; assumption|]. right.
      destruct (proj2 (sig_near p j i Hp B) ltac:(congruence)) as (u & v & E1 & E2). rewrite (ZZ p j i Hp B) in E1. unfold C0 in E1. injection E1 as <- <-. exact E2. }
    destruct X as [->| ->]; cbn; [|rewrite Ropp_0]; (destruct (Req_EM_T 0 0) as [_|X]; [reflexivity|contradiction]). }
  destruct (there_decides cx ARes tm CM) as [HR|HR]; [exact (compute_nothing cx tm CM HR HI)|exact (compute_nothing' cx tm CM HR)].
Qed.
End Read.
End Written.
