(** Proofs about the comparison of transfer functions. *)
From Coq Require Import QArith.
From Verif Require Import PyBase PyFacts PyText TextFacts TfModel TfSpec TfProofs TeqModel TeqSpec.
From Coq Require Import Lia.
Local Open Scope nat_scope.
Local Open Scope list_scope.

Lemma same_periods_iff : forall a b, same_periods a b = true <-> Forall2 Qeq a b.
Proof.
  induction a as [|x a IH]; intros [|y b]; cbn; split; intros H; try discriminate; try constructor; try (now inversion H); try reflexivity.
  - apply andb_true_iff in H as (H & _). now apply Qeq_bool_iff.
  - apply andb_true_iff in H as (_ & H). now apply IH.
  - inversion H; subst. apply andb_true_iff. split; [now apply Qeq_bool_iff|now apply IH].
Qed.
Lemma Forall2_Qeq_len a b : Forall2 Qeq a b -> List.length a = List.length b.
Proof. induction 1; cbn; congruence. Qed.
Lemma same_labels_iff a b : same_labels a b = true <-> a = b.
Proof. unfold same_labels. destruct (list_eq_dec text_dec a b); split; intros; congruence. Qed.

Section Eq.
Variables (num : nums) (station survey : Type).
Variables (alike : val num -> val num -> bool) (station_ne : station -> station -> bool) (survey_ne : survey -> survey -> bool).
Notation subject := (subject num station survey).
Notation ATF := (ATF num station survey).
Notation s_tf := (s_tf num station survey).
Notation tf_eq := (tf_eq num station survey alike station_ne survey_ne).

Lemma data_equals_iff t t' a b : shows num t ATf a -> shows num t' ATf b ->
  data_equals num alike a b = true <-> same_function num alike t t'.
Proof.
  intros (P & O & I & V) (P' & O' & I' & V'). unfold data_equals.
  rewrite !andb_true_iff, !same_labels_iff, same_periods_iff, P, P', O, O', I, I'.
  change (rows ATf) with [Ex; Ey; Hz] in *. change (cols ATf) with [Hx; Hy] in *. change (part ATf) with VTf in *.
  assert (N : (map (name (t_names num t)) [Ex; Ey; Hz] = map (name (t_names num t')) [Ex; Ey; Hz] /\
               map (name (t_names num t)) [Hx; Hy] = map (name (t_names num t')) [Hx; Hy]) <-> forall c, name (t_names num t) c = name (t_names num t') c).
  { cbn [map]. split.
    - intros (E & F) c. injection E as E1 E2 E3. injection F as F1 F2. destruct c; assumption.
    - intros H. now rewrite !H. }
  assert (W : (forall c, name (t_names num t) c = name (t_names num t') c) ->
    (forallb (fun p => forallb (fun o => forallb (fun i => alike (l_at num a p o i) (l_at num b p o i)) (map (name (t_names num t)) [Hx; Hy])) (map (name (t_names num t)) [Ex; Ey; Hz]))
       (seq 0 (List.length (periods num t))) = true <->
     forall p o i, p < List.length (periods num t) -> In o [Ex; Ey; Hz] -> In i [Hx; Hy] -> alike (entry num t VTf p o i) (entry num t' VTf p o i) = true)).
  { intros H. rewrite forallb_forall. split.
    - intros F p o i Lp Ho Hi. specialize (F p). rewrite in_seq in F. specialize (F ltac:(lia)).
      rewrite forallb_forall in F. specialize (F (name (t_names num t) o) (in_map _ _ _ Ho)).
      rewrite forallb_forall in F. specialize (F (name (t_names num t) i) (in_map _ _ _ Hi)).
      rewrite V in F by assumption. rewrite !H, V' in F by assumption. exact F.
    - intros F p Lp. apply in_seq in Lp. apply forallb_forall. intros x X. apply in_map_iff in X as (o & <- & Ho).
      apply forallb_forall. intros y Y. apply in_map_iff in Y as (i & <- & Hi).
      rewrite V by assumption. rewrite !H, V' by assumption. apply F; [lia|assumption|assumption]. }
  unfold same_function. split.
  - intros (((HP & HO) & HI) & F). assert (NN := proj1 N (conj HO HI)). split; [exact NN|]. split; [exact HP|]. now apply W.
  - intros (NN & HP & F). destruct (proj2 N NN) as (HO & HI). repeat split; try assumption. now apply W.
Qed.

Lemma eq_spec (s s' : subject) : consistent num (s_tf s) -> consistent num (s_tf s') ->
  exists b, tf_eq s (ATF s') = Ok b /\
  (b = true <-> station_ne (s_station _ _ _ s) (s_station _ _ _ s') = false /\ survey_ne (s_survey _ _ _ s) (s_survey _ _ _ s') = false /\
     ((there num ATf (s_tf s) /\ there num ATf (s_tf s') /\ same_function num alike (s_tf s) (s_tf s')) \/
      (~ there num ATf (s_tf s) /\ ~ there num ATf (s_tf s')))).
Proof.
  intros C C'. cbn [TeqModel.tf_eq].
  destruct (has_spec num ATf (s_tf s) C) as (h & E & H). destruct (has_spec num ATf (s_tf s') C') as (h' & E' & H').
  change (has_transfer_function num (s_tf s) = Ok h) in E. change (has_transfer_function num (s_tf s') = Ok h') in E'.
  rewrite E, E'. cbn [bindR].
  set (e1 := station_ne _ _). set (e2 := survey_ne _ _).
  assert (K : exists e3, (if h && h' then arrays_equal num alike (s_tf s) (s_tf s') else if negb h && negb h' then Ok true else Ok false) = Ok e3 /\
     (e3 = true <-> ((there num ATf (s_tf s) /\ there num ATf (s_tf s') /\ same_function num alike (s_tf s) (s_tf s')) \/
      (~ there num ATf (s_tf s) /\ ~ there num ATf (s_tf s'))))).
  { destruct h.
    - assert (T : there num ATf (s_tf s)) by now apply H. destruct h'; cbn [andb negb].
      + assert (T' : there num ATf (s_tf s')) by now apply H'.
        destruct (proj1 (get_spec num ATf (s_tf s) C) T) as (a & Ea & Sa). destruct (proj1 (get_spec num ATf (s_tf s') C') T') as (b & Eb & Sb).
        unfold arrays_equal. rewrite Ea, Eb. cbn [bindR]. eexists; split; [reflexivity|]. rewrite (data_equals_iff _ _ _ _ Sa Sb). tauto.
      + eexists; split; [reflexivity|]. assert (~ there num ATf (s_tf s')) by (rewrite <- H'; discriminate). split; [discriminate|tauto].
    - assert (T : ~ there num ATf (s_tf s)) by (rewrite <- H; discriminate). destruct h'; cbn [andb negb].
      + eexists; split; [reflexivity|]. assert (there num ATf (s_tf s')) by now apply H'. split; [discriminate|tauto].
      + eexists; split; [reflexivity|]. assert (~ there num ATf (s_tf s')) by (rewrite <- H'; discriminate). tauto. }
  destruct K as (e3 & -> & K). cbn [bindR]. eexists; split; [reflexivity|].
  rewrite !andb_true_iff, !negb_true_iff, K. tauto.
Qed.

Lemma there_dec_em (t : tf num) : consistent num t -> there num ATf t \/ ~ there num ATf t.
Proof. intros C. destruct (has_spec num ATf t C) as (h & _ & H). destruct h; [left; now apply H|right; rewrite <- H; discriminate]. Qed.

Lemma same_refl t : equivalence alike -> same_function num alike t t.
Proof.
  intros (R & _). split; [reflexivity|]. split; [|intros; apply R].
  induction (periods num t); constructor; [reflexivity|assumption].
Qed.
Lemma same_sym t t' : equivalence alike -> same_function num alike t t' -> same_function num alike t' t.
Proof.
  intros (_ & S & _) (N & P & V). split; [intros; now rewrite N|]. split.
  - clear V. induction P; constructor; [now symmetry|assumption].
  - intros p o i Lp Ho Hi. apply S, V; try assumption. rewrite (Forall2_Qeq_len _ _ P). assumption.
Qed.
Lemma same_trans t u v : equivalence alike -> same_function num alike t u -> same_function num alike u v -> same_function num alike t v.
Proof.
  intros (_ & _ & T) (N & P & V) (N' & P' & V'). split; [intros; now rewrite N, N'|]. split.
  - clear V V'. revert P'. generalize (periods num v). induction P as [|x y l l' E P IH]; intros m P'; inversion P'; subst; constructor.
    + etransitivity; eassumption.
    + now apply IH.
  - intros p o i Lp Ho Hi. apply (T _ (entry num u VTf p o i)); [now apply V|]. apply V'; try assumption.
    rewrite <- (Forall2_Qeq_len _ _ P). assumption.
Qed.
Lemma there_like t t' : like t t' -> (forall p o i, entry num t' VTf p o i = entry num t VTf p o i) -> there num ATf t <-> there num ATf t'.
Proof.
  intros (N & P) V. unfold there. cbn [base part rows cols]. rewrite P.
  split; intros (p & o & i & A & B & C & D); exists p, o, i; repeat split; try assumption; [rewrite V|rewrite <- V]; assumption.
Qed.
Lemma same_like t t' : equivalence alike -> like t t' -> (forall p o i, entry num t' VTf p o i = entry num t VTf p o i) -> same_function num alike t t'.
Proof.
  intros (R & _) (N & P) V. split; [intros; now rewrite N|]. split.
  - rewrite P. clear. induction (periods num t) as [|x l IH]; [constructor|constructor; [reflexivity|exact IH]].
  - intros p o i _ _ _. rewrite V. apply R.
Qed.
End Eq.
