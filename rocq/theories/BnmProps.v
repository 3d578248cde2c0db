(** C149: names of frequency bands. *)
From Coq Require Import Qabs Lqa.
From Verif Require Import PyBase PyFacts PyText TextFacts PyNum PyFloat PyFloatFacts HeadValues AvgHeadValues BnmModel BnmSpec.
From Coq Require Import Lia.
Local Open Scope list_scope.

Lemma both_true l h : both l h = true <-> has_both l h.
Proof. unfold both, has_both. rewrite andb_true_iff, !negb_true_iff, <- !Qeq_bool_iff. destruct (Qeq_bool l 0), (Qeq_bool h 0); intuition congruence. Qed.
Lemma both_false l h : both l h = false <-> ~ has_both l h.
Proof. rewrite <- both_true. destruct (both l h); intuition congruence. Qed.
Lemma mean_nonempty l h : mean_name l h <> [].
Proof. apply fixed_nonempty. Qed.
Lemma mean_not_empty_band l h : mean_name l h <> txt "empty_band".
Proof. intros E. pose proof (fixed_chars 6 ((l + h) / inject_Z 2)) as C. change (show_fixed 6 ((l + h) / inject_Z 2)) with (mean_name l h) in C. rewrite E in C. discriminate C. Qed.
Lemma eqb_no (a b : text) : a <> b -> text_eqb a b = false.
Proof. unfold text_eqb. destruct (text_dec a b); congruence. Qed.
(** A name that is neither blank nor "empty_band" stays. *)
Lemma check_other l h n : n <> [] -> n <> txt "empty_band" -> check_name (mkBand l h (Some n)) = mkBand l h (Some n).
Proof. intros A B. unfold check_name. cbn [name blank low high]. rewrite (eqb_no _ _ A), (eqb_no _ _ B). reflexivity. Qed.
Lemma check_empty l h : check_name (mkBand l h (Some (txt "empty_band"))) = mkBand l h (Some (if both l h then mean_name l h else txt "empty_band")).
Proof. unfold check_name. cbn [name low high]. change (blank (Some (txt "empty_band"))) with false. change (text_eqb (txt "empty_band") (txt "empty_band")) with true. cbn [orb andb]. destruct (both l h); reflexivity. Qed.
Lemma check_name_again b : check_name (check_name b) = check_name b.
Proof.
  destruct b as [l h n]. assert (M : check_name (mkBand l h (Some (mean_name l h))) = mkBand l h (Some (mean_name l h))) by (apply check_other; [apply mean_nonempty|apply mean_not_empty_band]).
  unfold check_name at 2 3. cbn [name low high].
  destruct (blank n || _) eqn:E.
  - destruct (both l h) eqn:B; [exact M|]. rewrite check_empty, B. reflexivity.
  - unfold check_name. cbn [name low high]. rewrite E. reflexivity.
Qed.
Lemma set_ends b ss : low (set_all b ss) = low_after (low b) ss /\ high (set_all b ss) = high_after (high b) ss.
Proof.
  assert (C : forall b, low (check_name b) = low b /\ high (check_name b) = high b) by (intros [l h n]; unfold check_name; cbn [low high name]; destruct (_ || _); [destruct (both l h)|]; split; reflexivity).
  revert b. induction ss as [|s ss IH]; intros b; [split; reflexivity|]. unfold set_all. cbn [fold_left]. fold (set_all (set b s) ss). destruct (IH (set b s)) as [-> ->].
  destruct s; cbn [set low_after high_after]; destruct (C (mkBand q (high b) (name b))) as [X Y] || destruct (C (mkBand (low b) q (name b))) as [X Y] || destruct (C (mkBand (low b) (high b) (validate_name (low b) (high b) n))) as [X Y]; cbn [low high] in X, Y; split.
  all: try (rewrite X; reflexivity); try (rewrite Y; reflexivity).
  all: destruct (C (mkBand (low b) q (name b))) as [X' Y']; cbn [low high] in X', Y'; (rewrite X' || rewrite Y'); reflexivity.
Qed.
Lemma set_all_app b p r : set_all b (p ++ r) = set_all (set_all b p) r.
Proof. apply fold_left_app. Qed.
(** Settings of frequencies leave such a name. *)
Lemma kept n ss : forall b, n <> [] -> n <> txt "empty_band" -> Forall of_frequency ss -> name b = Some n -> name (set_all b ss) = Some n.
Proof.
  induction ss as [|s ss IH]; intros b A B F E; [exact E|]. inversion F as [|? ? F1 F2]; subst. unfold set_all. cbn [fold_left]. apply IH; [assumption..|].
  destruct s; cbn [set of_frequency] in *; [..|contradiction]; rewrite E, check_other by assumption; reflexivity.
Qed.
Lemma mean_kept l h ss b : Forall of_frequency ss -> name b = Some (mean_name l h) -> name (set_all b ss) = Some (mean_name l h).
Proof. apply kept; [apply mean_nonempty|apply mean_not_empty_band]. Qed.
Lemma new_name l h : new_band None l h = mkBand l h (Some (if both l h then mean_name l h else txt "empty_band")).
Proof. unfold new_band, check_name. cbn [name low high]. change (blank (Some [])) with true. cbn [orb]. destruct (both l h); reflexivity. Qed.
Lemma still_empty ss : forall b, Forall of_frequency ss -> name b = Some (txt "empty_band") -> (forall p r, ss = p ++ r -> p <> [] -> ~ has_both (low_after (low b) p) (high_after (high b) p)) -> name (set_all b ss) = Some (txt "empty_band").
Proof.
  induction ss as [|s ss IH]; intros b F E N; [exact E|]. inversion F as [|? ? F1 F2]; subst. unfold set_all. cbn [fold_left]. fold (set_all (set b s) ss).
  assert (X : set b s = mkBand (low_after (low b) [s]) (high_after (high b) [s]) (Some (txt "empty_band"))).
  { pose proof (N [s] ss eq_refl ltac:(discriminate)) as Z. apply both_false in Z. destruct s; cbn [set of_frequency low_after high_after] in *; [..|contradiction]; rewrite E, check_empty, Z; reflexivity. }
  apply IH; [assumption|rewrite X; reflexivity|]. intros p r Q P. rewrite X. cbn [low high]. pose proof (N (s :: p) r ltac:(rewrite Q; reflexivity) ltac:(discriminate)) as Z. destruct s; exact Z.
Qed.
Lemma mean_tells l h : tells_mean (mean_name l h) l h.
Proof. destruct (read_fixed_d 6 ((l + h) / inject_Z 2)) as (q & R & C & _). exists q. split; [exact R|]. eapply Qle_trans; [exact C|]. vm_compute. discriminate. Qed.

(** A name that was given, at the making or later, stays whatever frequencies are set. *)
Theorem C149_given n : n <> [] -> n <> txt "empty_band" ->
  (forall l h ss, Forall of_frequency ss -> name (set_all (new_band (Some (Some n)) l h) ss) = Some n) /\
  (forall b before ss, Forall of_frequency ss -> name (set_all b (before ++ SetName (Some n) :: ss)) = Some n).
Proof.
  intros A B. assert (V : forall l h, validate_name l h (Some n) = Some n) by (intros; unfold validate_name; cbn [blank]; rewrite (eqb_no _ _ A); reflexivity). split.
  - intros l h ss F. apply kept; [assumption..|]. unfold new_band. rewrite V, check_other by assumption. reflexivity.
  - intros b before ss F. rewrite set_all_app. unfold set_all at 1. cbn [fold_left]. apply (kept n ss); [assumption..|]. cbn [set]. rewrite V, check_other by assumption. reflexivity.
Qed.
Example C149_given_hyp : name (set_all (new_band None 1 4) [SetLow 2; SetName (Some (txt "b1")); SetHigh 7; SetLow 0]) = Some (txt "b1").
Proof. vm_compute. reflexivity. Qed.

(** Without a name given, a band is "empty_band" as long as its frequencies were never both there, and from the first moment they are it has the text of their mean at that
    moment. *)
Theorem C149_automatic l h ss : Forall of_frequency ss ->
  (never_both l h ss -> name (set_all (new_band None l h) ss) = Some (txt "empty_band")) /\
  (has_both l h -> exists t, tells_mean t l h /\ name (set_all (new_band None l h) ss) = Some t /\ t = show_fixed 6 ((l + h) / 2)) /\
  (forall p s r, ss = p ++ s :: r -> never_both l h p -> has_both (low_after l (p ++ [s])) (high_after h (p ++ [s])) ->
     exists t, tells_mean t (low_after l (p ++ [s])) (high_after h (p ++ [s])) /\ name (set_all (new_band None l h) ss) = Some t /\ t = show_fixed 6 ((low_after l (p ++ [s]) + high_after h (p ++ [s])) / 2)).
Proof.
  intros F.
  assert (E : forall p, Forall of_frequency p -> never_both l h p -> name (set_all (new_band None l h) p) = Some (txt "empty_band")).
  { intros p Fp N. pose proof (N [] p eq_refl) as N0. cbn [low_after high_after] in N0. apply both_false in N0. apply still_empty; [exact Fp|rewrite new_name, N0; reflexivity|]. intros p0 r Q _. rewrite new_name. apply (N p0 r Q). }
  split; [apply E, F|]. split.
  - intros B. apply both_true in B. exists (mean_name l h). split; [apply mean_tells|]. split; [|reflexivity]. apply mean_kept; [exact F|]. rewrite new_name, B. reflexivity.
  - intros p s r Q N B. subst ss. apply Forall_app in F as [F1 F2]. inversion F2 as [|? ? Fs Fr]; subst. set (l' := low_after l (p ++ [s])) in *. set (h' := high_after h (p ++ [s])) in *.
    exists (mean_name l' h'). split; [apply mean_tells|]. split; [|reflexivity]. change (p ++ s :: r) with (p ++ [s] ++ r). rewrite app_assoc, set_all_app. apply mean_kept; [exact Fr|].
    assert (L : low (set_all (new_band None l h) (p ++ [s])) = l' /\ high (set_all (new_band None l h) (p ++ [s])) = h') by (destruct (set_ends (new_band None l h) (p ++ [s])) as [-> ->]; rewrite new_name; split; reflexivity).
    destruct L as [L1 L2]. rewrite set_all_app in *. pose proof (E p F1 N) as En. set (b := set_all (new_band None l h) p) in *. apply both_true in B.
    unfold set_all in *. cbn [fold_left] in *. destruct s; cbn [set of_frequency] in *; [..|contradiction]; rewrite En, check_empty in *; cbn [low high name] in *; rewrite L1, L2, B; reflexivity.
Qed.
Example C149_automatic_hyp : never_both 0 0 [SetLow 1; SetLow 2] /\ has_both (low_after 0 [SetLow 1; SetLow 2; SetHigh 5]) (high_after 0 [SetLow 1; SetLow 2; SetHigh 5]) /\
  name (set_all (new_band None 0 0) [SetLow 1; SetLow 2; SetHigh 5; SetHigh 9]) = Some (txt "3.500000").
Proof.
  split; [|split].
  - intros p r E [_ B]. apply B. destruct p as [|a [|c [|d p]]]; cbn in E; [reflexivity|injection E as <- _; reflexivity|injection E as <- <- _; reflexivity|injection E as _ _ E; discriminate E].
  - split; cbn; intros E; discriminate E.
  - vm_compute. reflexivity.
Qed.

(** A blank name that is given, "" or None, becomes the text of the mean at that moment, even of 0 and 0, and stays. *)
Theorem C149_blank n : n = None \/ n = Some [] ->
  (forall l h ss, Forall of_frequency ss -> name (set_all (new_band (Some n) l h) ss) = Some (show_fixed 6 ((l + h) / 2))) /\
  (forall b before ss, Forall of_frequency ss -> name (set_all b (before ++ SetName n :: ss)) = Some (show_fixed 6 ((low_after (low b) before + high_after (high b) before) / 2))).
Proof.
  intros B. assert (V : forall l h, validate_name l h n = Some (mean_name l h)) by (intros; destruct B as [-> | ->]; reflexivity).
  assert (C : forall l h, check_name (mkBand l h (Some (mean_name l h))) = mkBand l h (Some (mean_name l h))) by (intros; apply check_other; [apply mean_nonempty|apply mean_not_empty_band]). split.
  - intros l h ss F. apply (mean_kept l h ss); [exact F|]. unfold new_band. rewrite V, C. reflexivity.
  - intros b before ss F. rewrite set_all_app. destruct (set_ends b before) as [<- <-]. set (b' := set_all b before). unfold set_all. cbn [fold_left]. apply (mean_kept (low b') (high b') ss); [exact F|]. cbn [set]. rewrite V, C. reflexivity.
Qed.
Example C149_blank_hyp : name (set_all (new_band (Some None) 0 0) [SetLow 1; SetHigh 4]) = Some (txt "0.000000").
Proof. vm_compute. reflexivity. Qed.

(** The frequencies are those last set, whatever becomes of the name. *)
Theorem C149_frequencies g l h ss : low (set_all (new_band g l h) ss) = low_after l ss /\ high (set_all (new_band g l h) ss) = high_after h ss.
Proof.
  destruct (set_ends (new_band g l h) ss) as [-> ->]. unfold new_band, check_name. cbn [name low high]. destruct (_ || _); [destruct (both l h)|]; split; reflexivity.
Qed.
(** A band always has a name. *)
Theorem C149_has_name g l h ss : exists c t, name (set_all (new_band g l h) ss) = Some (c :: t).
Proof.
  assert (C : forall b, exists c t, name (check_name b) = Some (c :: t)).
  { intros [l0 h0 n]. unfold check_name. cbn [name low high]. destruct (blank n) eqn:B; cbn [orb].
    - destruct (both l0 h0); [|eexists _, _; reflexivity]. cbn [name]. pose proof (mean_nonempty l0 h0) as M. destruct (mean_name l0 h0) as [|c t]; [congruence|]. exists c, t. reflexivity.
    - destruct n as [[|c t]|]; [discriminate B| |discriminate B]. destruct (_ && _); [|exists c, t; reflexivity]. destruct (both l0 h0); [|eexists _, _; reflexivity]. cbn [name]. pose proof (mean_nonempty l0 h0) as M. destruct (mean_name l0 h0) as [|c0 t0]; [congruence|]. exists c0, t0. reflexivity. }
  destruct ss as [|s ss] using rev_ind; [apply C|]. rewrite set_all_app. unfold set_all at 1. cbn [fold_left]. destruct s; apply C.
Qed.

(** Bands made without names whose means are more than a millionth apart have different names. *)
Theorem C149_different l h l' h' : has_both l h -> has_both l' h' -> (1 # 1000000 < Qabs ((l + h) / 2 - (l' + h') / 2))%Q -> name (new_band None l h) <> name (new_band None l' h').
Proof.
  intros B B' D E. apply both_true in B, B'. rewrite !new_name, B, B' in E. cbn [name] in E. injection E as E. destruct (mean_tells l h) as (q & R & C), (mean_tells l' h') as (q' & R' & C'). rewrite E, R' in R. injection R as <-.
  set (m := ((l + h) / 2)%Q) in *. set (m' := ((l' + h') / 2)%Q) in *. apply Qabs_Qle_condition in C, C'. assert (X : (Qabs (m - m') <= 1 # 1000000)%Q) by (apply Qabs_Qle_condition; lra). lra.
Qed.
Example C149_different_hyp : (1 # 1000000 < Qabs ((1 + 4) / 2 - (4 + 9) / 2))%Q /\ name (new_band None 1 4) = Some (txt "2.500000") /\ name (new_band None 4 9) = Some (txt "6.500000").
Proof. vm_compute. repeat split. Qed.

(** Not so: that a name that was not given follows the frequencies. *)
Theorem C149_stale_refuted : ~ (forall l h ss, Forall of_frequency ss -> has_both (low_after l ss) (high_after h ss) -> exists t, name (set_all (new_band None l h) ss) = Some t /\ tells_mean t (low_after l ss) (high_after h ss)).
Proof.
  intros A. destruct (A 1%Q 4%Q [SetLow 2; SetHigh 9]) as (t & E & q & R & C); [repeat constructor|split; intros E; discriminate E|].
  vm_compute in E. injection E as <-. vm_compute in R. injection R as <-. vm_compute in C. apply C. reflexivity.
Qed.
(** Not so: that a band for which a blank name was given is named when its frequencies are set, as one without a name is. *)
Theorem C149_blank_refuted : ~ (forall l h ss, Forall of_frequency ss -> name (set_all (new_band (Some (Some [])) l h) ss) = name (set_all (new_band None l h) ss)).
Proof. intros A. specialize (A 0%Q 0%Q [SetLow 1; SetHigh 4] ltac:(repeat constructor)). vm_compute in A. discriminate A. Qed.
(** Not so: that the name "empty_band" stays when it is given. *)
Theorem C149_empty_band_refuted : ~ (forall n l h ss, n <> [] -> Forall of_frequency ss -> name (set_all (new_band (Some (Some n)) l h) ss) = Some n).
Proof. intros A. specialize (A (txt "empty_band") 1%Q 4%Q [] ltac:(discriminate) ltac:(constructor)). vm_compute in A. discriminate A. Qed.
(** Not so: that the name tells the geometric mean, which is the centre of a band by default (band.py 107-118). *)
Theorem C149_centre_refuted : ~ (forall l h c t q, (0 < l)%Q -> (l < h)%Q -> (0 < c)%Q -> (c * c == l * h)%Q -> name (new_band None l h) = Some t -> read_float t = Some (Fin q) -> (Qabs (q - c) <= 5 # 10000000)%Q).
Proof. intros A. specialize (A 1%Q 4%Q 2%Q (txt "2.500000") (2500000 # 1000000)%Q). vm_compute in A. apply A; reflexivity. Qed.
(** Not so: that bands one above the other have different names. *)
Theorem C149_same_refuted : ~ (forall l h l' h', (0 < l)%Q -> (l < h)%Q -> (h < l')%Q -> (l' < h')%Q -> name (new_band None l h) <> name (new_band None l' h')).
Proof. intros A. apply (A (1 # 100000000) (2 # 100000000) (3 # 100000000) (4 # 100000000))%Q; vm_compute; reflexivity. Qed.

Print Assumptions C149_given.
Print Assumptions C149_automatic.
Print Assumptions C149_blank.
Print Assumptions C149_different.
