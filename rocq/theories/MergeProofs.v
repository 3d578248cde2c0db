(** Lemmas about merging: slices of ordered rows are the rows within the bounds, and what is combined. *)
From Coq Require Import QArith Sorted Permutation Lia Lqa.
From Verif Require Import PyBase PyText TfModel TfSpec TfProofs MergeModel MergeSpec.
Local Open Scope nat_scope.

Lemma less_lt a b : less a b = true <-> (a < b)%Q.
Proof. unfold less. rewrite negb_true_iff. split; intros H; [apply Qnot_le_lt; intros L; apply Qle_bool_iff in L; congruence|apply not_true_is_false; rewrite Qle_bool_iff; apply Qlt_not_le, H]. Qed.

Lemma rising_sorted l : rising l = true <-> StronglySorted Qle l.
Proof.
  induction l as [|x [|y r] IH]; [split; [constructor|reflexivity]|split; [repeat constructor|reflexivity]|].
  cbn [rising] in *. rewrite andb_true_iff, Qle_bool_iff, IH. split.
  - intros (L & S). constructor; [exact S|]. constructor; [exact L|]. inversion S as [|? ? S' F]; subst. eapply Forall_impl; [|exact F]. intros z Hz. cbn. lra.
  - intros S. inversion S as [|? ? S' F]; subst. split; [inversion F; assumption|exact S'].
Qed.

Definition below (x : Q) (l : list Q) : nat := length (filter (fun y => less y x) l).
Definition upto (x : Q) (l : list Q) : nat := length (filter (fun y => Qle_bool y x) l).

Lemma filter_none {A} (f : A -> bool) l : (forall x, In x l -> f x = false) -> filter f l = [].
Proof. induction l as [|x l IH]; intros H; [reflexivity|]. cbn. rewrite (H x) by now left. apply IH. intros y Hy. apply H. now right. Qed.
Lemma filter_all {A} (f : A -> bool) l : (forall x, In x l -> f x = true) -> filter f l = l.
Proof. induction l as [|x l IH]; intros H; [reflexivity|]. cbn. rewrite (H x) by now left. f_equal. apply IH. intros y Hy. apply H. now right. Qed.

Lemma qle_false a b : Qle_bool a b = false <-> (b < a)%Q.
Proof. split; intros H; [apply Qnot_le_lt; intros L; apply Qle_bool_iff in L; congruence|apply not_true_is_false; rewrite Qle_bool_iff; apply Qlt_not_le, H]. Qed.
Lemma qeq_false a b : Qeq_bool a b = false <-> ~ (a == b)%Q.
Proof. rewrite <- (Qeq_bool_iff a b). destruct (Qeq_bool a b); intuition congruence. Qed.

(** The places of a label in an ordered index. *)
Lemma places_sorted x l : StronglySorted Qle l -> forall n, places x l n = seq (n + below x l) (upto x l - below x l).
Proof.
  induction 1 as [|y r S IH F]; intros n; [reflexivity|]. cbn [places]. rewrite Forall_forall in F. unfold below, upto in *. cbn [filter].
  destruct (Qeq_bool x y) eqn:E.
  - apply Qeq_bool_iff in E. destruct (less y x) eqn:L; [apply less_lt in L; lra|]. destruct (Qle_bool y x) eqn:L'; [|apply qle_false in L'; lra].
    rewrite (filter_none (fun y => less y x) r) in * by (intros z Hz; apply not_true_is_false; rewrite less_lt; specialize (F z Hz); lra).
    cbn [length]. rewrite IH. rewrite Nat.add_0_r, !Nat.sub_0_r. cbn [seq]. rewrite Nat.add_0_r. reflexivity.
  - apply qeq_false in E. destruct (less y x) eqn:L.
    + apply less_lt in L. destruct (Qle_bool y x) eqn:L'; [|apply qle_false in L'; lra]. cbn [length]. rewrite IH. rewrite Nat.add_succ_r. reflexivity.
    + destruct (Qle_bool y x) eqn:L'; [apply Qle_bool_iff in L'; assert (~ (y < x)%Q) by (rewrite <- less_lt; congruence); exfalso; apply E; lra|]. apply qle_false in L'.
      rewrite IH. rewrite (filter_none (fun y => Qle_bool y x) r) by (intros z Hz; apply qle_false; specialize (F z Hz); lra). reflexivity.
Qed.

Lemma consecutive_seq n : forall a, consecutive (seq a n) = true.
Proof. induction n as [|[|n] IH]; intros a; [reflexivity|reflexivity|]. cbn [seq consecutive] in *. rewrite Nat.eqb_refl. apply (IH (S a)). Qed.
Lemma last_seq n : forall a d, last (seq a (S n)) d = a + n.
Proof. induction n as [|n IH]; intros a d; [cbn; lia|]. change (seq a (S (S n))) with (a :: seq (S a) (S n)). change (last (a :: seq (S a) (S n)) d) with (last (seq (S a) (S n)) d). rewrite IH. lia. Qed.
Lemma last_default {A} (l : list A) : forall a d, last (a :: l) d = last l a.
Proof.
  induction l as [|b l IH]; intros a d; [reflexivity|]. change (last (a :: b :: l) d) with (last (b :: l) d). rewrite !IH. reflexivity.
Qed.

Lemma bound_sorted left x l : StronglySorted Qle l -> slice_bound left x l = Ok (if left then below x l else upto x l).
Proof.
  intros S. unfold slice_bound. rewrite (places_sorted x l S). destruct (upto x l - below x l) as [|n] eqn:E.
  - cbn [seq]. unfold searchsorted. rewrite (proj2 (rising_sorted l) S). reflexivity.
  - pose proof (consecutive_seq (Datatypes.S n) (below x l)) as C. pose proof (last_seq n (below x l) 0) as T. cbn [seq Nat.add] in *. rewrite C.
    rewrite last_default in T. rewrite T.
    destruct left; [reflexivity|]. f_equal. lia.
Qed.

Section Numbers.
Variable num : nums.
Notation row := (row num).

Definition inb (lo hi : option Q) (q : Q) : bool :=
  match lo with Some a => Qle_bool a q | None => true end && match hi with Some b => Qle_bool q b | None => true end.
Lemma inb_within lo hi q : inb lo hi q = true <-> within lo hi q.
Proof. unfold inb, within. rewrite andb_true_iff. destruct lo, hi; rewrite ?Qle_bool_iff; intuition. Qed.

Lemma skip_below x (rs : list row) : StronglySorted Qle (map fst rs) -> skipn (below x (map fst rs)) rs = filter (fun r => Qle_bool x (fst r)) rs.
Proof.
  induction rs as [|r rs IH]; intros S; [reflexivity|]. cbn [map] in S. inversion S as [|? ? S' F]; subst. rewrite Forall_forall in F. unfold below in *. cbn [map filter].
  destruct (less (fst r) x) eqn:L.
  - destruct (Qle_bool x (fst r)) eqn:L'; [apply less_lt in L; apply Qle_bool_iff in L'; lra|]. cbn [length skipn]. apply IH, S'.
  - assert (L0 : (x <= fst r)%Q) by (apply Qnot_lt_le; rewrite <- less_lt; congruence). rewrite (proj2 (Qle_bool_iff _ _) L0).
    rewrite (filter_none (fun y => less y x) (map fst rs)) by (intros z Hz; apply not_true_is_false; rewrite less_lt; specialize (F z Hz); lra). cbn [length skipn].
    f_equal. symmetry. apply filter_all. intros z Hz. apply Qle_bool_iff. specialize (F (fst z) (in_map fst _ _ Hz)). lra.
Qed.
Lemma first_upto x (rs : list row) : StronglySorted Qle (map fst rs) -> firstn (upto x (map fst rs)) rs = filter (fun r => Qle_bool (fst r) x) rs.
Proof.
  induction rs as [|r rs IH]; intros S; [reflexivity|]. cbn [map] in S. inversion S as [|? ? S' F]; subst. rewrite Forall_forall in F. unfold upto in *. cbn [map filter].
  destruct (Qle_bool (fst r) x) eqn:L.
  - cbn [length firstn]. f_equal. apply IH, S'.
  - apply qle_false in L. rewrite (filter_none (fun y => Qle_bool y x) (map fst rs)) by (intros z Hz; apply qle_false; specialize (F z Hz); lra). cbn [length firstn].
    symmetry. apply filter_none. intros z Hz. apply qle_false. specialize (F (fst z) (in_map fst _ _ Hz)). lra.
Qed.
Lemma sorted_filter (f : row -> bool) rs : StronglySorted Qle (map fst rs) -> StronglySorted Qle (map fst (filter f rs)).
Proof.
  induction rs as [|r rs IH]; intros S; [constructor|]. cbn [map] in S. inversion S as [|? ? S' F]; subst. cbn [filter]. destruct (f r); [|apply IH, S'].
  cbn [map]. constructor; [apply IH, S'|]. rewrite Forall_forall in *. intros q Hq. apply F. apply in_map_iff in Hq. destruct Hq as (z & <- & Hz). apply in_map. apply filter_In in Hz. apply Hz.
Qed.
Lemma filter_filter {A} (f g : A -> bool) l : filter f (filter g l) = filter (fun x => g x && f x) l.
Proof. induction l as [|x l IH]; [reflexivity|]. cbn. destruct (g x); cbn; [destruct (f x); now rewrite IH|exact IH]. Qed.
Lemma filter_same {A} (f g : A -> bool) l : (forall x, f x = g x) -> filter f l = filter g l.
Proof. intros H. induction l as [|x l IH]; [reflexivity|]. cbn. now rewrite H, IH. Qed.

Lemma upto_split lo hi (rs : list row) : StronglySorted Qle (map fst rs) ->
  upto hi (map fst rs) - below lo (map fst rs) = upto hi (map fst (filter (fun r => Qle_bool lo (fst r)) rs)).
Proof.
  induction rs as [|r rs IH]; intros S; [reflexivity|]. cbn [map] in S. inversion S as [|? ? S' F]; subst. specialize (IH S'). rewrite Forall_forall in F. unfold upto, below in *. cbn [map filter].
  destruct (less (fst r) lo) eqn:L.
  - destruct (Qle_bool lo (fst r)) eqn:L'; [apply less_lt in L; apply Qle_bool_iff in L'; lra|]. destruct (Qle_bool (fst r) hi) eqn:U; cbn [length]; [exact IH|].
    apply qle_false in U. rewrite <- IH. rewrite (filter_none (fun y => Qle_bool y hi) (map fst rs)) by (intros z Hz; apply qle_false; specialize (F z Hz); lra). reflexivity.
  - assert (L0 : (lo <= fst r)%Q) by (apply Qnot_lt_le; rewrite <- less_lt; congruence). rewrite (proj2 (Qle_bool_iff _ _) L0). cbn [map filter].
    rewrite (filter_none (fun y => less y lo) (map fst rs)) in * by (intros z Hz; apply not_true_is_false; rewrite less_lt; specialize (F z Hz); lra). cbn [length] in *. rewrite Nat.sub_0_r in *.
    destruct (Qle_bool (fst r) hi); cbn [length]; now rewrite IH.
Qed.

(** Slices of ordered rows. *)
Lemma slice_sorted lo hi (rs : list row) : StronglySorted Qle (map fst rs) -> get_slice num lo hi rs = Ok (filter (fun r => inb lo hi (fst r)) rs).
Proof.
  intros S. unfold get_slice, loc. destruct lo as [a|], hi as [b|]; rewrite ?bound_sorted by exact S; cbn [bindR].
  - rewrite skip_below by exact S. rewrite (upto_split a b rs S). rewrite first_upto by (apply sorted_filter, S). rewrite filter_filter. reflexivity.
  - rewrite skip_below by exact S. rewrite firstn_all2.
    + f_equal. apply filter_same. intros x. unfold inb. now rewrite andb_true_r.
    + rewrite <- skip_below by exact S. rewrite skipn_length. reflexivity.
  - cbn [skipn]. rewrite Nat.sub_0_r. rewrite first_upto by exact S. reflexivity.
  - cbn [skipn]. rewrite Nat.sub_0_r, firstn_all. f_equal. symmetry. apply filter_all. reflexivity.
Qed.

(** Sorting rows. *)
Lemma insert_perm x l : Permutation (x :: l) (insert_row num x l).
Proof. induction l as [|y l IH]; [reflexivity|]. cbn. destruct (Qle_bool (fst x) (fst y)); [reflexivity|]. rewrite <- IH. apply perm_swap. Qed.
Lemma sort_perm l : Permutation l (sort_rows num l).
Proof. induction l as [|x l IH]; [constructor|]. cbn. rewrite <- insert_perm. now constructor. Qed.
Lemma insert_sorted x l : StronglySorted Qle (map fst l) -> StronglySorted Qle (map fst (insert_row num x l)).
Proof.
  induction l as [|y l IH]; intros S; [repeat constructor|]. cbn [map insert_row] in *. inversion S as [|? ? S' F]; subst. destruct (Qle_bool (fst x) (fst y)) eqn:L.
  - apply Qle_bool_iff in L. cbn [map]. constructor; [exact S|]. constructor; [exact L|]. eapply Forall_impl; [|exact F]. intros z Hz. cbn. lra.
  - apply qle_false in L. cbn [map]. constructor; [apply IH, S'|]. apply Forall_forall. intros z Hz. rewrite Forall_forall in F.
    apply (Permutation_in z (Permutation_map fst (Permutation_sym (insert_perm x l)))) in Hz. cbn in Hz. destruct Hz as [<-|Hz]; [lra|apply F, Hz].
Qed.
Lemma sort_sorted l : StronglySorted Qle (map fst (sort_rows num l)).
Proof. induction l as [|x l IH]; [constructor|]. cbn. apply insert_sorted, IH. Qed.

End Numbers.
