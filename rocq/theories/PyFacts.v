(** Lemmas about the Python run-time notions of [PyBase]. *)
From Verif Require Import PyBase.
From Coq Require Import Permutation.

Section DictFacts.
  Context {K V : Type}.
  Variable eqd : forall a b : K, {a = b} + {a <> b}.
  Notation dget := (@dget K V eqd).
  Notation dset := (@dset K V eqd).
  Notation ddel := (@ddel K V eqd).
  Notation dmem := (@dmem K V eqd).
  Notation dupdate := (@dupdate K V eqd).

  Lemma dget_dset_eq k v d : dget k (dset k v d) = Some v.
  Proof.
    induction d as [|[k' v'] d IH]; simpl.
    - destruct (eqd k k); congruence.
    - destruct (eqd k k') as [e|n]; simpl.
      + destruct (eqd k k'); congruence.
      + destruct (eqd k k'); congruence.
  Qed.

  Lemma dget_dset_neq k k' v d : k <> k' -> dget k (dset k' v d) = dget k d.
  Proof.
    intros H. induction d as [|[a b] d IH]; simpl.
    - destruct (eqd k k'); congruence.
    - destruct (eqd k' a) as [e|n]; simpl.
      + subst. destruct (eqd k a); congruence.
      + destruct (eqd k a); congruence.
  Qed.

  Lemma dget_dset k k' v d :
    dget k (dset k' v d) = if eqd k k' then Some v else dget k d.
  Proof.
    destruct (eqd k k') as [->|n].
    - apply dget_dset_eq.
    - apply dget_dset_neq; assumption.
  Qed.

  Lemma dget_None k d : dget k d = None <-> ~ In k (dkeys d).
  Proof.
    induction d as [|[a b] d IH]; simpl.
    - tauto.
    - destruct (eqd k a) as [->|n].
      + split; [discriminate | intros H; exfalso; apply H; now left].
      + rewrite IH. split; intros H; intuition congruence.
  Qed.

  Lemma dget_In k v d : dget k d = Some v -> In (k, v) d.
  Proof.
    induction d as [|[a b] d IH]; simpl; [discriminate|].
    destruct (eqd k a) as [->|n].
    - intros E; injection E as ->; now left.
    - intros E; right; auto.
  Qed.

  Lemma In_dget k v d : NoDup (dkeys d) -> In (k, v) d -> dget k d = Some v.
  Proof.
    induction d as [|[a b] d IH]; simpl; [tauto|].
    intros ND [E|HI]; inversion ND as [|? ? Hn ND']; subst.
    - injection E as -> ->. destruct (eqd k k); congruence.
    - destruct (eqd k a) as [->|n]; [|auto].
      exfalso; apply Hn. change a with (fst (a, v)). unfold dkeys; apply in_map; exact HI.
  Qed.

  Lemma dmem_true k d : dmem k d = true <-> In k (dkeys d).
  Proof.
    unfold PyBase.dmem. destruct (dget k d) eqn:E.
    - split; [intros _|reflexivity]. apply dget_In in E.
      change k with (fst (k, v)); unfold dkeys; now apply in_map.
    - apply dget_None in E. split; [discriminate|tauto].
  Qed.

  Lemma dkeys_dset_in k v d : In k (dkeys d) -> dkeys (dset k v d) = dkeys d.
  Proof.
    induction d as [|[a b] d IH]; simpl; [tauto|].
    intros H. destruct (eqd k a) as [->|n]; simpl; [reflexivity|].
    f_equal. apply IH. destruct H; congruence.
  Qed.

  Lemma dset_notin k v d : ~ In k (dkeys d) -> dset k v d = d ++ [(k, v)].
  Proof.
    induction d as [|[a b] d IH]; simpl; intros H; [reflexivity|].
    destruct (eqd k a) as [->|n]; [exfalso; apply H; now left|].
    f_equal. apply IH. tauto.
  Qed.

  Lemma dkeys_dset k v d :
    dkeys (dset k v d) = if in_dec eqd k (dkeys d) then dkeys d else dkeys d ++ [k].
  Proof.
    destruct (in_dec eqd k (dkeys d)) as [H|H].
    - now apply dkeys_dset_in.
    - rewrite dset_notin by assumption. unfold dkeys. now rewrite map_app.
  Qed.

  Lemma NoDup_snoc (l : list K) k : NoDup l -> ~ In k l -> NoDup (l ++ [k]).
  Proof.
    intros ND H. apply (Permutation_NoDup (l := k :: l)).
    - apply Permutation_cons_append.
    - now constructor.
  Qed.

  Lemma NoDup_dset k v d : NoDup (dkeys d) -> NoDup (dkeys (dset k v d)).
  Proof.
    intros ND. rewrite dkeys_dset. destruct (in_dec eqd k (dkeys d)); [assumption|].
    now apply NoDup_snoc.
  Qed.

  Lemma In_dkeys_ddel a k d : In a (dkeys (ddel k d)) -> In a (dkeys d).
  Proof.
    induction d as [|[x y] d IH]; simpl; [tauto|].
    destruct (eqd k x); simpl; intuition.
  Qed.

  Lemma NoDup_ddel k d : NoDup (dkeys d) -> NoDup (dkeys (ddel k d)).
  Proof.
    induction d as [|[x y] d IH]; simpl; intros ND; [constructor|].
    inversion ND as [|? ? Hn ND']; subst.
    destruct (eqd k x); simpl; [assumption|].
    constructor; [|auto]. intros H; apply Hn; eapply In_dkeys_ddel; eauto.
  Qed.

  Lemma dget_ddel_eq k d : NoDup (dkeys d) -> dget k (ddel k d) = None.
  Proof.
    induction d as [|[x y] d IH]; simpl; intros ND; [reflexivity|].
    inversion ND as [|? ? Hn ND']; subst.
    destruct (eqd k x) as [->|n]; simpl.
    - now apply dget_None.
    - destruct (eqd k x); [congruence|auto].
  Qed.

  Lemma dget_ddel_neq k k' d : k <> k' -> dget k (ddel k' d) = dget k d.
  Proof.
    intros H. induction d as [|[x y] d IH]; simpl; [reflexivity|].
    destruct (eqd k' x) as [->|n]; simpl.
    - destruct (eqd k x); congruence.
    - destruct (eqd k x); congruence.
  Qed.

  Lemma dkeys_ddel k d :
    NoDup (dkeys d) ->
    dkeys (ddel k d) = filter (fun a => if eqd k a then false else true) (dkeys d).
  Proof.
    induction d as [|[x y] d IH]; simpl; intros ND; [reflexivity|].
    inversion ND as [|? ? Hn ND']; subst.
    destruct (eqd k x) as [->|n]; simpl.
    - assert (E : forall l, ~ In x l -> filter (fun a => if eqd x a then false else true) l = l).
      { induction l as [|z l IHl]; simpl; intros Hl; [reflexivity|].
        destruct (eqd x z); [exfalso; subst; apply Hl; now left|].
        f_equal; apply IHl; tauto. }
      symmetry; apply E; assumption.
    - f_equal; auto.
  Qed.

  Lemma NoDup_dupdate ps d : NoDup (dkeys d) -> NoDup (dkeys (dupdate d ps)).
  Proof.
    revert d; induction ps as [|[a b] ps IH]; simpl; intros d ND; [assumption|].
    apply IH. now apply NoDup_dset.
  Qed.

  Lemma dset_same_len k v d : In k (dkeys d) -> length (dset k v d) = length d.
  Proof.
    intros H. rewrite <- (map_length fst (dset k v d)), <- (map_length fst d).
    change (length (dkeys (dset k v d)) = length (dkeys d)).
    now rewrite dkeys_dset_in.
  Qed.

  (** Building a dict from pairs with distinct keys not in the dict appends them. *)
  Lemma dupdate_fresh ps d :
    NoDup (dkeys ps) -> (forall k, In k (dkeys ps) -> ~ In k (dkeys d)) ->
    dupdate d ps = d ++ ps.
  Proof.
    revert d; induction ps as [|[a b] ps IH]; simpl; intros d ND F.
    - now rewrite app_nil_r.
    - inversion ND as [|? ? Hn ND']; subst.
      rewrite dset_notin by (apply F; now left).
      rewrite IH; [now rewrite <- app_assoc | assumption |].
      intros k Hk. unfold dkeys. rewrite map_app, in_app_iff; simpl.
      intros [H|[H|[]]].
      + eapply F; [right; exact Hk | exact H].
      + subst; contradiction.
  Qed.

  Lemma dupdate_nil ps : NoDup (dkeys ps) -> dupdate [] ps = ps.
  Proof. intros ND. rewrite dupdate_fresh; simpl; auto. Qed.

  Lemma dget_dupdate k ps d :
    dget k (dupdate d ps) =
    match dget k (rev ps) with Some v => Some v | None => dget k d end.
  Proof.
    revert d; induction ps as [|[a b] ps IH]; intros d; simpl; [reflexivity|].
    rewrite IH.
    assert (E : forall l m, dget k (l ++ m) = match dget k l with Some v => Some v | None => dget k m end).
    { induction l as [|[x y] l IHl]; intros m; simpl; [reflexivity|].
      destruct (eqd k x); auto. }
    rewrite E. destruct (dget k (rev ps)); [reflexivity|].
    rewrite dget_dset. simpl. destruct (eqd k a); reflexivity.
  Qed.

  Lemma dget_app k l m :
    dget k (l ++ m) = match dget k l with Some v => Some v | None => dget k m end.
  Proof.
    induction l as [|[x y] l IHl]; simpl; [reflexivity|]. destruct (eqd k x); auto.
  Qed.

  Lemma dget_ext_NoDup d1 d2 :
    NoDup (dkeys d1) -> dkeys d1 = dkeys d2 -> (forall k, dget k d1 = dget k d2) -> d1 = d2.
  Proof.
    revert d2; induction d1 as [|[a b] d1 IH]; intros [|[a2 b2] d2]; simpl; intros ND EK EG;
      try discriminate; [reflexivity|].
    injection EK as -> EK. inversion ND as [|? ? Hn ND']; subst.
    pose proof (EG a2) as E. destruct (eqd a2 a2); [|congruence]. injection E as ->.
    f_equal. apply IH; auto. intros k. specialize (EG k).
    destruct (eqd k a2) as [->|n]; [|assumption].
    rewrite EK in Hn. assert (dget a2 d2 = None) as -> by now apply dget_None.
    apply dget_None. now rewrite EK.
  Qed.
End DictFacts.

Lemma memb_true {K} (eqd : forall a b : K, {a = b} + {a <> b}) k l :
  memb eqd k l = true <-> In k l.
Proof. unfold memb; destruct (in_dec eqd k l); intuition discriminate. Qed.

Lemma memb_false {K} (eqd : forall a b : K, {a = b} + {a <> b}) k l :
  memb eqd k l = false <-> ~ In k l.
Proof. unfold memb; destruct (in_dec eqd k l); intuition discriminate. Qed.

(** String order is a strict total order. *)
Lemma string_compare_refl s : String.compare s s = Eq.
Proof.
  induction s as [|a s IH]; simpl; [reflexivity|].
  unfold Ascii.compare. rewrite N.compare_refl. exact IH.
Qed.

Lemma string_lt_trans a b c :
  String.compare a b = Lt -> String.compare b c = Lt -> String.compare a c = Lt.
Proof.
  revert b c; induction a as [|x a IH]; intros [|y b] [|z c]; simpl; try discriminate; auto.
  unfold Ascii.compare.
  destruct (N.compare_spec (N_of_ascii x) (N_of_ascii y)) as [E1|L1|G1]; try discriminate;
  destruct (N.compare_spec (N_of_ascii y) (N_of_ascii z)) as [E2|L2|G2]; try discriminate;
  intros H1 H2.
  - rewrite E1, E2, N.compare_refl. eauto.
  - rewrite E1. rewrite (proj2 (N.compare_lt_iff _ _)) by assumption. reflexivity.
  - rewrite <- E2. rewrite (proj2 (N.compare_lt_iff _ _)) by assumption. reflexivity.
  - rewrite (proj2 (N.compare_lt_iff _ _)) by lia. reflexivity.
Qed.

Lemma string_leb_trans a b c :
  String.leb a b = true -> String.leb b c = true -> String.leb a c = true.
Proof.
  unfold String.leb.
  destruct (String.compare a b) eqn:E1; try discriminate;
  destruct (String.compare b c) eqn:E2; try discriminate; intros _ _.
  - apply String.compare_eq_iff in E1, E2; subst. now rewrite string_compare_refl.
  - apply String.compare_eq_iff in E1; subst. now rewrite E2.
  - apply String.compare_eq_iff in E2; subst. now rewrite E1.
  - now rewrite (string_lt_trans _ _ _ E1 E2).
Qed.
