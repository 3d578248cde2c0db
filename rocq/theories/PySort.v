(** Python's [list.sort(key=...)] with an integer key: stable insertion sort, and its
    characterisation.  This models the Python language, not a file of the repository. *)
From Coq Require Import Permutation Sorted.
From Verif Require Import PyBase.

Section KeySort.
  Context {A : Type}.
  Variable key : A -> Z.

  Fixpoint insert_key (x : A) (l : list A) : list A :=
    match l with
    | [] => [x]
    | y :: r => if (key x <=? key y)%Z then x :: l else y :: insert_key x r
    end.
  Definition sort_key (l : list A) : list A := fold_right insert_key [] l.

  Definition nondecreasing (l : list A) : Prop := StronglySorted (fun x y => (key x <= key y)%Z) l.

  Lemma insert_key_perm x l : Permutation (x :: l) (insert_key x l).
  Proof.
    induction l as [|y l IH]; [apply Permutation_refl|]. cbn [insert_key].
    destruct (key x <=? key y)%Z; [apply Permutation_refl|].
    eapply Permutation_trans; [apply perm_swap|]. now constructor.
  Qed.
  Lemma sort_key_perm l : Permutation l (sort_key l).
  Proof.
    induction l as [|x l IH]; [constructor|]. cbn [sort_key fold_right].
    eapply Permutation_trans; [constructor; exact IH|]. apply insert_key_perm.
  Qed.
  Lemma insert_key_sorted x l : nondecreasing l -> nondecreasing (insert_key x l).
  Proof.
    unfold nondecreasing. induction l as [|y l IH]; intros H; cbn [insert_key]; [repeat constructor|].
    inversion H as [|? ? H1 H2]; subst. destruct (Z.leb_spec (key x) (key y)) as [L|L].
    - constructor; [exact H|]. constructor; [exact L|]. rewrite Forall_forall in *. intros z Hz.
      specialize (H2 z Hz). lia.
    - constructor; [now apply IH|]. rewrite Forall_forall in *. intros z Hz.
      apply (Permutation_in z (Permutation_sym (insert_key_perm x l))) in Hz.
      destruct Hz as [<-|Hz]; [lia|now apply H2].
  Qed.
  Lemma sort_key_sorted l : nondecreasing (sort_key l).
  Proof.
    induction l as [|x l IH]; [constructor|]. cbn [sort_key fold_right]. now apply insert_key_sorted.
  Qed.
  Lemma sort_key_id l : nondecreasing l -> sort_key l = l.
  Proof.
    unfold nondecreasing. induction l as [|x l IH]; intros H; [reflexivity|].
    inversion H as [|? ? H1 H2]; subst. cbn [sort_key fold_right]. fold (sort_key l).
    rewrite (IH H1). destruct l as [|y l]; [reflexivity|]. cbn [insert_key].
    inversion H2; subst. destruct (Z.leb_spec (key x) (key y)); [reflexivity|lia].
  Qed.
  (** Stability: the elements with a given key keep their order. *)
  Lemma insert_key_stable k x l : nondecreasing l ->
    filter (fun y => (key y =? k)%Z) (insert_key x l) = filter (fun y => (key y =? k)%Z) (x :: l).
  Proof.
    unfold nondecreasing. induction l as [|y l IH]; intros H; [reflexivity|]. cbn [insert_key].
    inversion H as [|? ? H1 H2]; subst. destruct (Z.leb_spec (key x) (key y)) as [L|L]; [reflexivity|].
    cbn [filter]. rewrite (IH H1). cbn [filter].
    destruct (Z.eqb_spec (key x) k); destruct (Z.eqb_spec (key y) k); try reflexivity; lia.
  Qed.
  Lemma sort_key_stable k l :
    filter (fun y => (key y =? k)%Z) (sort_key l) = filter (fun y => (key y =? k)%Z) l.
  Proof.
    induction l as [|x l IH]; [reflexivity|]. cbn [sort_key fold_right]. fold (sort_key l).
    rewrite insert_key_stable by apply sort_key_sorted. cbn [filter]. now rewrite IH.
  Qed.
End KeySort.
