(** Proofs about collections. *)
From Verif Require Import PyBase PyFacts ListDictModel VlsModel VlsSpec.
From Coq Require Import Lia.
Local Open Scope list_scope.

Section Proofs.
Variable A : Type.
Notation named := (named A).
Notation last_named := (last_named A).

Lemma named_key o k : named o k <-> key_from_object o = Ok k.
Proof.
  unfold named, key_from_object. destruct (at_id o) as [i|]; [|destruct (at_component o) as [c|]].
  - split; [intros [H|(H & _)]; congruence|intros H; injection H as ->; now left].
  - split; [intros [H|(_ & H)]; congruence|intros H; injection H as ->; now right].
  - split; [intros [H|(_ & H)]; congruence|discriminate].
Qed.
Lemma named_fun o k k' : named o k -> named o k' -> k = k'.
Proof. rewrite !named_key. congruence. Qed.
Lemma means_fate k i o : means A k i o <-> fate_of A k i = Took A o.
Proof.
  split.
  - intros [k' o' r H|k' o' o'' H|k' o'|k' o' H]; destruct k'; cbn; try reflexivity; cbn in H; intuition discriminate.
  - destruct k; destruct i as [o' [x|e]|[x|e]|[x|e]]; cbn; intros H; try discriminate H; try (injection H as <-; constructor; cbn; tauto);
      try (destruct e; discriminate H).
Qed.

Definition add (d : home A) (o : obj A) : home A := fst (append d o).
Lemma collect_took k l os d f : Forall2 (means A k) l os -> collect A k l f d = (if f then Err TypeError else Ok (fold_left add os d)).
Proof.
  intros H. revert d. induction H as [|i o l os M H IH]; intros d; [reflexivity|]. cbn [collect fold_left].
  apply means_fate in M. rewrite M. apply IH.
Qed.
Lemma add_named d o k : named o k -> add d o = dset key_dec k o d.
Proof. intros H. apply named_key in H. unfold add, append, hset. cbn [fst]. now rewrite H. Qed.

Lemma dset_in (k : key) (o : obj A) d k' o' : NoDup (map fst d) ->
  In (k', o') (dset key_dec k o d) <-> (k' = k /\ o' = o) \/ (k' <> k /\ In (k', o') d).
Proof.
  intros N. induction d as [|[a x] d IH]; cbn.
  - split; [intros [H|[]]; left; injection H as -> ->; now split|intros [(-> & ->)|(_ & [])]; now left].
  - cbn in N. inversion N as [|? ? N1 N2]; subst. destruct (key_dec k a) as [->|NE]; cbn.
    + split.
      * intros [H|H]; [injection H as -> ->; left; now split|]. right. split; [|now right]. intros ->. apply N1. apply in_map_iff. now exists (a, o').
      * intros [(-> & ->)|(NK & [H|H])]; [now left|injection H as -> ->; now destruct NK|now right].
    + rewrite (IH N2). split.
      * intros [H|[(-> & ->)|(NK & H)]]; [injection H as -> ->; right; split; [congruence|now left]|left; now split|right; split; [assumption|now right]].
      * intros [(-> & ->)|(NK & [H|H])]; [right; left; now split|now left|right; right; now split].
Qed.
Lemma dset_keys (k : key) (o : obj A) d : map fst (dset key_dec k o d) = if in_dec key_dec k (map fst d) then map fst d else map fst d ++ [k].
Proof.
  induction d as [|[a x] d IH]; [reflexivity|]. cbn [dset map fst].
  destruct (in_dec key_dec k (a :: map fst d)) as [I|I]; destruct (key_dec k a) as [->|NE]; cbn [map fst app]; try reflexivity.
  - rewrite IH. destruct (in_dec key_dec k (map fst d)) as [J|J]; [reflexivity|]. destruct I as [I|I]; [now destruct NE|contradiction].
  - destruct I. now left.
  - rewrite IH. destruct (in_dec key_dec k (map fst d)) as [J|J]; [destruct I; now right|reflexivity].
Qed.
Lemma dset_nodup (k : key) (o : obj A) d : NoDup (map fst d) -> NoDup (map fst (dset key_dec k o d)).
Proof.
  intros N. rewrite dset_keys. destruct (in_dec key_dec k (map fst d)) as [I|I]; [assumption|].
  rewrite <- rev_involutive. apply NoDup_rev. rewrite rev_app_distr. cbn. constructor; [now rewrite <- in_rev|now apply NoDup_rev].
Qed.

Lemma firsts_in l k : In k (firsts l) <-> In k l.
Proof.
  induction l as [|a l IH]; cbn; [tauto|]. rewrite filter_In, IH. destruct (key_dec k a) as [->|NE]; intuition congruence.
Qed.
Lemma firsts_snoc l k : firsts (l ++ [k]) = if in_dec key_dec k l then firsts l else firsts l ++ [k].
Proof.
  induction l as [|a l IH]; [reflexivity|]. cbn [app firsts]. rewrite IH.
  destruct (in_dec key_dec k (a :: l)) as [I|I]; destruct (in_dec key_dec k l) as [J|J]; cbn [firsts app]; try reflexivity.
  - destruct I as [->|I]; [|contradiction]. rewrite filter_app. cbn [filter]. destruct (key_dec k k); [|contradiction]. now rewrite app_nil_r.
  - destruct I. now right.
  - rewrite filter_app. cbn [filter]. destruct (key_dec k a) as [->|]; [destruct I; now left|reflexivity].
Qed.

Lemma fold_spec os ks : Forall2 named os ks ->
  map fst (fold_left add os []) = firsts ks /\ NoDup (map fst (fold_left add os [])) /\
  (forall k o, In (k, o) (fold_left add os []) <-> last_named k os o).
Proof.
  revert ks. induction os as [|o os IH] using rev_ind; intros ks H.
  - inversion H; subst. cbn. split; [reflexivity|]. split; [constructor|]. intros k o. split; [intros []|intros (l1 & l2 & E & _); now destruct l1].
  - apply Forall2_app_inv_l in H as (ks1 & ks2 & H1 & H2 & ->). inversion H2 as [|? k0 ? ? N0 H3]; subst. inversion H3; subst.
    destruct (IH ks1 H1) as (K & ND & V). rewrite fold_left_app. cbn [fold_left]. rewrite (add_named _ _ _ N0).
    split; [|split].
    + rewrite dset_keys, K, firsts_snoc. destruct (in_dec key_dec k0 (firsts ks1)) as [I|I]; destruct (in_dec key_dec k0 ks1) as [J|J]; try reflexivity.
      * destruct J. now apply firsts_in.
      * destruct I. now apply firsts_in.
    + now apply dset_nodup.
    + intros k x. rewrite dset_in by assumption. rewrite V. split.
      * intros [(-> & ->)|(NE & (l1 & l2 & -> & N & F))].
        -- exists os, []. split; [reflexivity|]. split; [assumption|intros ? []].
        -- exists l1, (l2 ++ [o]). split; [now rewrite <- app_assoc|]. split; [assumption|].
           intros o' I. apply in_app_or in I as [I|[<-|[]]]; [now apply F|]. intros N'. apply NE. exact (named_fun _ _ _ N' N0).
      * intros (l1 & l2 & E & N & F). destruct l2 as [|y l2] using rev_ind.
        -- apply app_inj_tail in E as (-> & ->). left. split; [exact (named_fun _ _ _ N N0)|reflexivity].
        -- clear IHl2. rewrite app_comm_cons, app_assoc in E. apply app_inj_tail in E as (E & ->). right. split.
           ++ intros ->. apply (F y); [apply in_or_app; right; now left|assumption].
           ++ exists l1, l2. split; [assumption|]. split; [assumption|]. intros o' I. apply F. apply in_or_app. now left.
Qed.
Lemma fold_distinct os ks : Forall2 named os ks -> NoDup ks -> fold_left add os [] = combine ks os.
Proof.
  revert ks. induction os as [|o os IH] using rev_ind; intros ks H D.
  - inversion H; subst. reflexivity.
  - apply Forall2_app_inv_l in H as (ks1 & ks2 & H1 & H2 & ->). inversion H2 as [|? k0 ? ? N0 H3]; subst. inversion H3; subst.
    assert (D1 : NoDup ks1 /\ ~ In k0 ks1).
    { apply NoDup_remove in D. now rewrite app_nil_r in D. }
    destruct (fold_spec os ks1 H1) as (K & _ & _). rewrite fold_left_app. cbn [fold_left]. rewrite (add_named _ _ _ N0).
    assert (G : forall d : home A, ~ In k0 (map fst d) -> dset key_dec k0 o d = d ++ [(k0, o)]).
    { induction d as [|[a x] d IHd]; cbn; intros NI; [reflexivity|]. destruct (key_dec k0 a) as [->|]; [destruct NI; now left|].
      rewrite IHd; [reflexivity|]. intros I. apply NI. now right. }
    rewrite G by (rewrite K, firsts_in; tauto). rewrite (IH ks1 H1 (proj1 D1)).
    clear -H1. induction H1; cbn; [reflexivity|]. now rewrite IHForall2.
Qed.

(** An entry that stands for nothing. *)
Lemma collect_fails k l d : exists e, collect A k l true d = Err e.
Proof.
  revert d. induction l as [|i l IH]; intros d; cbn; [now exists TypeError|].
  destruct (fate_of A k i) as [o| |e]; [apply IH|apply IH|now exists e].
Qed.
Lemma collect_bad k l f d : Exists (bad A k) l -> exists e, collect A k l f d = Err e.
Proof.
  revert f d. induction l as [|i l IH]; intros f d H; [inversion H|]. cbn. destruct (fate_of A k i) as [o| |e] eqn:F; [|apply collect_fails|now exists e].
  inversion H as [? ? B|? ? B]; subst; [|now apply IH]. destruct (B o). now apply means_fate.
Qed.
End Proofs.
