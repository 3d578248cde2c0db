(** C91: merging transfer functions. *)
From Coq Require Import QArith Sorted Permutation Lia Lqa.
From Verif Require Import PyBase PyText TfModel TfSpec TfProofs MergeModel MergeSpec MergeProofs MergeParts.
Local Open Scope nat_scope.

Section Numbers.
Variable num : nums.
Notation row := (row num).
Notation first_of := (first_of num).

Lemma Forall2_nth {A B} (R : A -> B -> Prop) l l' : Forall2 R l l' -> forall n a, nth_error l n = Some a -> exists b, nth_error l' n = Some b /\ R a b.
Proof. induction 1 as [|x y l l' H F IH]; intros [|n] a E; try discriminate; [injection E as <-; now exists y|apply IH, E]. Qed.
Lemma Forall2_len {A B} (R : A -> B -> Prop) l l' : Forall2 R l l' -> length l = length l'.
Proof. induction 1; cbn; congruence. Qed.

Lemma nodup_app {A} (l l' : list A) : NoDup l -> NoDup l' -> (forall x, In x l -> In x l' -> False) -> NoDup (l ++ l').
Proof. induction 1 as [|x l N ND IH]; intros N' D; [exact N'|]. cbn. constructor; [|apply IH; [exact N'|intros y Hy; apply D; now right]]. intros H. apply in_app_or in H. destruct H as [H|H]; [contradiction|]. apply (D x); [now left|exact H]. Qed.
Lemma part_at ins ps k i : Forall2 (part_ok num) ins ps -> nth_error ins k = Some i -> part_ok num i (nth k ps []).
Proof. intros F E. destruct (Forall2_nth _ _ _ F k i E) as (rs & Er & P). now rewrite (nth_error_nth _ _ _ Er). Qed.

Lemma lowest_first i rs : part_ok num i rs -> rs <> [] -> lowest num i (first_of rs).
Proof.
  intros (S & D & _ & W) N. destruct rs as [|[q [d p]] rs]; [contradiction|]. pose proof (D _ (or_introl eq_refl)) as E. cbn in E. subst d. cbn [MergeModel.first_of fst]. split.
  - exists p. apply W. now left.
  - intros p' x H. apply W in H. unfold sorted_rows in S. cbn [map fst] in S. inversion S as [|? ? _ F]; subst. destruct H as [H|H]; [injection H as -> _; lra|]. rewrite Forall_forall in F. apply (F x). apply in_map_iff. now exists (x, (t_data num (i_tf num i), p')).
Qed.
Lemma lowest_unique i q q' : lowest num i q -> lowest num i q' -> (q == q')%Q.
Proof. intros ((p & A) & B) ((p' & A') & B'). specialize (B _ _ A'). specialize (B' _ _ A). lra. Qed.
Lemma wanted_nonempty i rs p q : part_ok num i rs -> wanted num i p q -> rs <> [].
Proof. intros (_ & _ & _ & W) H. apply W in H. intros ->. destruct H. Qed.

Lemma kept_last ins ps k : Forall2 (part_ok num) ins ps -> ~ In [] ps ->
  (k < length ps /\ (forall j, k < j < length ps -> ~ (first_of (nth k ps []) == first_of (nth j ps []))%Q) <-> last_there num ins k).
Proof.
  intros F NE. unfold last_there. rewrite (Forall2_len _ _ _ F).
  assert (LO : forall n i, n < length ps -> nth_error ins n = Some i -> lowest num i (first_of (nth n ps []))).
  { intros n i Hn E. apply lowest_first; [apply (part_at ins); assumption|]. intros X. apply NE. rewrite <- X. apply nth_In, Hn. }
  split; intros (L & H); (split; [exact L|]).
  - intros j i i' q q' Lj E E' Q1 Q2 Eq. assert (Hj : j < length ps) by (rewrite <- (Forall2_len _ _ _ F); apply nth_error_Some; congruence).
    apply (H j); [lia|]. rewrite <- (lowest_unique i q _ Q1 (LO k i L E)). rewrite <- (lowest_unique i' q' _ Q2 (LO j i' Hj E')). exact Eq.
  - intros j (L1 & L2) Eq. rewrite <- (Forall2_len _ _ _ F) in L, L2. destruct (nth_error ins k) as [i|] eqn:E; [|apply nth_error_None in E; lia]. destruct (nth_error ins j) as [i'|] eqn:E'; [|apply nth_error_None in E'; lia].
    rewrite (Forall2_len _ _ _ F) in L, L2. apply (H j i i' _ _ L1 eq_refl E' (LO k i L E) (LO j i' L2 E') Eq).
Qed.

Lemma src_rows (ps : list (list row)) ks :
  Forall2 (fun s (r : row) => In r (nth (fst s) ps []) /\ snd (snd r) = snd s /\ In (fst s) ks)
    (concat (map (fun k => map (fun r : row => (k, snd (snd r))) (nth k ps [])) ks)) (concat (map (fun k => nth k ps []) ks)).
Proof.
  assert (G : forall l, incl l ks -> Forall2 (fun s (r : row) => In r (nth (fst s) ps []) /\ snd (snd r) = snd s /\ In (fst s) ks)
    (concat (map (fun k => map (fun r : row => (k, snd (snd r))) (nth k ps [])) l)) (concat (map (fun k => nth k ps []) l))).
  { induction l as [|k l IH]; intros I; [constructor|]. cbn [map concat]. apply Forall2_app; [|apply IH; intros x Hx; apply I; now right].
    assert (H : forall m, incl m (nth k ps []) -> Forall2 (fun s (r : row) => In r (nth (fst s) ps []) /\ snd (snd r) = snd s /\ In (fst s) ks) (map (fun r : row => (k, snd (snd r))) m) m).
    { induction m as [|r m IHm]; intros J; [constructor|]. cbn [map]. constructor; [|apply IHm; intros x Hx; apply J; now right]. cbn [fst snd]. split; [apply J; now left|]. split; [reflexivity|apply I; now left]. }
    apply H, incl_refl. }
  apply G, incl_refl.
Qed.
Lemma src_nodup ins ps ks : Forall2 (part_ok num) ins ps -> NoDup ks -> (forall k, In k ks -> k < length ps) ->
  NoDup (concat (map (fun k => map (fun r : row => (k, snd (snd r))) (nth k ps [])) ks)).
Proof.
  intros F ND B. induction ND as [|k ks Nk ND IH]; [constructor|]. cbn [map concat].
  assert (A : NoDup (map (fun r : row => (k, snd (snd r))) (nth k ps []))).
  { assert (E : exists i, nth_error ins k = Some i) by (destruct (nth_error ins k) eqn:E; [eauto|apply nth_error_None in E; specialize (B k (or_introl eq_refl)); rewrite (Forall2_len _ _ _ F) in E; lia]).
    destruct E as (i & E). destruct (part_at ins ps k i F E) as (_ & _ & N & _). revert N. generalize (nth k ps []). intros m. induction m as [|r m IHm]; intros N; [constructor|]. cbn in *. inversion N as [|? ? X Y]; subst. constructor; [|apply IHm, Y].
    intros H. apply X. apply in_map_iff in H. destruct H as (z & Ez & Hz). injection Ez as Ez. rewrite <- Ez. apply (in_map (fun r : row => snd (snd r))), Hz. }
  apply nodup_app; [exact A|apply IH; intros j Hj; apply B; now right|].
  intros [k' p'] H1 H2. apply in_map_iff in H1. destruct H1 as (r & E & _). injection E as <- _. apply in_concat in H2. destruct H2 as (m & Hm & H2). apply in_map_iff in Hm. destruct Hm as (j & <- & Hj).
  apply in_map_iff in H2. destruct H2 as (r' & E & _). injection E as -> _. contradiction.
Qed.

Lemma merged_holds self ins ps ks rs : Forall2 (part_ok num) ins ps -> ~ In [] ps -> NoDup ks ->
  (forall k, In k ks <-> k < length ps /\ forall j, k < j < length ps -> ~ (first_of (nth k ps []) == first_of (nth j ps []))%Q) ->
  rs = concat (map (fun k => nth k ps []) ks) ->
  holds num (mkTf num (t_names num self) (t_inverse num self) (of_rows num (d_labels num (t_data num self)) rs)) ins (last_there num ins).
Proof.
  intros F NE ND HK ->. pose proof (src_rows ps ks) as SR.
  exists (concat (map (fun k => map (fun r : row => (k, snd (snd r))) (nth k ps [])) ks)). unfold periods. cbn [t_data d_periods of_rows].
  split; [rewrite map_length; apply (Forall2_len _ _ _ SR)|].
  split; [apply (src_nodup ins); [exact F|exact ND|intros k Hk; apply HK, Hk]|]. split.
  - intros p' k p E. destruct (Forall2_nth _ _ _ SR p' _ E) as ([q [d n]] & Er & Hr & En & Hk). cbn [fst snd] in *. subst n. apply HK in Hk. destruct Hk as (Lk & _).
    destruct (nth_error ins k) as [i|] eqn:Ei; [|apply nth_error_None in Ei; rewrite (Forall2_len _ _ _ F) in Ei; lia]. exists i. split; [reflexivity|].
    destruct (part_at ins ps k i F Ei) as (_ & D & _ & W). pose proof (D _ Hr) as Ed. cbn in Ed. subst d. apply W in Hr. destruct Hr as (Hp & _). unfold taken, periods. cbn [t_data d_periods d_at of_rows]. split.
    + rewrite (map_nth_error fst _ _ Er). cbn. symmetry. exact Hp.
    + intros v o i0. rewrite Er. reflexivity.
  - intros k p. rewrite <- (kept_last ins ps k F NE), <- HK. rewrite in_concat. split.
    + intros (m & Hm & Hp). apply in_map_iff in Hm. destruct Hm as (j & <- & Hj). apply in_map_iff in Hp. destruct Hp as ([q [d n]] & E & Hr). cbn [fst snd] in E. injection E as -> ->. split; [exact Hj|].
      pose proof (proj1 (proj1 (HK k) Hj)) as Lk. destruct (nth_error ins k) as [i|] eqn:Ei; [|apply nth_error_None in Ei; rewrite (Forall2_len _ _ _ F) in Ei; lia].
      destruct (part_at ins ps k i F Ei) as (_ & D & _ & W). pose proof (D _ Hr) as Ed. cbn in Ed. subst d. exists i, q. split; [reflexivity|]. apply W, Hr.
    + intros (Hk & i & q & Ei & Hw). destruct (part_at ins ps k i F Ei) as (_ & D & _ & W). apply W in Hw. exists (map (fun r : row => (k, snd (snd r))) (nth k ps [])). split; [apply (in_map (fun k => map (fun r : row => (k, snd (snd r))) (nth k ps []))), Hk|]. apply in_map_iff. eexists. split; [|exact Hw]. reflexivity.
Qed.

(** The call, for ordered [self] and at least one other: what it comes to. *)
Lemma merge_call self lo hi items ins : ordered num self -> items <> [] -> inputs self lo hi items ins ->
  exists a b ps, Forall2 (part_ok num) ins (a :: b :: ps) /\ Forall (sorted_rows num) (a :: b :: ps) /\
    merge num self (Many num items) lo hi = bindR (combine num (a :: b :: ps)) (fun rs => Ok (mkTf num (t_names num self) (t_inverse num self) (of_rows num (d_labels num (t_data num self)) rs))).
Proof.
  intros O NI (r & E & -> & L). destruct (self_part num self lo hi O) as (a & Ea & Pa). destruct (item_parts num items r E) as (ps & Ep & Pp).
  destruct ps as [|b ps]; [inversion Pp; subst; destruct items; [contradiction|discriminate]|].
  exists a, b, ps. split; [constructor; assumption|]. split.
  { constructor; [apply Pa|]. clear - Pp. induction Pp; constructor; [apply H|assumption]. }
  unfold merge. rewrite Ea. cbn [bindR]. rewrite Ep. cbn [bindR].
  assert (LL : forallb (fun l => if list_eq_dec text_dec l (d_labels num (t_data num self)) then true else false) (flat_map (labels_of num) items) = true).
  { apply forallb_forall. intros l Hl. apply in_flat_map in Hl. destruct Hl as (i & Hi & Hl). rewrite Forall_forall in L. destruct (list_eq_dec text_dec l (d_labels num (t_data num self))) as [_|X]; [reflexivity|]. exfalso. apply X.
    assert (I : In (input_of i) (map Some r)) by (rewrite <- E; apply in_map, Hi). apply in_map_iff in I. destruct I as (x & Ex & Hx). specialize (L x Hx).
    destruct i as [t|t lo' hi'| |]; cbn in Ex, Hl; try contradiction; injection Ex as ->; destruct Hl as [<-|[]]; exact L. }
  rewrite LL. reflexivity.
Qed.

(** Whenever merging into an ordered TF succeeds, the result is ordered and holds, row by row, what the
    inputs have within their bounds; of inputs that begin at the same period only the last one. *)
Theorem C91_merge self lo hi items ins t' : ordered num self -> items <> [] -> inputs self lo hi items ins ->
  merge num self (Many num items) lo hi = Ok t' ->
  t_names num t' = t_names num self /\ d_labels num (t_data num t') = d_labels num (t_data num self) /\ ordered num t' /\ holds num t' ins (last_there num ins).
Proof.
  intros O NI I E. destruct (merge_call self lo hi items ins O NI I) as (a & b & ps & F & S & M). rewrite M in E.
  destruct (combine num (a :: b :: ps)) as [rs|e] eqn:C; [|discriminate]. cbn in E. injection E as <-. apply combine_spec in C; [|exact S]. destruct C as (_ & NE & Er & Sr).
  split; [reflexivity|]. split; [reflexivity|]. split; [exact Sr|].
  destruct (order_index num (a :: b :: ps)) as (ks & Eo & ND & _ & HK). unfold result_of in Er. rewrite Eo in Er. apply (merged_holds self ins (a :: b :: ps) ks); assumption.
Qed.

Lemma same_periods_head x l y l' : same_periods (x :: l) (y :: l') = true -> (x == y)%Q.
Proof. cbn. rewrite andb_true_iff, Qeq_bool_iff. tauto. Qed.

(** When it succeeds: every input has a period within its bounds and those that remain do not overlap. *)
Theorem C91_when self lo hi items ins : ordered num self -> items <> [] -> inputs self lo hi items ins ->
  (exists i i' q q', In i ins /\ In i' ins /\ lowest num i q /\ lowest num i' q' /\ ~ (q == q')%Q) ->
  ((exists t', merge num self (Many num items) lo hi = Ok t') <->
   (forall i, In i ins -> exists p q, wanted num i p q) /\
   (forall k j i i', k <> j -> last_there num ins k -> last_there num ins j -> nth_error ins k = Some i -> nth_error ins j = Some i' -> before num i i' \/ before num i' i)).
Proof.
  intros O NI I Dif. destruct (merge_call self lo hi items ins O NI I) as (a & b & ps & F & S & M). rewrite M. set (L := a :: b :: ps) in *.
  assert (NEq : ~ In [] L -> exists c, In c (b :: ps) /\ same_periods (map fst c) (map fst a) = false).
  { intros NE. destruct (existsb (fun c => negb (same_periods (map fst c) (map fst a))) (b :: ps)) eqn:X.
    - apply existsb_exists in X. destruct X as (c & Hc & Ec). exists c. split; [exact Hc|now apply negb_true_iff].
    - exfalso. destruct Dif as (i & i' & q & q' & Hi & Hi' & Lq & Lq' & N). apply N.
      assert (AL : forall x y, In x ins -> lowest num x y -> (y == first_of a)%Q).
      { intros x y Hx Hy. apply In_nth_error in Hx. destruct Hx as (k & Ek). destruct (Forall2_nth _ _ _ F k x Ek) as (c & Ec & Pc).
        assert (Nc : c <> []) by (intros ->; apply NE; apply (nth_error_In _ _ Ec)). rewrite (lowest_unique x y _ Hy (lowest_first x c Pc Nc)).
        assert (Na : a <> []) by (intros ->; apply NE; now left).
        apply nth_error_In in Ec. destruct Ec as [<-|Hc]; [reflexivity|].
        assert (SP : same_periods (map fst c) (map fst a) = true). { apply not_false_is_true. intros Z. assert (existsb (fun c => negb (same_periods (map fst c) (map fst a))) (b :: ps) = true); [|congruence]. apply existsb_exists. exists c. split; [exact Hc|]. now rewrite Z. }
        destruct c as [|c0 c]; [contradiction|]. destruct a as [|a0 a]; [contradiction|]. apply (same_periods_head _ _ _ _ SP). }
      rewrite (AL i q Hi Lq), (AL i' q' Hi' Lq'). reflexivity. }
  assert (NEW : ~ In [] L <-> forall i, In i ins -> exists p q, wanted num i p q).
  { split.
    - intros NE i Hi. apply In_nth_error in Hi. destruct Hi as (k & Ek). destruct (Forall2_nth _ _ _ F k i Ek) as (c & Ec & Pc). destruct (lowest_first i c Pc) as ((p & W) & _); [intros ->; apply NE; apply (nth_error_In _ _ Ec)|]. now exists p, (first_of c).
    - intros H X. apply In_nth_error in X. destruct X as (k & Ek). destruct (nth_error ins k) as [i|] eqn:Ei; [|apply nth_error_None in Ei; rewrite (Forall2_len _ _ _ F) in Ei; assert (k < length L) by (apply nth_error_Some; congruence); lia].
      destruct (H i (nth_error_In _ _ Ei)) as (p & q & W). pose proof (part_at ins L k i F Ei) as P. rewrite (nth_error_nth _ _ _ Ek) in P. exact (wanted_nonempty i [] p q P W eq_refl). }
  destruct (order_index num L) as (ks & Eo & ND & So & HK).
  assert (SR : ~ In [] L -> (sorted_rows num (result_of num L) <-> forall k j i i', k <> j -> last_there num ins k -> last_there num ins j -> nth_error ins k = Some i -> nth_error ins j = Some i' -> before num i i' \/ before num i' i)).
  { intros NE. unfold sorted_rows, result_of. rewrite Eo, map_concat, sorted_concat.
    assert (LT : forall k, last_there num ins k <-> In k ks) by (intros k; rewrite HK; symmetry; apply kept_last; assumption).
    assert (Bef : forall k j i i', nth_error ins k = Some i -> nth_error ins j = Some i' -> (before num i i' <-> forall x y, In x (map fst (nth k L [])) -> In y (map fst (nth j L [])) -> (x <= y)%Q)).
    { intros k j i i' Ei Ej. destruct (part_at ins L k i F Ei) as (_ & D1 & _ & W1). destruct (part_at ins L j i' F Ej) as (_ & D2 & _ & W2). split.
      - intros B x y Hx Hy. apply in_map_iff in Hx, Hy. destruct Hx as ([q [d p]] & <- & Hx). destruct Hy as ([q' [d' p']] & <- & Hy). pose proof (D1 _ Hx) as E1. pose proof (D2 _ Hy) as E2. cbn in E1, E2. subst d d'. apply W1 in Hx. apply W2 in Hy. exact (B _ _ _ _ Hx Hy).
      - intros H p q p' q' H1 H2. apply W1 in H1. apply W2 in H2. apply H; apply in_map_iff; eexists; (split; [|eassumption]); reflexivity. }
    assert (Ins : forall k, In k ks -> exists i, nth_error ins k = Some i). { intros k Hk. apply HK in Hk. destruct Hk as (Lk & _). destruct (nth_error ins k) eqn:E; [eauto|]. apply nth_error_None in E. rewrite (Forall2_len _ _ _ F) in E. lia. }
    assert (Low : forall k i, In k ks -> nth_error ins k = Some i -> lowest num i (first_of (nth k L []))).
    { intros k i Hk E. apply lowest_first; [apply (part_at ins); assumption|]. intros X. apply NE. rewrite <- X. apply nth_In. apply HK, Hk. }
    split.
    - intros (_ & SS) k j i i' Nkj Hk Hj Ei Ej. apply LT in Hk, Hj. rewrite map_map in SS.
      clear - SS Nkj Hk Hj Ei Ej Bef. induction ks as [|m ks IH]; [destruct Hk|]. cbn [map] in SS. inversion SS as [|? ? SS' G]; subst. rewrite Forall_forall in G. destruct Hk as [->|Hk], Hj as [->|Hj]; [contradiction| | |apply IH; assumption].
      + left. rewrite (Bef k j i i' Ei Ej). apply G. apply (in_map (fun x => map fst (nth x L []))), Hj.
      + right. rewrite (Bef j k i' i Ej Ei). apply G. apply (in_map (fun x => map fst (nth x L []))), Hk.
    - intros H. split.
      { apply Forall_forall. intros m Hm. apply in_map_iff in Hm. destruct Hm as (m' & <- & Hm). apply in_map_iff in Hm. destruct Hm as (k & <- & Hk). rewrite Forall_forall in S. apply S. apply nth_In. apply HK, Hk. }
      assert (G : forall l, incl l ks -> NoDup l -> StronglySorted (fun j k => lower num (nth j L []) (nth k L [])) l -> StronglySorted (fun a b : list Q => forall x y, In x a -> In y b -> (x <= y)%Q) (map (map fst) (map (fun k => nth k L []) l))).
      { induction l as [|k l IH]; intros Il N S'; [constructor|]. cbn [map]. inversion S' as [|? ? S'' G']; subst. inversion N as [|? ? N1 N2]; subst. constructor; [apply IH; [intros z Hz; apply Il; now right|exact N2|exact S'']|].
        apply Forall_forall. intros m Hm. apply in_map_iff in Hm. destruct Hm as (m' & <- & Hm). apply in_map_iff in Hm. destruct Hm as (j & <- & Hj). rewrite Forall_forall in G'. specialize (G' j Hj). unfold lower in G'.
        assert (Kk : In k ks) by (apply Il; now left). assert (Kj : In j ks) by (apply Il; now right). destruct (Ins k Kk) as (i & Ei). destruct (Ins j Kj) as (i' & Ej). rewrite <- (Bef k j i i' Ei Ej).
        destruct (H k j i i') as [B|B]; try assumption; [intros ->; contradiction|now apply LT|now apply LT|]. exfalso. destruct (Low k i Kk Ei) as ((p & W) & _). destruct (Low j i' Kj Ej) as ((p' & W') & _). specialize (B _ _ _ _ W' W). lra. }
      apply G; [apply incl_refl|exact ND|exact So]. }
  split.
  - intros (t' & E). destruct (combine num L) as [rs|e] eqn:C; [|discriminate]. unfold L in C. apply combine_spec in C; [|exact S]. destruct C as (_ & NE & -> & Sr). split; [apply NEW, NE|apply (SR NE), Sr].
  - intros (A & B). apply NEW in A. assert (C : combine num L = Ok (result_of num L)). { unfold L. apply combine_spec; [exact S|]. split; [apply NEq, A|]. split; [exact A|]. split; [reflexivity|]. apply (SR A), B. }
    rewrite C. eexists. reflexivity.
Qed.

(** Inputs apart from each other: all of them are merged. *)
Theorem C91_apart self lo hi items ins : ordered num self -> items <> [] -> inputs self lo hi items ins ->
  (forall i, In i ins -> exists p q, wanted num i p q) ->
  (forall k j i i', k <> j -> nth_error ins k = Some i -> nth_error ins j = Some i' -> apart num i i') ->
  exists t', merge num self (Many num items) lo hi = Ok t' /\ t_names num t' = t_names num self /\ ordered num t' /\ holds num t' ins (fun k => k < length ins).
Proof.
  intros O NI I W A. destruct (merge_call self lo hi items ins O NI I) as (a & b & ps & F & S & _).
  assert (Low : forall k i, nth_error ins k = Some i -> exists q, lowest num i q).
  { intros k i E. destruct (W i (nth_error_In _ _ E)) as (p & q & H). exists (first_of (nth k (a :: b :: ps) [])). pose proof (part_at ins _ k i F E) as P. apply lowest_first; [exact P|]. exact (wanted_nonempty i _ p q P H). }
  assert (Ne : forall k j i i' q q', k <> j -> nth_error ins k = Some i -> nth_error ins j = Some i' -> lowest num i q -> lowest num i' q' -> ~ (q == q')%Q).
  { intros k j i i' q q' N E E' ((p & H) & _) ((p' & H') & _) Eq. destruct (A k j i i' N E E') as [B|B]; specialize (B _ _ _ _ H H'); lra. }
  assert (LT : forall k, last_there num ins k <-> k < length ins).
  { intros k. split; [intros (L & _); exact L|]. intros L. split; [exact L|]. intros j i i' q q' Lj. apply (Ne k j i i' q q'). lia. }
  assert (Len : 2 <= length ins) by (rewrite (Forall2_len _ _ _ F); cbn; lia).
  destruct (nth_error ins 0) as [i0|] eqn:E0; [|apply nth_error_None in E0; lia]. destruct (nth_error ins 1) as [i1|] eqn:E1; [|apply nth_error_None in E1; lia].
  destruct (Low 0 i0 E0) as (q0 & L0). destruct (Low 1 i1 E1) as (q1 & L1).
  assert (T : exists t', merge num self (Many num items) lo hi = Ok t').
  { apply (C91_when self lo hi items ins O NI I).
    - exists i0, i1, q0, q1. split; [apply (nth_error_In _ _ E0)|]. split; [apply (nth_error_In _ _ E1)|]. split; [exact L0|]. split; [exact L1|]. apply (Ne 0 1 i0 i1); auto.
    - split; [exact W|]. intros k j i i' N _ _ E E'. destruct (A k j i i' N E E') as [B|B]; [left|right]; intros p q p' q' H H'; [specialize (B _ _ _ _ H H')|specialize (B _ _ _ _ H' H)]; lra. }
  destruct T as (t' & Et). exists t'. destruct (C91_merge self lo hi items ins t' O NI I Et) as (N1 & _ & N3 & (src & H1 & H2 & H3 & H4)). split; [exact Et|]. split; [exact N1|]. split; [exact N3|].
  exists src. split; [exact H1|]. split; [exact H2|]. split; [exact H3|]. intros k p. rewrite H4, LT. reflexivity.
Qed.

Lemma slice_all rs : get_slice num None None rs = Ok rs.
Proof. unfold get_slice, loc. cbn [bindR]. cbn [skipn]. rewrite Nat.sub_0_r, firstn_all. reflexivity. Qed.

(** Refuted: TFs with the same periods cannot be merged. *)
Theorem C91_same_refuted self t : ordered num self -> periods num t = periods num self -> d_labels num (t_data num t) = d_labels num (t_data num self) ->
  merge num self (One num (ITf num t)) None None = Err ValueError.
Proof.
  intros O P L. unfold merge. rewrite slice_all. cbn [bindR all_rows item_rows flat_map labels_of app forallb]. rewrite L. destruct (list_eq_dec text_dec _ _) as [_|X]; [|contradiction]. cbn [andb].
  assert (E : sort_rows num (rows_of num (t_data num t)) = rows_of num (t_data num t)).
  { assert (S : sorted_rows num (rows_of num (t_data num t))) by (unfold sorted_rows; rewrite rows_periods; unfold periods in P; rewrite P; exact O). unfold sorted_rows in S.
    induction (rows_of num (t_data num t)) as [|r rs IH]; [reflexivity|]. cbn [map] in S. inversion S as [|? ? S' F]; subst. cbn [sort_rows fold_right]. fold (sort_rows num rs). rewrite IH by exact S'.
    destruct rs as [|r' rs]; [reflexivity|]. cbn. cbn in F. inversion F as [|? ? F1 F2]; subst. rewrite (proj2 (Qle_bool_iff _ _) F1). reflexivity. }
  rewrite E. cbn [combine forallb]. rewrite !rows_periods. unfold periods in P. rewrite P, same_periods_refl. reflexivity.
Qed.

(** Refuted: the object itself is not put in order; if its periods do not rise, no TF with several periods
    can be merged into it. *)
Theorem C91_order_refuted self t x y : ~ ordered num self -> In x (periods num t) -> In y (periods num t) -> ~ (x == y)%Q -> d_labels num (t_data num t) = d_labels num (t_data num self) ->
  merge num self (One num (ITf num t)) None None = Err ValueError.
Proof.
  intros O Hx Hy N L. unfold merge. rewrite slice_all. cbn [bindR all_rows item_rows flat_map labels_of app forallb]. rewrite L. destruct (list_eq_dec text_dec _ _) as [_|X]; [|contradiction]. cbn [andb].
  cbn [combine forallb]. rewrite rows_periods. rewrite andb_true_r. destruct (same_periods (map fst (sort_rows num (rows_of num (t_data num t)))) (d_periods num (t_data num self))); [reflexivity|].
  assert (R : rising (d_periods num (t_data num self)) = false) by (apply not_true_is_false; rewrite rising_sorted; exact O). rewrite R. cbn [andb].
  assert (Fa : falling (map fst (sort_rows num (rows_of num (t_data num t)))) = false).
  { apply not_true_is_false. intros Fa. apply falling_sorted in Fa. pose proof (sort_sorted num (rows_of num (t_data num t))) as S.
    assert (Pm : forall z, In z (periods num t) -> In z (map fst (sort_rows num (rows_of num (t_data num t))))).
    { intros z Hz. apply (Permutation_in z (Permutation_map fst (sort_perm num (rows_of num (t_data num t))))). rewrite rows_periods. exact Hz. }
    apply Pm in Hx, Hy. revert Fa S Hx Hy. generalize (map fst (sort_rows num (rows_of num (t_data num t)))). intros l Fa S Hx Hy. apply N. clear - Fa S Hx Hy.
    destruct l as [|z l]; [destruct Hx|]. inversion Fa as [|? ? _ F1]; subst. inversion S as [|? ? _ F2]; subst. rewrite Forall_forall in F1, F2.
    assert (H : forall w, In w (z :: l) -> (w == z)%Q) by (intros w [->|Hw]; [reflexivity|]; specialize (F1 w Hw); specialize (F2 w Hw); lra). rewrite (H x Hx), (H y Hy). reflexivity. }
  rewrite Fa. rewrite andb_false_r. reflexivity.
Qed.

(** Refuted: a tuple of TFs, which the documentation allows, raises TypeError. *)
Theorem C91_tuple_refuted self : merge num self (One num (IOther num)) None None = Err TypeError.
Proof. unfold merge. rewrite slice_all. reflexivity. Qed.

(** Refuted: the TF given in a dictionary does not stay as it was: its periods are put in order. *)
Theorem C91_other_changed_refuted t lo hi t' : ~ ordered num t -> left_behind num (IDict num t lo hi) = Some t' -> ordered num t' /\ periods num t' <> periods num t.
Proof.
  intros N E. cbn in E. injection E as <-. assert (O : StronglySorted Qle (map fst (sort_rows num (rows_of num (t_data num t))))) by apply sort_sorted. split; [exact O|]. intros E. apply N. unfold ordered. rewrite <- E. exact O.
Qed.
End Numbers.

(** ** Cases *)
Definition of_periods (l : list Q) (k : Z) : tf z_nums :=
  mkTf z_nums default_names [] (mkData z_nums l (all_names default_names) (fun _ p _ _ => Some (k + Z.of_nat p)%Z)).
Definition low := of_periods [(1 # 10)%Q; 1%Q; 10%Q] 1.
Definition high := of_periods [1000%Q; 10%Q; 100%Q] 20.
(** The second is put in order, the bound excludes 10 from the first. *)
Example C91_hyp : ordered z_nums low /\ inputs low None (Some 9%Q) [ITf z_nums high] [mkInput z_nums low None (Some 9%Q); mkInput z_nums high None None] /\
  apart z_nums (mkInput z_nums low None (Some 9%Q)) (mkInput z_nums high None None) /\
  exists t', merge z_nums low (Many z_nums [ITf z_nums high]) None (Some 9%Q) = Ok t' /\ periods z_nums t' = [(1 # 10)%Q; 1%Q; 10%Q; 100%Q; 1000%Q] /\
    entry z_nums t' VTf 2 Ex Hx = Some 21%Z /\ entry z_nums t' VTf 4 Ex Hx = Some 20%Z /\ entry z_nums t' VTf 1 Ex Hx = Some 2%Z.
Proof.
  split; [repeat (constructor; try (cbn; lra))|]. split.
  { exists [mkInput z_nums high None None]. split; [reflexivity|]. split; [reflexivity|]. repeat constructor. }
  split.
  { left. intros p q p' q' (H & _ & W) (H' & _). cbn in W. unfold has_period, periods in *. cbn in H, H'.
    assert (A : In q [(1 # 10)%Q; 1%Q; 10%Q]) by (apply (nth_error_In _ _ H)). assert (B : In q' [1000%Q; 10%Q; 100%Q]) by (apply (nth_error_In _ _ H')).
    cbn in A, B. destruct A as [<-|[<-|[<-|[]]]], B as [<-|[<-|[<-|[]]]]; unfold Qle, Qlt in *; cbn in *; lia. }
  eexists. split; [reflexivity|]. repeat split.
Qed.
Example C91_when_hyp : lowest z_nums (mkInput z_nums low None None) (1 # 10)%Q /\ lowest z_nums (mkInput z_nums high None None) 10%Q /\
  merge z_nums low (Many z_nums [ITf z_nums (of_periods [5%Q; 100%Q] 20)]) None None = Err ValueError.
Proof.
  split; [|split; [|reflexivity]].
  - split; [exists 0; split; [reflexivity|split; exact I]|]. intros p x (H & _). unfold has_period, periods in H. cbn in H. apply nth_error_In in H. destruct H as [<-|[<-|[<-|[]]]]; unfold Qle; cbn; lia.
  - split; [exists 1; split; [reflexivity|split; exact I]|]. intros p x (H & _). unfold has_period, periods in H. cbn in H. apply nth_error_In in H. destruct H as [<-|[<-|[<-|[]]]]; unfold Qle; cbn; lia.
Qed.
(** Refuted: a TF that begins at the same period as a later one is lost, without any message. *)
Theorem C91_replaced_refuted : exists t', merge z_nums low (One z_nums (ITf z_nums (of_periods [(1 # 10)%Q; 100%Q] 20))) None None = Ok t' /\
  periods z_nums t' = [(1 # 10)%Q; 100%Q] /\ entry z_nums t' VTf 0 Ex Hx = Some 20%Z.
Proof. eexists. split; [reflexivity|]. split; reflexivity. Qed.
Example C91_order_hyp : ~ ordered z_nums high /\ merge z_nums high (One z_nums (ITf z_nums low)) None None = Err ValueError.
Proof. split; [|reflexivity]. intros S. apply rising_sorted in S. discriminate. Qed.
Example C91_same_hyp : merge z_nums low (One z_nums (ITf z_nums (of_periods [(1 # 10)%Q; 1%Q; 10%Q] 20))) None None = Err ValueError.
Proof. reflexivity. Qed.

Print Assumptions C91_merge.
Print Assumptions C91_when.
Print Assumptions C91_apart.
Print Assumptions C91_same_refuted.
Print Assumptions C91_order_refuted.
Print Assumptions C91_tuple_refuted.
Print Assumptions C91_other_changed_refuted.
Print Assumptions C91_replaced_refuted.
