(** What combining parts gives. *)
From Coq Require Import QArith Sorted Permutation Lia Lqa.
From Verif Require Import PyBase PyText TfModel TfSpec TfProofs MergeModel MergeSpec MergeProofs.
Local Open Scope nat_scope.

Lemma sorted_app {A} (R : A -> A -> Prop) l l' : StronglySorted R (l ++ l') <-> StronglySorted R l /\ StronglySorted R l' /\ forall x y, In x l -> In y l' -> R x y.
Proof.
  induction l as [|a l IH]; cbn [app].
  - split; [intros H; repeat split; [constructor|exact H|intros x y []]|tauto].
  - split.
    + intros H. inversion H as [|? ? S F]; subst. apply IH in S. destruct S as (S1 & S2 & S3). rewrite Forall_app in F. destruct F as (F1 & F2). rewrite Forall_forall in F1, F2.
      split; [constructor; [exact S1|now apply Forall_forall]|]. split; [exact S2|]. intros x y [<-|Hx] Hy; [apply F2, Hy|apply S3; assumption].
    + intros (S1 & S2 & S3). inversion S1 as [|? ? S F]; subst. constructor; [apply IH; repeat split; [exact S|exact S2|intros x y Hx Hy; apply S3; [now right|exact Hy]]|].
      apply Forall_app. split; [exact F|]. apply Forall_forall. intros y Hy. apply S3; [now left|exact Hy].
Qed.
Lemma sorted_concat {A} (R : A -> A -> Prop) ls : StronglySorted R (concat ls) <-> Forall (StronglySorted R) ls /\ StronglySorted (fun a b => forall x y, In x a -> In y b -> R x y) ls.
Proof.
  induction ls as [|a ls IH]; cbn [concat]; [split; [split; constructor|constructor]|]. rewrite sorted_app, IH. split.
  - intros (S & (F & SS) & H). split; [now constructor|]. constructor; [exact SS|]. apply Forall_forall. intros b Hb x y Hx Hy. apply H; [exact Hx|]. apply in_concat. now exists b.
  - intros (F & SS). inversion F; subst. inversion SS as [|? ? SS' G]; subst. split; [assumption|]. split; [split; assumption|]. intros x y Hx Hy. apply in_concat in Hy. destruct Hy as (b & Hb & Hy).
    rewrite Forall_forall in G. exact (G b Hb x y Hx Hy).
Qed.
Lemma map_concat {A B} (f : A -> B) ls : map f (concat ls) = concat (map (map f) ls).
Proof. apply concat_map. Qed.

Section Numbers.
Variable num : nums.
Notation row := (row num).
Notation first_of := (first_of num).

(** Which parts remain. *)
Lemma latest_index (l : list (list row)) : exists ks, latest num l = map (fun k => nth k l []) ks /\ StronglySorted lt ks /\
  forall k, In k ks <-> k < length l /\ forall j, k < j < length l -> ~ (first_of (nth k l []) == first_of (nth j l []))%Q.
Proof.
  induction l as [|a l IH].
  - exists []. split; [reflexivity|]. split; [constructor|]. intros k. cbn. split; [tauto|lia].
  - destruct IH as (ks & E & S & H).
    assert (Sh : latest num l = map (fun k => nth k (a :: l) []) (map Datatypes.S ks)) by (rewrite map_map, E; reflexivity).
    assert (SS : StronglySorted lt (map Datatypes.S ks)).
    { clear - S. induction S as [|x r S IH F]; [constructor|]. cbn. constructor; [exact IH|]. rewrite Forall_forall in *. intros y Hy. apply in_map_iff in Hy. destruct Hy as (z & <- & Hz). specialize (F z Hz). lia. }
    assert (HS : forall k, In (Datatypes.S k) (map Datatypes.S ks) <-> Datatypes.S k < length (a :: l) /\ forall j, Datatypes.S k < j < length (a :: l) -> ~ (first_of (nth (Datatypes.S k) (a :: l) []) == first_of (nth j (a :: l) []))%Q).
    { intros k. rewrite in_map_iff. split.
      - intros (z & Ez & Hz). injection Ez as ->. apply H in Hz. destruct Hz as (L & D). cbn [length]. split; [lia|]. intros [|j] Hj; [lia|]. cbn [nth]. apply D. lia.
      - intros (L & D). exists k. split; [reflexivity|]. apply H. cbn [length] in *. split; [lia|]. intros j Hj. apply (D (Datatypes.S j)). lia. }
    cbn [latest]. destruct (existsb (fun b => Qeq_bool (first_of a) (first_of b)) l) eqn:X.
    + exists (map Datatypes.S ks). split; [exact Sh|]. split; [exact SS|]. intros [|k]; [|apply HS]. split.
      * intros Hk. apply in_map_iff in Hk. destruct Hk as (z & Ez & _). discriminate.
      * intros (_ & D). exfalso. apply existsb_exists in X. destruct X as (b & Hb & Eb). apply Qeq_bool_iff in Eb. destruct (In_nth l b [] Hb) as (j & Lj & <-). apply (D (Datatypes.S j)); [cbn; lia|exact Eb].
    + exists (0 :: map Datatypes.S ks). split; [cbn [map nth]; now rewrite Sh|]. split.
      { constructor; [exact SS|]. apply Forall_forall. intros y Hy. apply in_map_iff in Hy. destruct Hy as (z & <- & _). lia. }
      intros [|k].
      * split; [|intros _; now left]. intros _. split; [cbn; lia|]. intros [|j] Hj; [lia|]. cbn [nth length] in *. intros Eq. apply Qeq_bool_iff in Eq.
        assert (existsb (fun b => Qeq_bool (first_of a) (first_of b)) l = true); [|congruence]. apply existsb_exists. exists (nth j l []). split; [apply nth_In; lia|exact Eq].
      * rewrite <- HS. cbn [In]. intuition discriminate.
Qed.

Lemma insert_part_perm f x l : Permutation (x :: l) (insert_part num f x l).
Proof. induction l as [|y l IH]; [reflexivity|]. cbn. destruct (f (first_of x) (first_of y)); [reflexivity|]. rewrite <- IH. apply perm_swap. Qed.
Lemma sort_parts_perm f l : Permutation l (sort_parts num f l).
Proof. induction l as [|x l IH]; [constructor|]. cbn. rewrite <- insert_part_perm. now constructor. Qed.

Definition lower (a b : list row) : Prop := (first_of a < first_of b)%Q.
Lemma insert_part_sorted x l : StronglySorted lower l -> (forall y, In y l -> ~ (first_of x == first_of y)%Q) -> StronglySorted lower (insert_part num less x l).
Proof.
  induction 1 as [|y r S IH F]; intros D; [repeat constructor|]. cbn [insert_part]. destruct (less (first_of x) (first_of y)) eqn:L.
  - apply less_lt in L. constructor; [constructor; assumption|]. constructor; [exact L|]. eapply Forall_impl; [|exact F]. unfold lower. intros z Hz. lra.
  - assert (L' : (first_of y < first_of x)%Q).
    { assert (~ (first_of x < first_of y)%Q) by (rewrite <- less_lt; congruence). specialize (D y (or_introl eq_refl)). apply Qnot_lt_le in H. apply Qle_lt_or_eq in H. destruct H as [H|H]; [exact H|]. destruct D. now symmetry. }
    constructor; [apply IH; intros z Hz; apply D; now right|]. apply Forall_forall. intros z Hz. apply (Permutation_in z (Permutation_sym (insert_part_perm less x r))) in Hz. destruct Hz as [<-|Hz]; [exact L'|]. rewrite Forall_forall in F. apply F, Hz.
Qed.
Lemma sort_parts_sorted l : (forall l1 a l2, l = l1 ++ a :: l2 -> forall y, In y l2 -> ~ (first_of a == first_of y)%Q) -> StronglySorted lower (sort_parts num less l).
Proof.
  induction l as [|x l IH]; intros D; [constructor|]. cbn. apply insert_part_sorted.
  - apply IH. intros l1 a l2 E y Hy. apply (D (x :: l1) a l2); [now rewrite E|exact Hy].
  - intros y Hy. apply (Permutation_in y (Permutation_sym (sort_parts_perm less l))) in Hy. apply (D [] x l eq_refl y Hy).
Qed.

(** The parts in order. *)
Lemma order_index (l : list (list row)) : exists ks, sort_parts num less (latest num l) = map (fun k => nth k l []) ks /\ NoDup ks /\
  StronglySorted (fun j k => lower (nth j l []) (nth k l [])) ks /\
  forall k, In k ks <-> k < length l /\ forall j, k < j < length l -> ~ (first_of (nth k l []) == first_of (nth j l []))%Q.
Proof.
  destruct (latest_index l) as (ks & E & S & H).
  assert (ND : NoDup ks). { clear - S. induction S as [|x r S IH F]; constructor; [|exact IH]. intros Hx. rewrite Forall_forall in F. specialize (F x Hx). lia. }
  assert (SP : StronglySorted lower (sort_parts num less (latest num l))).
  { apply sort_parts_sorted. intros l1 a l2 El y Hy. rewrite E in El. apply map_eq_app in El. destruct El as (k1 & k2 & Ek & E1 & E2). apply map_eq_cons in E2. destruct E2 as (k & k3 & -> & <- & <-).
    apply in_map_iff in Hy. destruct Hy as (j & <- & Hj). assert (Hk : In k ks) by (rewrite Ek; apply in_or_app; right; now left). apply H in Hk. destruct Hk as (_ & Dk). apply Dk.
    split.
    - rewrite Ek in S. apply sorted_app in S. destruct S as (_ & S & _). inversion S as [|? ? ? F]; subst. rewrite Forall_forall in F. apply F, Hj.
    - apply H. rewrite Ek. apply in_or_app. right. now right. }
  pose proof (sort_parts_perm less (latest num l)) as P. rewrite E in P at 1. apply Permutation_sym, Permutation_map_inv in P. destruct P as (ks' & E' & P').
  exists ks'. split; [exact E'|]. split; [apply (Permutation_NoDup P' ND)|]. split.
  - rewrite E' in SP. clear - SP. induction ks' as [|k ks IH]; [constructor|]. cbn [map] in SP. inversion SP as [|? ? S' F]; subst. constructor; [apply IH, S'|]. rewrite Forall_forall in *. intros j Hj. exact (F _ (in_map (fun k => nth k l []) _ _ Hj)).
  - intros k. rewrite <- H. split; intros Hk; [apply (Permutation_in k (Permutation_sym P') Hk)|apply (Permutation_in k P' Hk)].
Qed.

Lemma falling_sorted l : falling l = true -> StronglySorted (fun x y => (y <= x)%Q) l.
Proof.
  induction l as [|x [|y r] IH]; intros H; [constructor|repeat constructor|]. cbn [falling] in *. apply andb_true_iff in H. destruct H as (L & H). apply Qle_bool_iff in L. specialize (IH H).
  constructor; [exact IH|]. constructor; [exact L|]. inversion IH as [|? ? S' F]; subst. eapply Forall_impl; [|exact F]. intros z Hz. cbn in *. lra.
Qed.

Definition sorted_rows (rs : list row) : Prop := StronglySorted Qle (map fst rs).
Definition result_of (l : list (list row)) : list row := concat (sort_parts num less (latest num l)).
(** Combining two or more ordered parts. *)
Lemma combine_spec a b l rs : Forall sorted_rows (a :: b :: l) ->
  (combine num (a :: b :: l) = Ok rs <->
   (exists c, In c (b :: l) /\ same_periods (map fst c) (map fst a) = false) /\ ~ In [] (a :: b :: l) /\ rs = result_of (a :: b :: l) /\ sorted_rows rs).
Proof.
  intros F. set (L := a :: b :: l) in *.
  assert (AS : forallb (fun c => same_periods (map fst c) (map fst a)) (b :: l) = false <-> exists c, In c (b :: l) /\ same_periods (map fst c) (map fst a) = false).
  { split.
    - intros X. destruct (existsb (fun c => negb (same_periods (map fst c) (map fst a))) (b :: l)) eqn:Y.
      + apply existsb_exists in Y. destruct Y as (c & Hc & Y). exists c. split; [exact Hc|]. now apply negb_true_iff.
      + exfalso. assert (forallb (fun c => same_periods (map fst c) (map fst a)) (b :: l) = true); [|congruence]. apply forallb_forall. intros c Hc. apply not_false_is_true. intros Z.
        assert (existsb (fun c => negb (same_periods (map fst c) (map fst a))) (b :: l) = true); [|congruence]. apply existsb_exists. exists c. split; [exact Hc|]. now rewrite Z.
    - intros (c & Hc & E). apply not_true_is_false. rewrite forallb_forall. intros X. rewrite (X c Hc) in E. discriminate. }
  assert (R : forallb (fun c : list row => rising (map fst c)) L = true).
  { apply forallb_forall. intros c Hc. apply rising_sorted. rewrite Forall_forall in F. apply F, Hc. }
  assert (EM : existsb (fun c : list row => match c with [] => true | _ => false end) L = true <-> In [] L).
  { rewrite existsb_exists. split; [intros (c & Hc & E); destruct c; [exact Hc|discriminate]|intros H; now exists []]. }
  assert (EC : combine num L = if forallb (fun c => same_periods (map fst c) (map fst a)) (b :: l) then Err ValueError else
     bindR (if forallb (fun c : list row => rising (map fst c)) L then Ok less else if forallb (fun c : list row => falling (map fst c)) L then Ok (fun x y => less y x) else Err ValueError) (fun before =>
        if existsb (fun c : list row => match c with [] => true | _ => false end) L then Err ValueError
        else let rs := concat (sort_parts num before (latest num L)) in if rising (map fst rs) || falling (map fst rs) then Ok rs else Err ValueError)) by reflexivity.
  rewrite EC. destruct (forallb (fun c => same_periods (map fst c) (map fst a)) (b :: l)) eqn:Eq.
  { split; [discriminate|]. intros ((c & Hc & E) & _). assert (true = false); [|discriminate]. apply AS. now exists c. }
  rewrite R. cbn [bindR]. destruct (existsb (fun c : list row => match c with [] => true | _ => false end) L) eqn:Em.
  { split; [discriminate|]. intros (_ & N & _). destruct N. now apply EM. }
  assert (NE : ~ In [] L) by (rewrite <- EM; congruence).
  change (concat (sort_parts num less (latest num L))) with (result_of L). cbv zeta.
  assert (FR : falling (map fst (result_of L)) = true -> rising (map fst (result_of L)) = true).
  { intros Fa. apply falling_sorted in Fa. unfold result_of in *. destruct (order_index L) as (ks & Eo & ND & So & Hk). rewrite Eo in *.
    assert (In_L : forall k, In k ks -> In (nth k L []) L) by (intros k Hk'; apply nth_In; apply Hk, Hk').
    destruct ks as [|j [|k ks]]; [reflexivity| |].
    - cbn [map concat]. rewrite app_nil_r. apply rising_sorted. rewrite Forall_forall in F. apply F. apply In_L. now left.
    - exfalso. inversion So as [|? ? _ G]; subst. inversion G as [|? ? Lo _]; subst. unfold lower in Lo.
      pose proof (In_L j (or_introl eq_refl)) as Ij. pose proof (In_L k (or_intror (or_introl eq_refl))) as Ik. cbn [map concat] in Fa.
      destruct (nth j L []) as [|x xs]; [contradiction|]. destruct (nth k L []) as [|y ys]; [contradiction|]. cbn [app map] in Fa. inversion Fa as [|? ? _ G']; subst. rewrite Forall_forall in G'.
      specialize (G' (fst y)). cbn in Lo. assert (fst y <= fst x)%Q; [|lra]. apply G'. rewrite map_app. apply in_or_app. right. cbn. now left. }
  destruct (rising (map fst (result_of L))) eqn:Ri.
  - cbn [orb]. split.
    + intros E. injection E as <-. split; [now apply AS|]. split; [exact NE|]. split; [reflexivity|]. now apply rising_sorted.
    + intros (_ & _ & -> & _). reflexivity.
  - destruct (falling (map fst (result_of L))); [discriminate (FR eq_refl)|]. cbn [orb]. split; [discriminate|]. intros (_ & _ & -> & S). apply rising_sorted in S. congruence.
Qed.

(** A part that belongs to an input. *)
Definition part_ok (i : input num) (rs : list row) : Prop :=
  sorted_rows rs /\ (forall r, In r rs -> fst (snd r) = t_data num (i_tf num i)) /\ NoDup (map (fun r : row => snd (snd r)) rs) /\
  forall p q, In (q, (t_data num (i_tf num i), p)) rs <-> wanted num i p q.

Lemma rows_in d q d' p : In (q, (d', p)) (rows_of num d) <-> d' = d /\ nth_error (d_periods num d) p = Some q.
Proof.
  unfold rows_of. rewrite in_map_iff. split.
  - intros (n & E & Hn). injection E as <- <- <-. apply in_seq in Hn. split; [reflexivity|]. apply nth_error_nth'. lia.
  - intros (-> & E). exists p. split; [now rewrite (nth_error_nth _ _ _ E)|]. apply in_seq. split; [lia|]. apply nth_error_Some. cbn. congruence.
Qed.
Lemma rows_periods d : map fst (rows_of num d) = d_periods num d.
Proof.
  unfold rows_of. rewrite map_map. cbn [fst]. induction (d_periods num d) as [|x l IH]; [reflexivity|]. cbn [length seq map nth]. f_equal. rewrite <- seq_shift, map_map. exact IH.
Qed.
Lemma rows_places d : map (fun r : row => snd (snd r)) (rows_of num d) = seq 0 (length (d_periods num d)).
Proof. unfold rows_of. rewrite map_map. cbn [snd]. apply map_id. Qed.

Lemma nodup_filter {A B} (g : A -> B) f (l : list A) : NoDup (map g l) -> NoDup (map g (filter f l)).
Proof.
  induction l as [|x l IH]; intros N; [constructor|]. cbn in *. inversion N as [|? ? X Y]; subst. destruct (f x); [|apply IH, Y]. cbn. constructor; [|apply IH, Y].
  intros H. apply X. apply in_map_iff in H. destruct H as (z & E & Hz). apply filter_In in Hz. rewrite <- E. apply in_map, Hz.
Qed.
Lemma part_filter (i : input num) rs : Permutation (rows_of num (t_data num (i_tf num i))) rs -> sorted_rows rs ->
  part_ok i (filter (fun r => inb (i_lo num i) (i_hi num i) (fst r)) rs).
Proof.
  intros P S. split; [apply sorted_filter, S|]. split; [|split].
  - intros [q [d p]] Hr. apply filter_In in Hr. destruct Hr as (Hr & _). apply (Permutation_in _ (Permutation_sym P)), rows_in in Hr. cbn. apply Hr.
  - apply nodup_filter. apply (Permutation_NoDup (Permutation_map _ P)). rewrite rows_places. apply seq_NoDup.
  - intros p q. rewrite filter_In. cbn [fst]. rewrite inb_within. unfold wanted, has_period, periods. split.
    + intros (H & W). apply (Permutation_in _ (Permutation_sym P)), rows_in in H. tauto.
    + intros (H & W). split; [|exact W]. apply (Permutation_in _ P), rows_in. tauto.
Qed.
Lemma self_part t lo hi : ordered num t -> exists rs, get_slice num lo hi (rows_of num (t_data num t)) = Ok rs /\ part_ok (mkInput num t lo hi) rs.
Proof.
  intros O. assert (S : sorted_rows (rows_of num (t_data num t))) by (unfold sorted_rows; rewrite rows_periods; exact O).
  rewrite slice_sorted by exact S. eexists; split; [reflexivity|]. apply (part_filter (mkInput num t lo hi)); [reflexivity|exact S].
Qed.
Lemma item_part i x : input_of i = Some x -> exists rs, item_rows num i = Ok rs /\ part_ok x rs.
Proof.
  destruct i as [t|t lo hi| |]; intros E; try discriminate; injection E as <-; cbn [item_rows].
  - eexists; split; [reflexivity|]. rewrite <- (filter_all (fun r => inb None None (fst r)) (sort_rows num (rows_of num (t_data num t)))) by reflexivity.
    apply (part_filter (mkInput num t None None)); [apply sort_perm|apply sort_sorted].
  - rewrite slice_sorted by apply sort_sorted. eexists; split; [reflexivity|]. apply (part_filter (mkInput num t lo hi)); [apply sort_perm|apply sort_sorted].
Qed.
Lemma item_parts items r : map input_of items = map Some r -> exists ps, all_rows num items = Ok ps /\ Forall2 part_ok r ps.
Proof.
  revert r. induction items as [|i items IH]; intros [|x r] E; try discriminate; [exists []; split; [reflexivity|constructor]|]. cbn in E. injection E as E1 E2.
  destruct (item_part i x E1) as (a & Ea & Pa). destruct (IH r E2) as (ps & Ep & Pp). exists (a :: ps). cbn [all_rows]. rewrite Ea. cbn [bindR]. rewrite Ep. split; [reflexivity|now constructor].
Qed.
End Numbers.
