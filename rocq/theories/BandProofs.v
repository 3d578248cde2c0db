From Coq Require Import Reals Qreals Permutation Sorted Lra.
From Verif Require Import PyBase PyFacts PyNum BandModel BandSpec.
Local Open Scope nat_scope.

Lemma Qlt_bool_iff a b : Qlt_bool a b = true <-> (a < b)%Q.
Proof.
  unfold Qlt_bool. rewrite negb_true_iff. split.
  - intros H. apply Qnot_le_lt. intros L. apply Qle_bool_iff in L. congruence.
  - intros H. destruct (Qle_bool b a) eqn:E; [|reflexivity]. apply Qle_bool_iff in E. lra.
Qed.

Lemma to_interval_Ok b i : to_interval b = Ok i ->
  (f_min b <= f_max b)%Q /\ i = mkIvl (f_min b) (f_max b)
     (match b_closed b with CRight => false | _ => true end)
     (match b_closed b with CLeft => false | _ => true end).
Proof.
  unfold to_interval. destruct (Qle_bool (f_min b) (f_max b)) eqn:E; [|discriminate].
  apply Qle_bool_iff in E. intros H. injection H as <-. auto.
Qed.

Lemma ivl_contains_iff b i x : to_interval b = Ok i -> ivl_contains i x = true <-> in_band b x.
Proof.
  intros H. apply to_interval_Ok in H. destruct H as [_ ->]. unfold ivl_contains, in_band. simpl.
  destruct (b_closed b); rewrite andb_true_iff, ?Qlt_bool_iff, ?Qle_bool_iff; reflexivity.
Qed.

(** *** where *)
Lemma where_from_In s mask i :
  In i (where_from s mask) <-> s <= i /\ nth_error mask (i - s) = Some true.
Proof.
  revert s. induction mask as [|m mask IH]; intros s; simpl.
  - split; [tauto|]. intros [_ H]. destruct (i - s); discriminate.
  - assert (G : In i (where_from (S s) mask) <-> S s <= i /\ nth_error (m :: mask) (i - s) = Some true).
    { rewrite IH. split; intros [H1 H2]; split; auto.
      - replace (i - s) with (S (i - S s)) by lia. exact H2.
      - replace (i - s) with (S (i - S s)) in H2 by lia. exact H2. }
    destruct m; simpl; rewrite G.
    + split.
      * intros [<-|[H1 H2]]; [split; [lia|now rewrite Nat.sub_diag]|split; [lia|exact H2]].
      * intros [H1 H2]. destruct (Nat.eq_dec s i); [now left|right]. split; [lia|exact H2].
    + split; intros [H1 H2]; split; try lia; auto.
      destruct (Nat.eq_dec s i) as [->|]; [|lia]. rewrite Nat.sub_diag in H2. discriminate.
Qed.

Lemma where_from_sorted s mask : StronglySorted lt (where_from s mask).
Proof.
  revert s. induction mask as [|m mask IH]; intros s; simpl; [constructor|].
  destruct m; [|apply IH]. constructor; [apply IH|]. apply Forall_forall. intros i Hi.
  apply where_from_In in Hi. lia.
Qed.

Lemma last_In {A} (l : list A) d : l <> [] -> In (last l d) l.
Proof.
  induction l as [|x l IH]; [congruence|]. intros _. destruct l as [|y l]; [now left|].
  right. apply IH. discriminate.
Qed.

Lemma sorted_head_last l i x : StronglySorted lt (i :: l) -> In x (i :: l) -> i <= x <= last (i :: l) i.
Proof.
  intros S H. split.
  - inversion S; subst. destruct H as [<-|H]; [lia|]. rewrite Forall_forall in H3. specialize (H3 x H). lia.
  - generalize i at 2. intros d. revert S H. generalize (i :: l). clear. induction l as [|y l IH]; intros S H; [destruct H|].
    inversion S; subst. destruct l as [|z l].
    + destruct H as [<-|[]]. simpl. lia.
    + change (last (y :: z :: l) d) with (last (z :: l) d). destruct H as [<-|H].
      * assert (In (last (z :: l) d) (z :: l)) as L by (apply last_In; discriminate).
        rewrite Forall_forall in H3. specialize (H3 _ L). lia.
      * apply IH; assumption.
Qed.

Lemma indices_In b freqs l i :
  indices_from_frequencies b freqs = Ok l ->
  (In i l <-> exists f, nth_error freqs i = Some f /\ in_band b f).
Proof.
  unfold indices_from_frequencies. destruct (to_interval b) as [iv|] eqn:E; [|discriminate]. cbn [bindR].
  intros H. injection H as <-. rewrite where_from_In, Nat.sub_0_r.
  rewrite nth_error_map. apply to_interval_Ok in E. destruct E as [_ ->].
  assert (G : forall f,
     ((if i_cl (mkIvl (f_min b) (f_max b) (match b_closed b with CRight => false | _ => true end)
           (match b_closed b with CLeft => false | _ => true end)) then Qle_bool (f_min b) f else Qlt_bool (f_min b) f) &&
      (if i_cr (mkIvl (f_min b) (f_max b) (match b_closed b with CRight => false | _ => true end)
           (match b_closed b with CLeft => false | _ => true end)) then Qle_bool f (f_max b) else Qlt_bool f (f_max b)) = true)
      <-> in_band b f).
  { intros f. unfold in_band. simpl. destruct (b_closed b); rewrite andb_true_iff, ?Qlt_bool_iff, ?Qle_bool_iff; reflexivity. }
  split.
  - intros [_ H]. destruct (nth_error freqs i) as [f|]; [|discriminate]. exists f. split; [reflexivity|].
    simpl in H. injection H as H. apply G. exact H.
  - intros (f & -> & H). split; [lia|]. simpl. f_equal. apply G. exact H.
Qed.

Lemma in_band_convex b x y z : in_band b x -> in_band b z -> (x <= y)%Q -> (y <= z)%Q -> in_band b y.
Proof. unfold in_band. destruct (b_closed b); intros [A B] [C D] E F; split; lra. Qed.

Lemma in_band_comp b x y : (x == y)%Q -> in_band b x -> in_band b y.
Proof. unfold in_band. destruct (b_closed b); intros E [A B]; split; lra. Qed.

Lemma indices_exact b freqs lo hi :
  nondecreasing freqs -> set_indices b freqs = Ok (lo, hi) ->
  forall i, In i (harmonic_indices lo hi) <-> exists f, nth_error freqs i = Some f /\ in_band b f.
Proof.
  intros S H i. unfold set_indices in H. destruct (indices_from_frequencies b freqs) as [l|] eqn:E; [|discriminate].
  cbn [bindR] in H. destruct l as [|a l]; [discriminate|]. injection H as <- <-.
  pose proof (indices_In b freqs _ i E) as I.
  assert (SS : StronglySorted lt (a :: l)).
  { unfold indices_from_frequencies in E. destruct (to_interval b); [|discriminate]. cbn [bindR] in E. injection E as E.
    rewrite <- E. apply where_from_sorted. }
  unfold harmonic_indices, arange. rewrite in_seq. change (match l with [] => a | _ :: _ => last l a end) with (last (a :: l) a). split.
  - intros R.
    destruct (proj1 (indices_In b freqs _ a E) (or_introl eq_refl)) as (fa & Ha & Ba).
    assert (In (last (a :: l) a) (a :: l)) as L by (apply last_In; discriminate).
    destruct (proj1 (indices_In b freqs _ _ E) L) as (fz & Hz & Bz).
    assert (i <= last (a :: l) a) as Li by lia.
    assert (exists f, nth_error freqs i = Some f) as [f Hf].
    { destruct (nth_error freqs i) eqn:N; [eauto|]. apply nth_error_None in N.
      assert (nth_error freqs (last (a :: l) a) = None) by (apply nth_error_None; lia). congruence. }
    exists f. split; [assumption|]. apply (in_band_convex b fa f fz); auto.
    + apply (S a i); auto. lia.
    + apply (S i (last (a :: l) a)); auto.
  - intros H. apply I in H. apply (sorted_head_last l a i SS) in H. lia.
Qed.

Lemma set_indices_total b freqs :
  (f_min b <= f_max b)%Q ->
  ((exists i f, nth_error freqs i = Some f /\ in_band b f) -> exists lo hi, set_indices b freqs = Ok (lo, hi)) /\
  ((forall i f, nth_error freqs i = Some f -> ~ in_band b f) -> set_indices b freqs = Err IndexError).
Proof.
  intros L. unfold set_indices.
  destruct (indices_from_frequencies b freqs) as [l|e] eqn:E.
  2:{ unfold indices_from_frequencies, to_interval in E. apply Qle_bool_iff in L. rewrite L in E. discriminate. }
  cbn [bindR]. split.
  - intros (i & f & H). assert (In i l) as I by (apply (indices_In _ _ _ _ E); eauto).
    destruct l as [|a l]; [destruct I|]. eauto.
  - intros H. destruct l as [|a l]; [reflexivity|]. exfalso.
    destruct (proj1 (indices_In _ _ _ a E) (or_introl eq_refl)) as (f & Hf & B). eapply H; eauto.
Qed.

(** *** In-band harmonics of any axis *)
Definition inb (b : band) (x : Q) : bool :=
  (match b_closed b with CRight => Qlt_bool (f_min b) x | _ => Qle_bool (f_min b) x end) &&
  (match b_closed b with CLeft => Qlt_bool x (f_max b) | _ => Qle_bool x (f_max b) end).

Lemma inb_iff b x : inb b x = true <-> in_band b x.
Proof.
  unfold inb, in_band. destruct (b_closed b); rewrite andb_true_iff, ?Qlt_bool_iff, ?Qle_bool_iff; reflexivity.
Qed.

Lemma where_map_filter (p : Q -> bool) freqs s pre :
  length pre = s ->
  map (fun i => nth i (pre ++ freqs) 0%Q) (where_from s (map p freqs)) = filter p freqs.
Proof.
  revert s pre. induction freqs as [|f freqs IH]; intros s pre L; simpl; [reflexivity|].
  assert (E : map (fun i => nth i (pre ++ f :: freqs) 0%Q) (where_from (S s) (map p freqs)) = filter p freqs).
  { replace (pre ++ f :: freqs) with ((pre ++ [f]) ++ freqs) by now rewrite <- app_assoc.
    apply IH. rewrite app_length. simpl. lia. }
  destruct (p f); simpl; [|exact E]. f_equal; [|exact E].
  rewrite app_nth2 by lia. now rewrite L, Nat.sub_diag.
Qed.

Lemma in_band_harmonics_filter b freqs l :
  in_band_harmonics b freqs = Ok l -> l = filter (inb b) freqs.
Proof.
  unfold in_band_harmonics, indices_from_frequencies. destruct (to_interval b) as [i|] eqn:E; [|discriminate].
  cbn [bindR]. intros H. injection H as <-.
  rewrite (where_map_filter _ freqs 0 []) by reflexivity.
  apply to_interval_Ok in E. destruct E as [_ ->]. apply filter_ext. intros f. unfold inb. simpl.
  destruct (b_closed b); reflexivity.
Qed.

(** *** Intervals *)
Lemma overlaps_sym a b r s : overlaps a b = Ok r -> overlaps b a = Ok s -> r = s.
Proof.
  unfold overlaps. destruct (to_interval a) as [i|]; [|discriminate]. destruct (to_interval b) as [j|]; [|discriminate].
  cbn [bindR]. intros H1 H2. injection H1 as <-. injection H2 as <-. unfold ivl_overlaps. now rewrite andb_comm.
Qed.

Lemma overlaps_common a b r :
  overlaps a b = Ok r -> nonempty_band a -> nonempty_band b ->
  (r = true <-> exists x, in_band a x /\ in_band b x).
Proof.
  unfold overlaps. destruct (to_interval a) as [i|] eqn:Ea; [|discriminate].
  destruct (to_interval b) as [j|] eqn:Eb; [|discriminate]. cbn [bindR]. intros H (x & Hx) (y & Hy). injection H as <-.
  apply to_interval_Ok in Ea, Eb. destruct Ea as [La ->], Eb as [Lb ->].
  unfold ivl_overlaps. simpl.
  set (lo := if Qlt_le_dec (f_min a) (f_min b) then f_min b else f_min a).
  set (hi := if Qlt_le_dec (f_max a) (f_max b) then f_max a else f_max b).
  unfold in_band in *. split.
  - intros H. exists ((lo + hi) * (1 # 2))%Q. unfold lo, hi.
    destruct (b_closed a), (b_closed b); simpl in H; rewrite andb_true_iff, ?Qlt_bool_iff, ?Qle_bool_iff in H;
    destruct (Qlt_le_dec (f_min a) (f_min b)), (Qlt_le_dec (f_max a) (f_max b)); lra.
  - intros (z & Za & Zb).
    destruct (b_closed a), (b_closed b); simpl; rewrite andb_true_iff, ?Qlt_bool_iff, ?Qle_bool_iff; lra.
Qed.

(** A band is nonempty unless its two equal ends are not both closed. *)
Lemma nonempty_band_iff b :
  nonempty_band b <-> (f_min b < f_max b)%Q \/ (f_min b == f_max b /\ b_closed b = CBoth)%Q.
Proof.
  unfold nonempty_band, in_band. split.
  - intros (x & A & B). destruct (Qlt_le_dec (f_min b) (f_max b)); [now left|].
    right. destruct (b_closed b); split; auto; lra.
  - intros [L|[E C]].
    + exists ((f_min b + f_max b) * (1 # 2))%Q. destruct (b_closed b); split; lra.
    + exists (f_min b). rewrite C. split; lra.
Qed.

Lemma contains_iff a b r :
  contains a b = Ok r -> (r = true <-> in_band a (f_min b) /\ in_band a (f_max b)).
Proof.
  unfold contains. destruct (to_interval a) as [i|] eqn:E; [|discriminate]. cbn [bindR]. intros H. injection H as <-.
  rewrite andb_true_iff, !(ivl_contains_iff a i) by assumption. reflexivity.
Qed.

(** *** Sorting *)
Section sorting.
  Context {A : Type} (le : A -> A -> bool).
  Hypothesis le_total : forall a b, le a b = false -> le b a = true.
  Hypothesis le_trans : forall a b c, le a b = true -> le b c = true -> le a c = true.

  Lemma insert_by_perm x l : Permutation (x :: l) (insert_by le x l).
  Proof.
    induction l as [|y l IH]; simpl; [auto|]. destruct (le x y); [auto|].
    rewrite perm_swap. now constructor.
  Qed.
  Lemma sort_by_perm l : Permutation l (sort_by le l).
  Proof.
    induction l as [|x l IH]; simpl; [auto|]. rewrite IH at 1. apply insert_by_perm.
  Qed.
  Definition leP a b : Prop := le a b = true.
  Lemma insert_by_sorted x l : StronglySorted leP l -> StronglySorted leP (insert_by le x l).
  Proof.
    induction 1 as [|y l S IH F]; simpl; [repeat constructor|].
    destruct (le x y) eqn:E.
    - constructor; [constructor; assumption|]. constructor; [exact E|].
      rewrite Forall_forall in *. intros z Hz. eapply le_trans; [exact E|]. now apply F.
    - constructor; [assumption|]. rewrite Forall_forall in *. intros z Hz.
      apply Permutation_in with (l' := x :: l) in Hz; [|apply Permutation_sym, insert_by_perm].
      destruct Hz as [<-|Hz]; [now apply le_total|now apply F].
  Qed.
  Lemma sort_by_sorted l : StronglySorted leP (sort_by le l).
  Proof. induction l as [|x l IH]; simpl; [constructor|]. now apply insert_by_sorted. Qed.

  Hypothesis le_refl : forall a, le a a = true.
  Lemma sorted_nth l i j a b : StronglySorted leP l ->
    i <= j -> nth_error l i = Some a -> nth_error l j = Some b -> le a b = true.
  Proof.
    intros S. revert i j. induction S as [|x l S IH F]; intros i j L Hi Hj.
    - destruct i; discriminate.
    - destruct i as [|i], j as [|j]; simpl in *; try lia.
      + injection Hi as <-. injection Hj as <-. apply le_refl.
      + injection Hi as <-. rewrite Forall_forall in F. apply F. eapply nth_error_In; eauto.
      + apply (IH i j); auto. lia.
  Qed.
End sorting.

Lemma nth_error_rev {A} (l : list A) i : i < length l -> nth_error (rev l) i = nth_error l (length l - S i).
Proof.
  intros H. destruct l as [|d l0] eqn:E; [simpl in H; lia|]. rewrite <- E in *. clear E.
  rewrite (nth_error_nth' (rev l) d) by now rewrite rev_length.
  rewrite (nth_error_nth' l d) by lia. now rewrite rev_nth.
Qed.

Definition key_le (k : sort_key) (a b : Q * Q) : bool := Qle_bool (key_of k a) (key_of k b).

Lemma key_le_total k a b : key_le k a b = false -> key_le k b a = true.
Proof.
  unfold key_le. intros H. apply Qle_bool_iff. destruct (Qlt_le_dec (key_of k b) (key_of k a)) as [L|L]; [lra|].
  apply Qle_bool_iff in L. congruence.
Qed.
Lemma key_le_trans k a b c : key_le k a b = true -> key_le k b c = true -> key_le k a c = true.
Proof. unfold key_le. rewrite !Qle_bool_iff. intros; lra. Qed.
Lemma key_le_refl k a : key_le k a a = true.
Proof. unfold key_le. rewrite Qle_bool_iff. lra. Qed.

Lemma fb_sort_perm k asc rows : Permutation rows (fb_sort k asc rows).
Proof.
  unfold fb_sort. destruct asc; [apply sort_by_perm|].
  eapply Permutation_trans; [apply sort_by_perm|apply Permutation_rev].
Qed.

Lemma key_le_real k a b :
  (0 <= fst a)%Q -> (0 <= snd a)%Q -> (0 <= fst b)%Q -> (0 <= snd b)%Q ->
  key_le k a b = true -> (real_key k a <= real_key k b)%R.
Proof.
  unfold key_le. rewrite Qle_bool_iff. intros A B C D H. destruct k; simpl in *.
  - now apply Qle_Rle.
  - now apply Qle_Rle.
  - unfold center, center_sq in *. apply sqrt_le_1_alt. rewrite <- !Q2R_mult. now apply Qle_Rle.
Qed.

Lemma fb_sort_up k rows : physical rows -> ordered_by (real_key k) (fb_sort k true rows).
Proof.
  intros P i j a b L Hi Hj.
  assert (Ia : In a rows) by (eapply Permutation_in; [apply Permutation_sym, (fb_sort_perm k true)|eapply nth_error_In; eauto]).
  assert (Ib : In b rows) by (eapply Permutation_in; [apply Permutation_sym, (fb_sort_perm k true)|eapply nth_error_In; eauto]).
  apply key_le_real; try apply P; auto.
  eapply (sorted_nth (key_le k) (key_le_refl k)); [|exact L|exact Hi|exact Hj].
  apply (sort_by_sorted (key_le k)); [apply key_le_total|apply key_le_trans].
Qed.

Lemma fb_sort_down k rows : physical rows -> ordered_down_by (real_key k) (fb_sort k false rows).
Proof.
  intros P i j a b L Hi Hj. unfold fb_sort in *. fold (key_le k) in *.
  set (s := sort_by (key_le k) rows) in *.
  assert (Lj : j < length (rev s)) by (apply nth_error_Some; congruence). rewrite rev_length in Lj.
  rewrite nth_error_rev in Hi, Hj by lia.
  apply (fb_sort_up k rows P (length s - S j) (length s - S i)); auto. lia.
Qed.

Lemma fb_band_nth rows i e :
  nth_error rows i = Some e -> fb_band rows (Z.of_nat i) = Ok (mkBand (fst e) (snd e) CLeft).
Proof.
  intros H. unfold fb_band. assert (L : i < length rows) by (apply nth_error_Some; congruence).
  replace (Z.of_nat i <? 0)%Z with false by (symmetry; apply Z.ltb_ge; lia).
  replace ((0 <=? Z.of_nat i)%Z) with true by (symmetry; apply Z.leb_le; lia).
  replace ((Z.of_nat i <? Z.of_nat (length rows))%Z) with true by (symmetry; apply Z.ltb_lt; lia).
  simpl. now rewrite Nat2Z.id, H.
Qed.

Definition left_band (e : Q * Q) : band := mkBand (fst e) (snd e) CLeft.

Lemma mapR_fb_band rows pre post :
  rows = pre ++ post ->
  mapR (fun i => fb_band rows (Z.of_nat i)) (seq (length pre) (length post)) = Ok (map left_band post).
Proof.
  revert pre. induction post as [|e post IH]; intros pre E; [reflexivity|].
  cbn [length seq mapR map]. rewrite (fb_band_nth rows (length pre) e).
  2:{ rewrite E, nth_error_app2, Nat.sub_diag by lia. reflexivity. }
  cbn [bindR]. specialize (IH (pre ++ [e])). rewrite app_length in IH. simpl in IH.
  replace (length pre + 1) with (S (length pre)) in IH by lia. rewrite IH by (rewrite E, <- app_assoc; reflexivity).
  reflexivity.
Qed.

Lemma fb_bands_rows rows : mapR (fun i => fb_band rows (Z.of_nat i)) (seq 0 (length rows)) = Ok (map left_band rows).
Proof. apply (mapR_fb_band rows []). reflexivity. Qed.

Lemma strictly_increasing_sorted l : strictly_increasing l = true -> StronglySorted (fun a b => Qle_bool a b = true) l.
Proof.
  induction l as [|x l IH]; [constructor|]. destruct l as [|y l]; [repeat constructor|].
  intros H. apply andb_true_iff in H. destruct H as [H1 H2]. apply Qlt_bool_iff in H1.
  specialize (IH H2). constructor; [exact IH|]. inversion IH; subst. constructor.
  - apply Qle_bool_iff. lra.
  - rewrite Forall_forall in *. intros z Hz. specialize (H4 z Hz). rewrite Qle_bool_iff in *. lra.
Qed.

Lemma fb_validate_ordered rows : physical rows -> ordered_by center (fb_validate rows).
Proof.
  intros P. unfold fb_validate. destruct (strictly_increasing (map center_sq rows)) eqn:E; [|now apply (fb_sort_up ByCenter)].
  intros i j a b L Hi Hj. apply (key_le_real ByCenter); try (apply P; eapply nth_error_In; eauto).
  apply strictly_increasing_sorted in E. unfold key_le. simpl.
  apply (sorted_nth Qle_bool (fun a => proj2 (Qle_bool_iff a a) (Qle_refl a)) (map center_sq rows) i j); auto.
  - now rewrite nth_error_map, Hi.
  - now rewrite nth_error_map, Hj.
Qed.

(** *** FFT harmonics *)
Lemma fft_harmonics_eq n sr :
  n <> 0 -> ~ (sr == 0)%Q ->
  length (get_fft_harmonics n sr) = n / 2 /\
  forall k, k < n / 2 -> exists q, nth_error (get_fft_harmonics n sr) k = Some q /\
     (q == inject_Z (Z.of_nat k) * sr / inject_Z (Z.of_nat n))%Q.
Proof.
  intros N S. unfold get_fft_harmonics, fftfreq.
  assert (L : n / 2 <= (n + 1) / 2) by (apply Nat.div_le_mono; lia).
  set (g := fun k => (inject_Z k / (inject_Z (Z.of_nat n) * (1 / sr)))%Q).
  rewrite map_app. split.
  - rewrite firstn_length, app_length, !map_length, !seq_length. lia.
  - intros k Hk. exists (g (Z.of_nat k)). split.
    + rewrite firstn_app, !map_length, seq_length. replace (n / 2 - (n + 1) / 2) with 0 by lia.
      simpl firstn. rewrite app_nil_r.
      assert (G : forall (l : list Q) m i, i < m -> nth_error (firstn m l) i = nth_error l i).
      { induction l as [|x l IH]; intros m i Hi; [now rewrite firstn_nil|]. destruct m; [lia|].
        destruct i; [reflexivity|]. simpl. apply IH. lia. }
      rewrite G by exact Hk. rewrite nth_error_map, nth_error_map.
      assert (Hs : nth_error (seq 0 ((n + 1) / 2)) k = Some k).
      { rewrite (nth_error_nth' _ 0) by (rewrite seq_length; lia). rewrite seq_nth by lia. reflexivity. }
      change (fst (Nat.divmod (n + 1) 1 0 1)) with ((n + 1) / 2). rewrite Hs. reflexivity.
    + unfold g. field. split; [|assumption]. intros E.
      change 0%Q with (inject_Z 0) in E. unfold Qeq in E. simpl in E. lia.
Qed.

Lemma inject_nat_le a b : a <= b -> (inject_Z (Z.of_nat a) <= inject_Z (Z.of_nat b))%Q.
Proof. intros. rewrite <- Zle_Qle. lia. Qed.

Lemma fft_nondecreasing n sr : n <> 0 -> (0 < sr)%Q -> nondecreasing (get_fft_harmonics n sr).
Proof.
  intros N S i j a b L Hi Hj. destruct (fft_harmonics_eq n sr N) as [Len Eq]; [lra|].
  assert (i < n / 2) by (rewrite <- Len; apply nth_error_Some; congruence).
  assert (j < n / 2) by (rewrite <- Len; apply nth_error_Some; congruence).
  destruct (Eq i) as (q & Eq1 & Q1); [assumption|]. destruct (Eq j) as (q' & Eq2 & Q2); [assumption|].
  rewrite Hi in Eq1. rewrite Hj in Eq2. injection Eq1 as <-. injection Eq2 as <-. rewrite Q1, Q2.
  assert (P : (0 < inject_Z (Z.of_nat n))%Q).
  { change 0%Q with (inject_Z 0). rewrite <- Zlt_Qlt. lia. }
  apply Qle_shift_div_l; [assumption|].
  assert (E : (inject_Z (Z.of_nat i) * sr / inject_Z (Z.of_nat n) * inject_Z (Z.of_nat n) == inject_Z (Z.of_nat i) * sr)%Q)
    by (field; lra).
  rewrite E. apply Qmult_le_compat_r; [now apply inject_nat_le|lra].
Qed.
