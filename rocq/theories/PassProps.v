(** C85: pass bands and normalization frequencies.  C100: the sensitivity of a channel. *)
From Coq Require Import Reals Lra Lia.
From Verif Require Import PyBase PyText Cplx FilterModel FilterProofs PassModel PassSpec PassProofs.
From Verif Require FilterProps.
From Coq Require Import Lra.
Local Open Scope R_scope.

Lemma pass_band_two fs amp n tol : (2 <= length fs)%nat -> increasing fs ->
  let d := Nat.max 1 (length fs / 1000) in
  let full := Some [nth 0 fs 0; nth (length fs - 1) fs 0] in
  pass_band fs (Some amp) n tol =
    if seems_flat amp then full else if (length (every_nth d amp) <=? n)%nat then full
    else match n with
         | O => full
         | _ => match passing n tol (every_nth d amp) with
                | [] => full
                | first :: more => Some [nth (first * d) fs 0; nth (Nat.min ((last more first + n) * d) (length fs - 1)) fs 0]
                end
         end.
Proof.
  intros L I. destruct fs as [|f0 [|f1 rest]]; try (cbn in L; lia). destruct (increasing_ends f0 f1 rest I) as [A B].
  cbv zeta. unfold pass_band. rewrite A, B. cbn [length]. rewrite Nat.sub_1_r. cbn [Nat.pred]. reflexivity.
Qed.
Lemma sampled_every d amp : (0 < d)%nat -> sampled d amp (every_nth d amp).
Proof. intros D. split; intros i; [now apply every_nth_length|now apply every_nth_nth]. Qed.
Lemma sampled_unique d amp x y : sampled d amp x -> sampled d amp y -> x = y.
Proof.
  intros [A B] [A' B']. assert (length x = length y).
  { destruct (Nat.lt_total (length x) (length y)) as [H|[H|H]]; [|exact H|].
    - apply A' in H. apply A in H. lia.
    - apply A in H. apply A' in H. lia. }
  apply (nth_ext x y 0 0); [assumption|]. intros k _. now rewrite B, B'.
Qed.

Lemma constant_flat c tol n dec i : 0 < c -> c <> 1 -> 0 <= tol -> (0 < n)%nat -> (i + n <= length dec)%nat ->
  (forall a, In a dec -> a = c) -> flat_at tol n dec i.
Proof.
  intros P N1 T N L A. exists (window n i dec). pose proof (window_stretch n i dec L) as W. split; [exact W|].
  assert (Ac : forall a, In a (window n i dec) -> a = c).
  { intros a Ha. apply (In_nth _ _ 0) in Ha as (k & Lk & <-). destruct W as [Wl Wn]. rewrite Wl in Lk. rewrite Wn by lia. apply A, nth_In. lia. }
  assert (Ic : In c (window n i dec)).
  { destruct W as [Wl _]. destruct (window n i dec) as [|b r] eqn:Eb; [cbn in Wl; lia|]. left. apply Ac. now left. }
  split; [intros a Ha; rewrite (Ac a Ha); exact P|]. exists c, c.
  repeat split; auto; try (apply Req_le; symmetry; now apply Ac); try (apply Req_le; now apply Ac).
  replace (ln c / ln c) with 1; [rewrite Rminus_diag_eq, Rabs_R0 by reflexivity; exact T|].
  symmetry. apply Rinv_r. intros Z. apply N1, ln_zero; assumption.
Qed.
Lemma every_nth_all (Q : R -> Prop) d amp : (0 < d)%nat -> (forall a, In a amp -> Q a) -> forall a, In a (every_nth d amp) -> Q a.
Proof.
  intros D A a Ha. apply (In_nth _ _ 0) in Ha as (k & Lk & <-). rewrite every_nth_nth by exact D. apply A, nth_In. now apply every_nth_length.
Qed.

(** ** C85: the pass band is between two of the frequencies *)
Theorem C85_ends : forall fs amp n tol,
  (2 <= length fs)%nat -> increasing fs -> length amp = length fs ->
  exists i j, (i < j < length fs)%nat /\ pass_band fs (Some amp) n tol = Some [nth i fs 0; nth j fs 0].
Proof.
  intros fs amp n tol L I E. rewrite (pass_band_two fs amp n tol L I). cbv zeta. set (d := Nat.max 1 (length fs / 1000)).
  assert (D : (0 < d)%nat) by (unfold d; lia).
  assert (W : exists i j, (i < j < length fs)%nat /\ Some [nth 0 fs 0; nth (length fs - 1) fs 0] = Some [nth i fs 0; nth j fs 0])
    by (exists 0%nat, (length fs - 1)%nat; split; [lia|reflexivity]).
  destruct (seems_flat amp); [exact W|]. destruct (length (every_nth d amp) <=? n)%nat eqn:K; [exact W|]. apply Nat.leb_gt in K.
  destruct n as [|n]; [exact W|]. pose proof (passing_cases (S n) tol (every_nth d amp) ltac:(lia)) as P.
  destruct (passing (S n) tol (every_nth d amp)) as [|first more]; [exact W|]. cbv zeta in P. destruct P as (A & B & _).
  eexists _, _. split; [|reflexivity]. set (k := last more first) in *.
  assert (H : (S (first + n) * d < length fs)%nat).
  { rewrite <- E. apply every_nth_length; [exact D|]. lia. }
  nia.
Qed.

(** The windows it is made of: from the start of the first flat one to the point after the last one.  The last window
    is not looked at, and of 2000 frequencies or more only every second, third ... one is. *)
Theorem C85_windows : forall fs amp n tol d dec,
  (2 <= length fs)%nat -> increasing fs -> length amp = length fs -> amplitude_list amp -> (0 < n)%nat ->
  d = Nat.max 1 (length fs / 1000) -> sampled d amp dec -> (n < length dec)%nat ->
  ~ averages_one amp -> ~ averages_zero amp ->
  (exists i k, (i <= k)%nat /\ (k + n < length dec)%nat /\ flat_at tol n dec i /\ flat_at tol n dec k /\
     (forall m, (m + n < length dec)%nat -> flat_at tol n dec m -> (i <= m <= k)%nat) /\
     pass_band fs (Some amp) n tol = Some [nth (i * d) fs 0; nth ((k + n) * d) fs 0]) \/
  ((forall m, (m + n < length dec)%nat -> ~ flat_at tol n dec m) /\
   pass_band fs (Some amp) n tol = Some [nth 0 fs 0; nth (length fs - 1) fs 0]).
Proof.
  intros fs amp n tol d dec L I E A N Hd S K N1 N0. rewrite (pass_band_two fs amp n tol L I). cbv zeta. rewrite <- Hd.
  assert (D : (0 < d)%nat) by lia. rewrite (sampled_unique d amp _ _ (sampled_every d amp D) S).
  assert (Ne : amp <> []) by (intros ->; cbn in E; lia).
  destruct (seems_flat amp) eqn:F; [apply (seems_flat_iff amp Ne A) in F; tauto|].
  destruct (length dec <=? n)%nat eqn:Q; [apply Nat.leb_le in Q; lia|]. destruct n as [|n]; [lia|].
  pose proof (passing_cases (Datatypes.S n) tol dec ltac:(lia)) as P.
  destruct (passing (Datatypes.S n) tol dec) as [|first more]; [right; split; [exact P|reflexivity]|].
  cbv zeta in P. destruct P as (P1 & P2 & P3 & P4 & P5). left. exists first, (last more first). repeat split; auto; try (apply P5; assumption).
  rewrite Nat.min_l; [reflexivity|]. apply (proj1 S) in P2. nia.
Qed.

Definition count_up (n : nat) : list R := map INR (seq 1 n).
Lemma count_up_increasing n : increasing (count_up n).
Proof.
  intros i j [H1 H2]. unfold count_up in *. rewrite map_length, seq_length in H2.
  assert (E : forall k, (k < n)%nat -> nth k (map INR (seq 1 n)) 0 = INR (S k)).
  { intros k K. rewrite (nth_indep _ 0 (INR 0)) by (rewrite map_length, seq_length; exact K). rewrite map_nth, seq_nth by exact K. reflexivity. }
  rewrite !E by lia. apply lt_INR. lia.
Qed.
Lemma count_up_length n : length (count_up n) = n.
Proof. unfold count_up. now rewrite map_length, seq_length. Qed.
Example C85_windows_hyp : exists fs amp, (2 <= length fs)%nat /\ increasing fs /\ length amp = length fs /\ amplitude_list amp /\
  sampled 1 amp amp /\ (2 < length amp)%nat /\ ~ averages_one amp /\ ~ averages_zero amp /\ 1%nat = Nat.max 1 (length fs / 1000).
Proof.
  exists (count_up 4), [10; 10; 10; 5]. rewrite count_up_length. split; [lia|]. split; [apply count_up_increasing|]. split; [reflexivity|].
  split; [intros a Ha; cbn in Ha; repeat destruct Ha as [<-|Ha]; try lra; contradiction|]. split; [split; intros i; rewrite Nat.mul_1_r; reflexivity|].
  split; [cbn; lia|]. split; [|split; [|reflexivity]].
  - intros [_ (m & Hm & Q)]. unfold average in Hm. cbn in Hm. assert (m = 35 / 4) as -> by lra. revert Q. unfold Rabs. destruct (Rcase_abs _); lra.
  - intros [_ (m & Hm & Q)]. unfold average in Hm. cbn in Hm. lra.
Qed.

(** A constant response passes everything (but the frequencies after the last one looked at). *)
Theorem C85_constant : forall fs c n tol,
  (2 <= length fs)%nat -> increasing fs -> 0 < c -> 0 <= tol ->
  exists j, (j < length fs /\ length fs <= j + Nat.max 1 (length fs / 1000))%nat /\
    pass_band fs (Some (repeat c (length fs))) n tol = Some [nth 0 fs 0; nth j fs 0].
Proof.
  intros fs c n tol L I P T. rewrite (pass_band_two fs _ n tol L I). cbv zeta. set (d := Nat.max 1 (length fs / 1000)).
  assert (D : (0 < d)%nat) by (unfold d; lia).
  assert (W : exists j, (j < length fs /\ length fs <= j + d)%nat /\
            Some [nth 0 fs 0; nth (length fs - 1) fs 0] = Some [nth 0 fs 0; nth j fs 0])
    by (exists (length fs - 1)%nat; split; [lia|reflexivity]).
  set (amp := repeat c (length fs)) in *. assert (E : length amp = length fs) by apply repeat_length.
  assert (All : forall a, In a amp -> a = c) by (intros a Ha; apply repeat_spec in Ha; exact Ha).
  destruct (seems_flat amp) eqn:F; [exact W|]. destruct (length (every_nth d amp) <=? n)%nat eqn:K; [exact W|]. apply Nat.leb_gt in K.
  destruct n as [|n]; [exact W|]. pose proof (passing_cases (S n) tol (every_nth d amp) ltac:(lia)) as C.
  assert (N1 : c <> 1).
  { intros ->. assert (seems_flat amp = true); [|congruence]. apply seems_flat_iff.
    - intros Z. rewrite Z in E. cbn in E. lia.
    - intros a Ha. rewrite (All a Ha). lra.
    - left. split; [intros a Ha; rewrite (All a Ha); lra|]. exists 1. split.
      + unfold average. rewrite E. unfold amp. clear. induction (length fs) as [|k IH]; cbn [repeat fold_right]; [cbn; lra|]. rewrite S_INR. lra.
      + rewrite Rminus_diag_eq, Rabs_R0 by reflexivity. lra. }
  assert (Fl : forall i, (i + S n < length (every_nth d amp))%nat -> flat_at tol (S n) (every_nth d amp) i).
  { intros i Hi. apply (constant_flat c); auto; try lia. apply (every_nth_all (fun a => a = c)); auto. }
  destruct (passing (S n) tol (every_nth d amp)) as [|first more]; [destruct (C 0%nat); [lia|apply Fl; lia]|].
  cbv zeta in C. destruct C as (C1 & C2 & _ & _ & C5). set (k := last more first) in *.
  assert (first = 0%nat) as -> by (destruct (C5 0%nat); [lia|apply Fl; lia|lia]).
  assert (Hk : (k + S n = length (every_nth d amp) - 1)%nat).
  { destruct (C5 (length (every_nth d amp) - 1 - S n)%nat); [lia|apply Fl; lia|lia]. }
  assert (B1 : ((k + S n) * d < length fs)%nat) by (rewrite <- E; apply every_nth_length; [exact D|lia]).
  assert (B2 : (length fs <= (k + S n) * d + d)%nat).
  { rewrite <- E. apply Nat.nlt_ge. intros X. replace ((k + S n) * d + d)%nat with ((S (k + S n)) * d)%nat in X by lia.
    apply (every_nth_length d amp _ D) in X. lia. }
  eexists. split; [|reflexivity]. rewrite Nat.min_l by lia. split; [exact B1|exact B2].
Qed.

(** So the frequencies after the last one looked at are left out: with 2000 frequencies the last one. *)
Theorem C85_last_refuted : forall fs c,
  length fs = (2 * 1000)%nat -> increasing fs -> 0 < c -> / 2000000 < Rabs (c - 1) -> / 2000000 < c ->
  pass_band fs (Some (repeat c (length fs))) 5 (/ 2) = Some [nth 0 fs 0; nth (length fs - 2) fs 0].
Proof.
  intros fs c L I P N1 N0.
  assert (Ld : (length fs / 1000 = 2)%nat) by (rewrite L; apply Nat.div_mul; lia).
  assert (D : Nat.max 1 (length fs / 1000) = 2%nat) by (rewrite Ld; reflexivity).
  set (amp := repeat c (length fs)). assert (E : length amp = length fs) by apply repeat_length.
  assert (All : forall a, In a amp -> a = c) by (intros a Ha; apply repeat_spec in Ha; exact Ha).
  assert (Ne : amp <> []) by (intros Z; rewrite Z in E; cbn in E; lia).
  assert (Sum : average amp c).
  { unfold average. rewrite E. unfold amp. clear. induction (length fs) as [|k IH]; cbn [repeat fold_right]; [cbn; lra|]. rewrite S_INR. lra. }
  assert (Len : length (every_nth 2 amp) = 1000%nat).
  { pose proof (every_nth_length 2 amp 1000 ltac:(lia)). pose proof (every_nth_length 2 amp 999 ltac:(lia)). lia. }
  assert (Hc : In c amp) by (destruct amp as [|x r] eqn:Ea; [contradiction|left; apply All; now left]).
  assert (Fl : forall m, (m + 5 < 1000)%nat -> flat_at (/ 2) 5 (every_nth 2 amp) m).
  { intros m Hm. apply (constant_flat c); auto; try lra; try lia; [|apply (every_nth_all (fun a => a = c)); auto].
    intros ->. rewrite Rminus_diag_eq, Rabs_R0 in N1 by reflexivity. lra. }
  destruct (C85_windows fs amp 5 (/ 2) 2 (every_nth 2 amp)) as [(i & k & H1 & H2 & H3 & H4 & H5 & H6)|[Hn _]]; auto; try lia.
  - intros a Ha. rewrite (All a Ha). lra.
  - apply sampled_every. lia.
  - intros [_ (m & Hm & Q)]. apply (proj2 (mean_average amp Ne)) in Hm. pose proof (proj2 (mean_average amp Ne) c Sum) as Hcm. rewrite Hm, <- Hcm in Q. lra.
  - intros [(a & Ha & La) _]. rewrite (All a Ha) in La. lra.
  - rewrite H6. destruct (H5 0%nat); [lia|apply Fl; lia|]. destruct (H5 994%nat); [lia|apply Fl; lia|].
    assert (i = 0)%nat as -> by lia. assert (k = 994)%nat as -> by lia. rewrite L. reflexivity.
  - destruct (Hn 0%nat); [lia|apply Fl; lia].
Qed.

(** A stretch with an amplitude of one is not flat, as long as all of it is on one side of one. *)
Lemma one_not_flat tol n amp i k : tol < 1 -> (i <= k < i + n)%nat -> nth k amp 0 = 1 ->
  (forall a, In a amp -> 1 <= a) \/ (forall a, In a amp -> a <= 1) -> (i + n <= length amp)%nat -> ~ flat_at tol n amp i.
Proof.
  intros T K E A L (w & [Wl W] & _ & lo & hi & Ilo & Ihi & B & N & Q).
  assert (I1 : In 1 w) by (rewrite <- E; replace k with (i + (k - i))%nat by lia; rewrite <- W by lia; apply nth_In; lia).
  assert (Aw : forall a, In a w -> In a amp) by (intros a Ha; apply (In_nth _ _ 0) in Ha as (q & Lq & <-); rewrite W by lia; apply nth_In; lia).
  destruct (B 1 I1) as [B1 B2]. destruct A as [A|A].
  - assert (lo = 1) as -> by (pose proof (A lo (Aw lo Ilo)); lra). rewrite ln_1 in Q. unfold Rdiv in Q. rewrite Rmult_0_l, Rminus_0_r, Rabs_R1 in Q. lra.
  - apply N. pose proof (A hi (Aw hi Ihi)). lra.
Qed.

(** ** Where the pass band is wrong *)
(** A response of one up to some frequency and small after it: the band found is the one after it, whatever the
    frequencies.  Ten times the response gives another band. *)
Theorem C85_unit_gain_refuted : forall fs c,
  length fs = 12%nat -> increasing fs -> / 2000000 < c < / 10 ->
  pass_band fs (Some (repeat 1 6 ++ repeat c 6)) 5 (/ 2) = Some [nth 6 fs 0; nth 11 fs 0] /\
  pass_band fs (Some (repeat 10 6 ++ repeat (10 * c) 6)) 5 (/ 2) = Some [nth 0 fs 0; nth 11 fs 0].
Proof.
  intros fs c L I C. assert (S1 : forall amp, sampled 1 amp amp) by (intros amp; split; intros i; rewrite Nat.mul_1_r; reflexivity).
  assert (D : 1%nat = Nat.max 1 (length fs / 1000)) by (rewrite L; reflexivity). split.
  - set (amp := repeat 1 6 ++ repeat c 6).
    assert (A : forall a, In a amp -> a = 1 \/ a = c) by (intros a Ha; apply in_app_iff in Ha as [Ha|Ha]; apply repeat_spec in Ha; auto).
    assert (M : forall m, average amp m -> m = (1 + c) / 2) by (intros m Hm; unfold average, amp in Hm; cbn in Hm; lra).
    destruct (C85_windows fs amp 5 (/ 2) 1 amp) as [(i & k & H1 & H2 & H3 & H4 & H5 & H6)|[Hn _]]; auto; try (cbn; lia).
    + intros a Ha. destruct (A a Ha) as [-> | ->]; lra.
    + intros [_ (m & Hm & Q)]. rewrite (M m Hm) in Q. revert Q. unfold Rabs. destruct (Rcase_abs _); lra.
    + intros [_ (m & Hm & Q)]. rewrite (M m Hm) in Q. lra.
    + change (length amp) with 12%nat in *.
      assert (F : forall j, flat_at (/ 2) 5 amp j -> (j + 5 < 12)%nat -> j = 6%nat).
      { intros j Hj Lj. destruct (Nat.le_gt_cases j 5) as [G|G]; [|lia]. exfalso. revert Hj. apply (one_not_flat (/ 2) 5 amp j j); try lia; try lra.
        - do 6 (destruct j as [|j]; [reflexivity|]). lia.
        - right. intros a Ha. destruct (A a Ha) as [-> | ->]; lra.
        - change (length amp) with 12%nat. lia. }
      rewrite (F i H3) in H6 by lia. rewrite (F k H4) in H6 by lia. exact H6.
    + destruct (Hn 6%nat); [cbn; lia|]. exists (repeat c 5). split; [split; [reflexivity|intros q Hq; do 5 (destruct q as [|q]; [reflexivity|]); lia]|].
      split; [intros a Ha; apply repeat_spec in Ha; lra|]. exists c, c. repeat split; try (now left); try (apply repeat_spec in H; lra); try lra.
      replace (ln c / ln c) with 1; [rewrite Rminus_diag_eq, Rabs_R0 by reflexivity; lra|]. symmetry. apply Rinv_r. intros Z. apply ln_zero in Z; lra.
  - set (amp := repeat 10 6 ++ repeat (10 * c) 6).
    assert (A : forall a, In a amp -> a = 10 \/ a = 10 * c) by (intros a Ha; apply in_app_iff in Ha as [Ha|Ha]; apply repeat_spec in Ha; auto).
    assert (M : forall m, average amp m -> m = 5 * (1 + c)) by (intros m Hm; unfold average, amp in Hm; cbn in Hm; lra).
    assert (F0 : forall x j, 0 < x -> x <> 1 -> (forall q, (q < 5)%nat -> nth (j + q) amp 0 = x) -> flat_at (/ 2) 5 amp j).
    { intros x j P N H. exists (repeat x 5). split; [split; [reflexivity|intros q Hq; rewrite H by exact Hq; do 5 (destruct q as [|q]; [reflexivity|]); lia]|].
      split; [intros a Ha; apply repeat_spec in Ha; lra|]. exists x, x. repeat split; try (now left); try (apply repeat_spec in H0; lra); try lra.
      replace (ln x / ln x) with 1; [rewrite Rminus_diag_eq, Rabs_R0 by reflexivity; lra|]. symmetry. apply Rinv_r. intros Z. apply ln_zero in Z; lra. }
    assert (G0 : flat_at (/ 2) 5 amp 0) by (apply (F0 10); try lra; intros q Hq; do 5 (destruct q as [|q]; [reflexivity|]); lia).
    assert (G6 : flat_at (/ 2) 5 amp 6) by (apply (F0 (10 * c)); try lra; intros q Hq; do 5 (destruct q as [|q]; [reflexivity|]); lia).
    destruct (C85_windows fs amp 5 (/ 2) 1 amp) as [(i & k & H1 & H2 & H3 & H4 & H5 & H6)|[Hn _]]; auto; try (cbn; lia).
    + intros a Ha. destruct (A a Ha) as [-> | ->]; lra.
    + intros [_ (m & Hm & Q)]. rewrite (M m Hm) in Q. revert Q. unfold Rabs. destruct (Rcase_abs _); lra.
    + intros [_ (m & Hm & Q)]. rewrite (M m Hm) in Q. lra.
    + change (length amp) with 12%nat in *. destruct (H5 0%nat ltac:(lia) G0) as [X1 X2]. destruct (H5 6%nat ltac:(lia) G6) as [Y1 Y2].
      assert (i = 0)%nat as -> by lia. assert (k = 6)%nat as -> by lia. exact H6.
    + destruct (Hn 0%nat); [cbn; lia|exact G0].
Qed.
Example C85_hyp : length (count_up 12) = 12%nat /\ increasing (count_up 12) /\ / 2000000 < / 100 < / 10.
Proof. split; [apply count_up_length|]. split; [apply count_up_increasing|lra]. Qed.
Example C85_last_hyp : length (count_up (2 * 1000)) = (2 * 1000)%nat /\ increasing (count_up (2 * 1000)) /\ / 2000000 < Rabs (3 - 1).
Proof.
  split; [apply count_up_length|]. split; [apply count_up_increasing|]. rewrite Rabs_right; lra.
Qed.

(** Any response whose average is one passes everything, whatever it is like. *)
Theorem C85_average_refuted : forall fs amp n tol,
  (2 <= length fs)%nat -> increasing fs -> length amp = length fs -> averages_one amp ->
  pass_band fs (Some amp) n tol = Some [nth 0 fs 0; nth (length fs - 1) fs 0].
Proof.
  intros fs amp n tol L I E A. rewrite (pass_band_two fs amp n tol L I). cbv zeta.
  rewrite (proj2 (seems_flat_iff amp ltac:(intros ->; cbn in E; lia) ltac:(intros a Ha; apply Rlt_le, (Rlt_trans _ (/ 2000000)); [lra|now apply A])) (or_introl A)).
  reflexivity.
Qed.
Example C85_average_hyp : averages_one [/ 1000; 1999 / 1000; / 1000; 1999 / 1000].
Proof.
  split; [intros a Ha; cbn in Ha; repeat destruct Ha as [<-|Ha]; try lra; contradiction|]. exists 1. split; [unfold average; cbn; lra|].
  rewrite Rminus_diag_eq, Rabs_R0 by reflexivity. lra.
Qed.

(** Coefficient and delay filters pass everything. *)
Theorem C85_constant_filters : forall f fs,
  (2 <= length fs < 2000)%nat -> increasing fs ->
  (f_body f = Coefficient /\ f_gain f <> 0) \/ (exists d, f_body f = TimeDelay d) ->
  filter_pass_band f fs = Some [nth 0 fs 0; nth (length fs - 1) fs 0].
Proof.
  intros f fs L I B. assert (H : exists c, 0 < c /\ amplitudes f fs = repeat c (length fs)).
  { assert (G : exists c, 0 < c /\ forall q, Cabs (resp f q) = c).
    { destruct B as [[B G]|[d B]].
      - exists (Rabs (f_gain f)). split; [now apply Rabs_pos_lt|]. intros q. unfold resp. rewrite B, Cmul_1_r. apply Cabs_RtoC.
      - exists 1. split; [lra|]. intros q. unfold resp. rewrite B. apply Cabs_cis. }
    destruct G as (c & P & G). exists c. split; [exact P|]. unfold amplitudes. clear -G. induction fs as [|x fs IH]; cbn; [reflexivity|]. now rewrite G, IH. }
  destruct H as (c & P & H). unfold filter_pass_band. rewrite H.
  destruct (C85_constant fs c 5 (/ 2) ltac:(lia) I P ltac:(lra)) as (j & [J1 J2] & Q). rewrite Q.
  assert (K : (length fs / 1000 < 2)%nat) by (apply Nat.div_lt_upper_bound; lia). assert (j = length fs - 1)%nat as -> by lia. reflexivity.
Qed.
Example C85_constant_filters_hyp : exists f, f_body f = Coefficient /\ f_gain f <> 0.
Proof. exists (mkF "" [] [] 5 Coefficient). split; [reflexivity|]. cbn. lra. Qed.

(** ** Channels: the frequencies that every filter passes *)
Theorem C85_channel : forall flts fs b,
  channel_pass_band flts fs = Some b ->
  forall x, fst b <= x <= snd b <->
    forall f pb, In f flts -> filter_pass_band f fs = Some pb -> exists lo hi, In lo pb /\ In hi pb /\ (forall a, In a pb -> lo <= a <= hi) /\ lo <= x <= hi.
Proof.
  intros flts fs b H x. unfold channel_pass_band in H. destruct fs as [|f0 fs]; [discriminate|]. set (q := f0 :: fs) in *.
  assert (Ne : forall f pb, filter_pass_band f q = Some pb -> pb <> []).
  { intros f pb E ->. unfold filter_pass_band, pass_band in E. destruct q as [|a [|a' r]]; try discriminate.
    destruct (seems_flat _); [discriminate|]. destruct (_ <=? _)%nat; [discriminate|]. destruct (passing _ _ _); discriminate. }
  assert (Eq : forall x, (forall e, In e (bands flts q) -> fst e <= x <= snd e) <->
    forall f pb, In f flts -> filter_pass_band f q = Some pb -> exists lo hi, In lo pb /\ In hi pb /\ (forall a, In a pb -> lo <= a <= hi) /\ lo <= x <= hi).
  { intros y. split.
    - intros A f pb If E. assert (I : In (ends pb) (bands flts q)) by (apply in_flat_map; exists f; split; [exact If|]; rewrite E; now left).
      specialize (A _ I). destruct pb as [|p r]; [now destruct (Ne f [] E)|]. cbn [ends fst snd] in A. exists (rmin p r), (rmax p r).
      split; [apply rmin_in|]. split; [apply rmax_in|]. split; [intros a Ha; split; [now apply rmin_le|now apply rmax_ge]|exact A].
    - intros A e Ie. apply in_flat_map in Ie as (f & If & Ie). destruct (filter_pass_band f q) as [pb|] eqn:E; [|destruct Ie].
      destruct Ie as [<-|[]]. destruct (A f pb If E) as (lo & hi & I1 & I2 & B & X). destruct pb as [|p r]; [destruct I1|]. cbn [ends fst snd].
      rewrite (rmin_is p r lo), (rmax_is p r hi); auto; intros a Ha; now apply B. }
  rewrite <- Eq. clear Eq. destruct (bands flts q) as [|e r]; [discriminate|]. injection H as <-. cbn [fst snd]. split.
  - intros [A B] d Hd. split.
    + eapply Rle_trans; [|exact A]. apply rmax_ge. destruct Hd as [<-|Hd]; [now left|right; now apply in_map].
    + eapply Rle_trans; [exact B|]. apply rmin_le. destruct Hd as [<-|Hd]; [now left|right; now apply in_map].
  - intros A. split.
    + destruct (rmax_in (map fst r) (fst e)) as [<-|K]; [apply A; now left|]. apply in_map_iff in K as (d & Kd & Id). rewrite <- Kd. apply A. now right.
    + destruct (rmin_in (map snd r) (snd e)) as [<-|K]; [apply A; now left|]. apply in_map_iff in K as (d & Kd & Id). rewrite <- Kd. apply A. now right.
Qed.

(** Filters that have no frequency in common give a band from a higher to a lower frequency. *)
Definition table_filter (amps : list R) : flt :=
  mkF "" [] [] 1 (Fap (combine (count_up 12) (map (fun a => (a, 0)) amps))).
Lemma count_up_NoDup n : NoDup (count_up n).
Proof. unfold count_up. apply FinFun.Injective_map_NoDup; [intros x y E; now apply INR_eq|apply seq_NoDup]. Qed.
Lemma combine_fst {A B : Type} (l : list A) : forall (m : list B), length m = length l -> map fst (combine l m) = l.
Proof. induction l as [|a l IH]; intros [|b m] H; cbn in *; try discriminate; [reflexivity|]. f_equal. apply IH. lia. Qed.
Lemma table_amplitudes amps : length amps = 12%nat -> amplitude_list amps -> amplitudes (table_filter amps) (count_up 12) = amps.
Proof.
  intros L P. unfold amplitudes. apply (nth_ext _ _ 0 0); [rewrite map_length, count_up_length; now symmetry|].
  rewrite map_length, count_up_length. intros i Hi. rewrite (nth_indep _ 0 (Cabs (resp (table_filter amps) 0))) by (rewrite map_length, count_up_length; exact Hi).
  rewrite (map_nth (fun q => Cabs (resp (table_filter amps) q))).
  rewrite (FilterProps.C68_table_points (table_filter amps) (combine (count_up 12) (map (fun a => (a, 0)) amps)) _ (nth i amps 0) 0); try reflexivity.
  - rewrite cis_0, Cmul_1_r. cbn [f_gain table_filter]. rewrite Cmul_1_l, Cabs_RtoC. apply Rabs_right, Rle_ge, P, nth_In. lia.
  - rewrite combine_fst by (rewrite map_length, count_up_length; exact L). apply count_up_NoDup.
  - rewrite combine_length, map_length, count_up_length. lia.
  - assert (E : nth i (combine (count_up 12) (map (fun a => (a, 0)) amps)) (0, (0, 0)) = (nth i (count_up 12) 0, (nth i amps 0, 0))).
    { rewrite combine_nth by (rewrite map_length, count_up_length; now symmetry). f_equal. change (0, 0) with ((fun a => (a, 0)) 0) at 1. now rewrite map_nth. }
    rewrite <- E. apply nth_In. rewrite combine_length, map_length, count_up_length. lia.
Qed.
Theorem C85_disjoint_refuted : exists flts fs lo hi,
  increasing fs /\ channel_pass_band flts fs = Some (lo, hi) /\ hi < lo.
Proof.
  set (A := repeat 10 5 ++ repeat 1 7). set (B := repeat 1 6 ++ repeat 10 6). set (fs := count_up 12).
  assert (I : increasing fs) by apply count_up_increasing. assert (L : length fs = 12%nat) by apply count_up_length.
  assert (S1 : forall amp, sampled 1 amp amp) by (intros amp; split; intros i; rewrite Nat.mul_1_r; reflexivity).
  assert (D : 1%nat = Nat.max 1 (length fs / 1000)) by (rewrite L; reflexivity).
  assert (InA : forall a, In a A -> a = 1 \/ a = 10) by (intros a Ha; apply in_app_iff in Ha as [Ha|Ha]; apply repeat_spec in Ha; auto).
  assert (InB : forall a, In a B -> a = 1 \/ a = 10) by (intros a Ha; apply in_app_iff in Ha as [Ha|Ha]; apply repeat_spec in Ha; auto).
  assert (PA : amplitude_list A) by (intros a Ha; destruct (InA a Ha) as [-> | ->]; lra).
  assert (PB : amplitude_list B) by (intros a Ha; destruct (InB a Ha) as [-> | ->]; lra).
  assert (TA : amplitudes (table_filter A) fs = A) by (apply table_amplitudes; [reflexivity|exact PA]).
  assert (TB : amplitudes (table_filter B) fs = B) by (apply table_amplitudes; [reflexivity|exact PB]).
  clearbody fs.
  assert (L2 : (2 <= length fs)%nat) by (rewrite L; repeat constructor).
  assert (LA : length A = length fs) by (rewrite L; reflexivity). assert (LB : length B = length fs) by (rewrite L; reflexivity).
  assert (KA : (5 < length A)%nat) by (rewrite LA, L; repeat constructor). assert (KB : (5 < length B)%nat) by (rewrite LB, L; repeat constructor).
  assert (F0 : forall amp j, (forall q, (q < 5)%nat -> nth (j + q) amp 0 = 10) -> flat_at (/ 2) 5 amp j).
  { intros amp j H. exists (repeat 10 5). split; [split; [reflexivity|intros q Hq; rewrite H by exact Hq; do 5 (destruct q as [|q]; [reflexivity|]); lia]|].
    split; [intros a Ha; apply repeat_spec in Ha; lra|]. exists 10, 10. repeat split; try (now left); try (apply repeat_spec in H0; lra); try lra.
    replace (ln 10 / ln 10) with 1; [rewrite Rminus_diag_eq, Rabs_R0 by reflexivity; lra|]. symmetry. apply Rinv_r. pose proof ln10. lra. }
  assert (EA : filter_pass_band (table_filter A) fs = Some [nth 0 fs 0; nth 5 fs 0]).
  { unfold filter_pass_band. rewrite TA.
    assert (G : flat_at (/ 2) 5 A 0) by (apply F0; intros q Hq; do 5 (destruct q as [|q]; [reflexivity|]); lia).
    assert (M : forall m, average A m -> m = 57 / 12) by (intros m Hm; unfold average, A in Hm; cbn in Hm; lra).
    destruct (C85_windows fs A 5 (/ 2) 1 A L2 I LA PA (Nat.lt_0_succ 4) D (S1 A) KA) as [(i & k & H1 & H2 & H3 & H4 & H5 & H6)|[Hn _]].
    - intros [_ (m & Hm & Q)]. rewrite (M m Hm) in Q. revert Q. unfold Rabs. destruct (Rcase_abs _); lra.
    - intros [_ (m & Hm & Q)]. rewrite (M m Hm) in Q. lra.
    - change (length A) with 12%nat in *.
      assert (F : forall j, flat_at (/ 2) 5 A j -> (j + 5 < 12)%nat -> j = 0%nat).
      { intros j Hj Lj. destruct j as [|j]; [reflexivity|]. exfalso. revert Hj. apply (one_not_flat (/ 2) 5 A (S j) (S j + 4)%nat); try lia; try lra.
        - do 6 (destruct j as [|j]; [reflexivity|]). lia.
        - left. intros a Ha. destruct (InA a Ha) as [-> | ->]; lra.
        - change (length A) with 12%nat. lia. }
      rewrite (F i H3) in H6 by lia. rewrite (F k H4) in H6 by lia. exact H6.
    - destruct (Hn 0%nat); [cbn; lia|exact G]. }
  assert (EB : filter_pass_band (table_filter B) fs = Some [nth 6 fs 0; nth 11 fs 0]).
  { unfold filter_pass_band. rewrite TB.
    assert (G : flat_at (/ 2) 5 B 6) by (apply F0; intros q Hq; do 5 (destruct q as [|q]; [reflexivity|]); lia).
    assert (M : forall m, average B m -> m = 66 / 12) by (intros m Hm; unfold average, B in Hm; cbn in Hm; lra).
    destruct (C85_windows fs B 5 (/ 2) 1 B L2 I LB PB (Nat.lt_0_succ 4) D (S1 B) KB) as [(i & k & H1 & H2 & H3 & H4 & H5 & H6)|[Hn _]].
    - intros [_ (m & Hm & Q)]. rewrite (M m Hm) in Q. revert Q. unfold Rabs. destruct (Rcase_abs _); lra.
    - intros [_ (m & Hm & Q)]. rewrite (M m Hm) in Q. lra.
    - change (length B) with 12%nat in *.
      assert (F : forall j, flat_at (/ 2) 5 B j -> (j + 5 < 12)%nat -> j = 6%nat).
      { intros j Hj Lj. destruct (Nat.le_gt_cases j 5) as [K|K]; [|lia]. exfalso. revert Hj. apply (one_not_flat (/ 2) 5 B j j); try lia; try lra.
        - do 6 (destruct j as [|j]; [reflexivity|]). lia.
        - left. intros a Ha. destruct (InB a Ha) as [-> | ->]; lra.
        - change (length B) with 12%nat. lia. }
      rewrite (F i H3) in H6 by lia. rewrite (F k H4) in H6 by lia. exact H6.
    - destruct (Hn 6%nat); [cbn; lia|exact G]. }
  pose proof (I 0%nat 5%nat ltac:(lia)) as L05. pose proof (I 5%nat 6%nat ltac:(lia)) as L56. pose proof (I 6%nat 11%nat ltac:(lia)) as L611.
  exists [table_filter A; table_filter B], fs, (nth 6 fs 0), (nth 5 fs 0). split; [exact I|]. split; [|exact L56].
  unfold channel_pass_band, bands. cbn [flat_map app]. rewrite EA, EB. cbn [ends rmin rmax fold_right app map fst snd].
  destruct fs as [|q0 q]; [discriminate|]. set (fs := q0 :: q) in *.
  rewrite (Rmin_right (nth 5 fs 0)), (Rmax_left (nth 5 fs 0)), (Rmin_right (nth 11 fs 0)), (Rmax_left (nth 11 fs 0)) by lra.
  rewrite (Rmax_left (nth 6 fs 0)), (Rmin_right (nth 11 fs 0)) by lra. reflexivity.
Qed.

(** ** Normalization frequencies *)
Lemma geometric lo hi : 0 < lo -> 0 < hi -> Rpower 10 ((log10 lo + log10 hi) / 2) = sqrt (lo * hi).
Proof.
  intros A B. pose proof ln10. unfold Rpower, log10.
  replace ((ln lo / ln 10 + ln hi / ln 10) / 2 * ln 10) with (/ 2 * ln (lo * hi)) by (rewrite ln_mult by assumption; field; lra).
  change (exp (/ 2 * ln (lo * hi))) with (Rpower (lo * hi) (/ 2)). apply Rpower_sqrt. now apply Rmult_lt_0_compat.
Qed.
(** The middle of the band on a logarithmic scale, to three decimals. *)
Theorem C85_middle : forall flts fs lo hi,
  channel_pass_band flts fs = Some (lo, hi) -> 0 < lo -> 0 < hi -> flts <> [] ->
  exists m, r_norm (new_response flts fs) = Some m /\ Rabs (m - sqrt (lo * hi)) <= 5 / 10000.
Proof.
  intros flts fs lo hi B P Q N. exists (round_at 3 (sqrt (lo * hi))). split.
  - unfold new_response, settle. cbn [r_filters r_norm r_freqs]. destruct flts; [contradiction|].
    destruct (Req_EM_T 0 0) as [_|Z]; [|now destruct Z]. rewrite B. cbn [r_norm]. unfold middle. cbn [fst snd].
    destruct (Rlt_dec lo 0); [lra|]. destruct (Rlt_dec hi 0); [lra|]. destruct (Req_EM_T lo 0); [lra|]. destruct (Req_EM_T hi 0); [lra|].
    now rewrite geometric.
  - pose proof (round_at_near 3 (sqrt (lo * hi))) as H. rewrite p3 in H. lra.
Qed.
Example C85_middle_hyp : exists flts fs lo hi, channel_pass_band flts fs = Some (lo, hi) /\ 0 < lo /\ 0 < hi /\ flts <> [].
Proof.
  exists [mkF "" [] [] 5 Coefficient], (count_up 12), (nth 0 (count_up 12) 0), (nth 11 (count_up 12) 0).
  pose proof (count_up_increasing 12 0%nat 11%nat ltac:(rewrite count_up_length; lia)) as L.
  split; [|split; [cbn; lra|split; [cbn; lra|discriminate]]].
  unfold channel_pass_band, bands. cbn [flat_map app].
  rewrite (C85_constant_filters (mkF "" [] [] 5 Coefficient) (count_up 12)); [|rewrite count_up_length; lia|apply count_up_increasing|left; split; [reflexivity|cbn; lra]].
  rewrite count_up_length. change (12 - 1)%nat with 11%nat. cbn [ends rmin rmax fold_right app map fst snd].
  rewrite (Rmin_right (nth 11 _ 0)), (Rmax_left (nth 11 _ 0)) by lra. reflexivity.
Qed.
(** So it is zero, which means that it is not known, for bands of long periods: below 0.0005 Hz. *)
Theorem C85_long_periods_refuted : forall flts fs lo hi,
  channel_pass_band flts fs = Some (lo, hi) -> 0 < lo -> 0 < hi -> lo * hi <= 25 / 100000000 -> flts <> [] ->
  r_norm (new_response flts fs) = Some 0.
Proof.
  intros flts fs lo hi B P Q K N. unfold new_response, settle. cbn [r_filters r_norm r_freqs]. destruct flts; [contradiction|].
  destruct (Req_EM_T 0 0) as [_|Z]; [|now destruct Z]. rewrite B. cbn [r_norm]. unfold middle. cbn [fst snd].
  destruct (Rlt_dec lo 0); [lra|]. destruct (Rlt_dec hi 0); [lra|]. destruct (Req_EM_T lo 0); [lra|]. destruct (Req_EM_T hi 0); [lra|].
  rewrite geometric by assumption. f_equal. apply round_zero. rewrite p3. pose proof (sqrt_pos (lo * hi)). rewrite Rabs_right by lra.
  replace (/ 2 * / 1000) with (sqrt ((5 / 10000) * (5 / 10000))) by (rewrite sqrt_square; lra). apply sqrt_le_1_alt. lra.
Qed.
Example C85_long_periods_hyp : exists flts fs lo hi, channel_pass_band flts fs = Some (lo, hi) /\ 0 < lo < hi /\ lo * hi <= 25 / 100000000 /\ flts <> [].
Proof.
  exists [mkF "" [] [] 5 Coefficient], [/ 10000; 2 / 10000], (/ 10000), (2 / 10000). split; [|split; [lra|split; [lra|discriminate]]].
  unfold channel_pass_band, bands. cbn [flat_map app].
  rewrite (C85_constant_filters (mkF "" [] [] 5 Coefficient) [/ 10000; 2 / 10000]); [|cbn; lia| |left; split; [reflexivity|cbn; lra]].
  - cbn [length Nat.sub nth ends rmin rmax fold_right app map fst snd]. rewrite Rmin_right, Rmax_left by lra. reflexivity.
  - intros i j [H1 H2]. cbn in H2. assert (i = 0)%nat as -> by lia. assert (j = 1)%nat as -> by lia. cbn. lra.
Qed.
(** Once it is there it does not change with the frequencies: it is that of the first ones used. *)
Theorem C85_first_frequencies_refuted : forall c z l,
  r_norm c = Some z -> z <> 0 -> r_norm (fold_left set_frequencies l c) = Some z.
Proof.
  intros c z l. revert c. induction l as [|fs l IH]; intros c E N; [exact E|]. cbn [fold_left]. apply IH; [|exact N].
  unfold set_frequencies, settle. cbn [r_filters r_norm r_freqs]. rewrite E. destruct (r_filters c); [reflexivity|].
  destruct (Req_EM_T z 0); [contradiction|reflexivity].
Qed.

(** ** C100: sensitivity and gain *)
Lemma pow10_ge n x : 0 < x -> powerRZ 10 (Int_part (log10 x)) <= x /\ powerRZ 10 (n + Int_part (log10 x)) = powerRZ 10 n * powerRZ 10 (Int_part (log10 x)).
Proof.
  intros P. split; [|apply powerRZ_add; lra]. rewrite powerRZ_Rpower by lra. pose proof ln10 as L.
  assert (E : Rpower 10 (log10 x) = x).
  { unfold Rpower, log10. replace (ln x / ln 10 * ln 10) with (ln x) by (field; lra). now apply exp_ln. }
  rewrite <- E at 2. apply Rle_Rpower; [lra|]. apply base_Int_part.
Qed.
Lemma sig_round_digits n x : x <> 0 -> same_digits n x (sig_round (Z.of_nat n) x).
Proof.
  intros N. unfold same_digits, sig_round. rewrite Rabs_minus_sym. eapply Rle_trans; [apply round_at_near|].
  pose proof (Rabs_pos_lt x N) as P. destruct (pow10_ge (- Z.of_nat n) (Rabs x) P) as [A B].
  replace (- (Z.of_nat n - Int_part (log10 (Rabs x))))%Z with (- Z.of_nat n + Int_part (log10 (Rabs x)))%Z by lia. rewrite B.
  assert (E : powerRZ 10 (- Z.of_nat n) = / 10 ^ n) by (rewrite powerRZ_neg by lra; rewrite <- pow_powerRZ; symmetry; apply Rinv_pow; lra). rewrite E.
  assert (0 < / 10 ^ n) by (apply Rinv_0_lt_compat, pow_lt; lra).
  replace (Rabs x * (/ 2 * / 10 ^ n)) with (/ 2 * (/ 10 ^ n * Rabs x)) by ring. apply Rmult_le_compat_l; [lra|]. apply Rmult_le_compat_l; lra.
Qed.
Lemma total_response_abs nf flts : Cabs (total_response flts nf) = fold_right Rmult 1 (map (fun f => Cabs (resp f nf)) flts).
Proof.
  unfold total_response. assert (H : forall l s, Cabs (fold_left (fun s f => Cmul s (resp f nf)) l s) = Cabs s * fold_right Rmult 1 (map (fun f => Cabs (resp f nf)) l)).
  { induction l as [|f l IH]; intros s; cbn [fold_left map fold_right]; [ring|]. rewrite IH, Cabs_mul. ring. }
  rewrite H, Cabs_C1. ring.
Qed.
Lemma gain_product flts : fold_left (fun g f => g * f_gain f) flts 1 = fold_right Rmult 1 (map f_gain flts).
Proof.
  assert (H : forall l s, fold_left (fun g f => g * f_gain f) l s = s * fold_right Rmult 1 (map f_gain l)).
  { induction l as [|f l IH]; intros s; cbn [fold_left map fold_right]; [ring|]. rewrite IH. ring. }
  rewrite H. ring.
Qed.

(** The sensitivity is the product of the amplitudes at the frequency, to that many digits and one more; one if it
    is zero. *)
Theorem C100_sensitivity : forall flts nf n,
  let a := fold_right Rmult 1 (map (fun f => Cabs (resp f nf)) flts) in
  (a <> 0 -> same_digits n a (sensitivity flts nf (Z.of_nat n))) /\ (a = 0 -> sensitivity flts nf (Z.of_nat n) = 1).
Proof.
  intros flts nf n a. unfold sensitivity. rewrite total_response_abs. fold a. split; intros H.
  - destruct (Req_EM_T a 0); [contradiction|]. now apply sig_round_digits.
  - destruct (Req_EM_T a 0); [reflexivity|contradiction].
Qed.
(** What is written is the product of the gains to sixteen digits. *)
Theorem C100_written : forall flts nf,
  let g := fold_right Rmult 1 (map f_gain flts) in
  (g <> 0 -> exists s, obspy_sensitivity flts nf = Ok s /\ same_digits 16 g s) /\
  (g = 0 -> obspy_sensitivity flts nf = Err OverflowError).
Proof.
  intros flts nf g. unfold obspy_sensitivity, total_gain. rewrite gain_product. fold g. split; intros H.
  - destruct (Req_EM_T g 0); [contradiction|]. cbn [bindR]. eexists. split; [reflexivity|].
    assert (E : forall s t, (if Req_EM_T s t then s else t) = t) by (intros s t; destruct (Req_EM_T s t); auto). rewrite E.
    exact (sig_round_digits 16 g H).
  - destruct (Req_EM_T g 0); [reflexivity|contradiction].
Qed.
(** So it is not the sensitivity at the frequency that is written with it: however small the response of a filter is
    there, its gain is what is written. *)
Theorem C100_frequency_refuted : forall g h, 0 < g -> 0 < h < g -> exists f nf,
  Cabs (resp f nf) = h /\ exists s, obspy_sensitivity [f] nf = Ok s /\ same_digits 16 g s.
Proof.
  intros g h G H. exists (mkF "" [] [] g (PoleZero [] [] (h / g))), 1. split.
  - unfold resp. cbn [f_body f_gain map cprod fold_right]. rewrite Cdiv_C1, Cmul_1_r, Cabs_RtoC. replace (g * (h / g)) with h by (field; lra). apply Rabs_right. lra.
  - destruct (C100_written [mkF "" [] [] g (PoleZero [] [] (h / g))] 1) as [W _]. cbn [map fold_right f_gain] in W. rewrite Rmult_1_r in W. apply W. lra.
Qed.
Example C100_hyp : fold_right Rmult 1 (map f_gain [mkF "" [] [] 5 Coefficient; mkF "" [] [] 3 (TimeDelay 1)]) <> 0.
Proof. cbn. lra. Qed.

Print Assumptions C85_windows.
Print Assumptions C85_disjoint_refuted.
Print Assumptions C100_written.
