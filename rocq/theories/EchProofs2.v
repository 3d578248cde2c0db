From Coq Require Import QArith Reals Lra.
From Verif Require Import PyBase PyText EchModel EchSpec.
Local Open Scope R_scope.

Lemma length_spec x y x2 y2 : has_length (dipole_length x y x2 y2) (x2 - x) (y2 - y).
Proof. unfold has_length, dipole_length. split; [apply sqrt_pos|]. apply sqrt_sqrt. apply Rplus_le_le_0_compat; apply Rle_0_sqr. Qed.
Lemma atan_len x y : x <> 0 -> sqrt (x * x + y * y) = Rabs x * sqrt (1 + Rsqr (y / x)).
Proof.
  intros N. assert (P : 0 < 1 + Rsqr (y / x)) by (pose proof (Rle_0_sqr (y / x)); lra). apply sqrt_lem_1.
  - apply Rplus_le_le_0_compat; apply Rle_0_sqr.
  - apply Rmult_le_pos; [apply Rabs_pos|apply sqrt_pos].
  - replace (Rabs x * sqrt (1 + Rsqr (y / x)) * (Rabs x * sqrt (1 + Rsqr (y / x)))) with ((Rabs x * Rabs x) * (sqrt (1 + Rsqr (y / x)) * sqrt (1 + Rsqr (y / x)))) by ring.
    rewrite sqrt_sqrt by lra. replace (Rabs x * Rabs x) with (x * x); [unfold Rsqr; field; exact N|].
    unfold Rabs. destruct (Rcase_abs x); ring.
Qed.
Lemma cos_len x y : x <> 0 -> sqrt (x * x + y * y) * cos (atan (y / x)) = Rabs x.
Proof.
  intros N. rewrite atan_len, cos_atan by exact N. assert (P : 0 < 1 + Rsqr (y / x)) by (pose proof (Rle_0_sqr (y / x)); lra).
  pose proof (sqrt_lt_R0 _ P). field. lra.
Qed.
Lemma sin_len x y : x <> 0 -> sqrt (x * x + y * y) * sin (atan (y / x)) = Rabs x * (y / x).
Proof.
  intros N. rewrite atan_len, sin_atan by exact N. assert (P : 0 < 1 + Rsqr (y / x)) by (pose proof (Rle_0_sqr (y / x)); lra).
  pose proof (sqrt_lt_R0 _ P). field. lra.
Qed.
Lemma arctan2_spec x y : - PI < arctan2 y x <= PI /\ x = sqrt (x * x + y * y) * cos (arctan2 y x) /\ y = sqrt (x * x + y * y) * sin (arctan2 y x).
Proof.
  pose proof PI_RGT_0 as PP. unfold arctan2. destruct (Rlt_dec 0 x) as [X|X].
  - assert (N : x <> 0) by lra. rewrite cos_len, sin_len, Rabs_pos_eq by lra. pose proof (atan_bound (y / x)). repeat split; [lra|lra|field; exact N].
  - destruct (Rlt_dec x 0) as [X'|X'].
    + assert (N : x <> 0) by lra. destruct (Rle_dec 0 y) as [Y|Y].
      * rewrite neg_cos, neg_sin. rewrite <- !Ropp_mult_distr_r, cos_len, sin_len, Rabs_left by lra. pose proof (atan_bound (y / x)).
        assert (T : atan (y / x) <= 0).
        { rewrite <- atan_0. destruct (Req_EM_T y 0) as [->|Ny]; [unfold Rdiv; rewrite Rmult_0_l; lra|]. left. apply atan_increasing.
          apply Ropp_lt_cancel. rewrite Ropp_0. replace (- (y / x)) with (y / (- x)) by (field; lra). apply Rdiv_lt_0_compat; lra. }
        repeat split; [lra|lra|ring|field; exact N].
      * replace (atan (y / x) - PI) with (- (- atan (y / x) + PI)) by ring. rewrite cos_neg, sin_neg, neg_cos, neg_sin, cos_neg, sin_neg.
        replace (sqrt (x * x + y * y) * - cos (atan (y / x))) with (- (sqrt (x * x + y * y) * cos (atan (y / x)))) by ring.
        replace (sqrt (x * x + y * y) * - - - sin (atan (y / x))) with (- (sqrt (x * x + y * y) * sin (atan (y / x)))) by ring.
        rewrite cos_len, sin_len, Rabs_left by lra. pose proof (atan_bound (y / x)).
        assert (T : 0 < atan (y / x)).
        { rewrite <- atan_0. apply atan_increasing. replace (y / x) with ((- y) / (- x)) by (field; lra). apply Rdiv_lt_0_compat; lra. }
        repeat split; [lra|lra|ring|field; exact N].
    + assert (x = 0) by lra. subst x. replace (0 * 0 + y * y) with (Rsqr y) by (unfold Rsqr; ring). rewrite sqrt_Rsqr_abs.
      destruct (Rlt_dec 0 y) as [Y|Y]; [|destruct (Rlt_dec y 0) as [Y'|Y']].
      * rewrite cos_PI2, sin_PI2, Rabs_pos_eq by lra. repeat split; lra.
      * rewrite cos_neg, sin_neg, cos_PI2, sin_PI2, Rabs_left by lra. repeat split; lra.
      * assert (y = 0) by lra. subst y. rewrite Rabs_R0. repeat split; lra.
Qed.
Lemma azimuth_spec x y x2 y2 : has_angle (azimuth x y x2 y2) (dipole_length x y x2 y2) (x2 - x) (y2 - y).
Proof.
  unfold has_angle, azimuth, dipole_length, rad2deg. pose proof PI_RGT_0 as PP. destruct (arctan2_spec (x2 - x) (y2 - y)) as ((L1 & L2) & H1 & H2).
  set (a := arctan2 (y2 - y) (x2 - x)) in *. replace (a * 180 / PI * PI / 180) with a by (field; lra). repeat split; [| |exact H1|exact H2].
  - apply (Rmult_lt_reg_r PI); [exact PP|]. replace (a * 180 / PI * PI) with (a * 180) by (field; lra). lra.
  - apply (Rmult_le_reg_r PI); [exact PP|]. replace (a * 180 / PI * PI) with (a * 180) by (field; lra). lra.
Qed.
