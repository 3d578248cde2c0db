(** Magnitudes and phases of AVG files. *)
From Coq Require Import Qabs Qreals.
From Verif Require Import PyBase PyText PyNum IsoModel PyFloat PySci PyFacts PySciFacts Cplx AvgHeadModel AvgModel AvgSpec AvgText AvgFile AvgFill.
From Coq Require Import Reals Lra.
Local Open Scope R_scope.

Lemma Q2R_abs q : Q2R (Qabs q) = Rabs (Q2R q).
Proof.
  destruct (Qlt_le_dec q 0) as [H|H].
  - rewrite (Qeq_eqR _ _ (Qabs_neg q (Qlt_le_weak _ _ H))), Q2R_opp. apply Qlt_Rlt in H. rewrite RMicromega.Q2R_0 in H. rewrite Rabs_left by exact H. reflexivity.
  - rewrite (Qeq_eqR _ _ (Qabs_pos q H)). apply Qle_Rle in H. rewrite RMicromega.Q2R_0 in H. rewrite Rabs_right by lra. reflexivity.
Qed.
Lemma Rabs_le_inv a b : Rabs a <= b -> - b <= a <= b.
Proof. intros H. pose proof (Rle_abs a). pose proof (Rle_abs (- a)) as X. rewrite Rabs_Ropp in X. lra. Qed.
Lemma size_nonneg x y : 0 <= size x y. Proof. apply sqrt_pos. Qed.
Lemma size_sq x y : size x y * size x y = x * x + y * y.
Proof. apply sqrt_sqrt. pose proof (Rle_0_sqr x). pose proof (Rle_0_sqr y). unfold Rsqr in *. lra. Qed.
Lemma abs_sin x : Rabs (sin x) <= Rabs x.
Proof.
  destruct (Rtotal_order x 0) as [H|[H|H]].
  - assert (P : 0 < - x) by lra. pose proof (sin_lt_x _ P) as S. rewrite sin_neg in S. rewrite (Rabs_left x H). destruct (Rle_dec 0 (sin x)) as [L|L].
    + rewrite Rabs_right by lra. destruct (Rle_dec (- x) PI) as [B|B]; [|pose proof (SIN_bound x); pose proof PI2_1; lra].
      pose proof (sin_ge_0 (- x) ltac:(lra) B) as G. rewrite sin_neg in G. lra.
    + rewrite Rabs_left by lra. lra.
  - subst x. rewrite sin_0, Rabs_R0. lra.
  - pose proof (sin_lt_x _ H) as S. rewrite (Rabs_right x) by lra. destruct (Rle_dec 0 (sin x)) as [L|L]; [rewrite Rabs_right by lra; lra|].
    rewrite Rabs_left by lra. destruct (Rle_dec x PI) as [B|B]; [pose proof (sin_ge_0 x ltac:(lra) B); lra|]. pose proof (SIN_bound x). pose proof PI2_1. lra.
Qed.
Lemma cos_low x : 1 - x * x / 2 <= cos x.
Proof.
  assert (E : cos x = 1 - 2 * (sin (x / 2) * sin (x / 2))). { replace x with (2 * (x / 2)) at 1 by field. rewrite cos_2a_sin. ring. }
  assert (S : sin (x / 2) * sin (x / 2) <= (x / 2) * (x / 2)). { apply (Rsqr_le_abs_1 (sin (x / 2)) (x / 2)). apply abs_sin. } rewrite E. lra.
Qed.
(** A magnitude and a phase that are close give a complex number that is close. *)
Lemma polar_near m t M T : 0 <= m -> Rabs (M - m) <= 50002 / 1000000000 * m -> Rabs (T - t) <= 50002 / 1000000000 ->
  size (M * cos T - m * cos t) (M * sin T - m * sin t) <= 71 / 1000000 * m.
Proof.
  intros P HM HT. assert (B : 0 <= 71 / 1000000 * m) by lra. unfold size.
  replace (71 / 1000000 * m) with (sqrt ((71 / 1000000 * m) * (71 / 1000000 * m))) by (apply sqrt_square; exact B). apply sqrt_le_1_alt.
  assert (E : (M * cos T - m * cos t) * (M * cos T - m * cos t) + (M * sin T - m * sin t) * (M * sin T - m * sin t) = (M - m) * (M - m) + 2 * (M * m) * (1 - cos (T - t))).
  { rewrite cos_minus. pose proof (sin2_cos2 T) as ST. pose proof (sin2_cos2 t) as St. unfold Rsqr in *. 
    transitivity (M * M * (sin T * sin T + cos T * cos T) + m * m * (sin t * sin t + cos t * cos t) - 2 * (M * m) * (cos T * cos t + sin T * sin t)); [ring|]. rewrite ST, St. ring. }
  rewrite E. apply Rabs_le_inv in HM. pose proof (Rsqr_le_abs_1 _ _ (Rle_trans _ _ _ HT (Rle_abs _))) as H2. unfold Rsqr in H2. pose proof (cos_low (T - t)) as C. pose proof (COS_bound (T - t)) as CB.
  assert (M0 : 0 <= M) by lra. assert (MM : M <= 100006 / 100000 * m) by lra.
  assert (X : (M - m) * (M - m) <= (50002 / 1000000000 * m) * (50002 / 1000000000 * m)). { apply (Rsqr_le_abs_1 (M - m) (50002 / 1000000000 * m)). rewrite (Rabs_right (_ * m)) by lra. apply Rabs_le. exact HM. }
  assert (D : 0 <= 1 - cos (T - t) <= (50002 / 1000000000) * (50002 / 1000000000) / 2) by lra.
  assert (Y : 2 * (M * m) * (1 - cos (T - t)) <= 2 * (100006 / 100000 * m * m) * ((50002 / 1000000000) * (50002 / 1000000000) / 2)).
  { apply Rmult_le_compat; [|lra| |lra]. { apply Rmult_le_pos; [lra|]. apply Rmult_le_pos; assumption. } assert (M * m <= 100006 / 100000 * m * m) by (apply Rmult_le_compat_r; lra). lra. }
  assert (S : 0 <= m * m) by (apply Rmult_le_pos; lra). nra.
Qed.
Lemma five_near_R q v : five_digits (Fin q) (Fin v) -> Rabs (Q2R v - Q2R q) <= 5 / 100000 * Rabs (Q2R q).
Proof.
  intros E. cbn in E. pose proof (sci_value_near 4 q) as H. assert (X : (Qabs (v - q) <= (5 # 100000) * Qabs q)%Q).
  { rewrite E. eapply Qle_trans; [exact H|]. assert (Y : ((1 # 2) * ten (- Z.of_nat 4) == 5 # 100000)%Q) by reflexivity. rewrite Y. apply Qle_refl. }
  apply Qle_Rle in X. rewrite Q2R_abs, Q2R_minus, Q2R_mult, Q2R_abs in X. replace (Q2R (5 # 100000)) with (5 / 100000) in X by (unfold Q2R; cbn; field). exact X.
Qed.
Lemma fixed_near_Q d q : (Qabs (fixed_value d q - q) <= (1 # 2) / inject_Z (10 ^ Z.of_nat d))%Q.
Proof.
  unfold fixed_value. set (t := inject_Z (10 ^ Z.of_nat d)). assert (P : (0 < t)%Q) by (unfold t; change 0%Q with (inject_Z 0); rewrite <- Zlt_Qlt; apply Z.pow_pos_nonneg; lia).
  destruct (round_half_even_bound (q * t)) as [A B]. set (n := inject_Z (round_half_even (q * t))) in *.
  assert (E : (n / t - q == (n - q * t) / t)%Q) by (field; intros X; rewrite X in P; exact (Qlt_irrefl _ P)). rewrite E. apply Qabs_Qle_condition. split.
  - apply Qle_shift_div_l; [exact P|]. setoid_replace (- ((1 # 2) / t) * t)%Q with (- (1 # 2))%Q by (field; intros X; rewrite X in P; exact (Qlt_irrefl _ P)). clearbody n t. clear E. Lqa.lra.
  - apply Qle_shift_div_r; [exact P|]. setoid_replace ((1 # 2) / t * t)%Q with (1 # 2)%Q by (field; intros X; rewrite X in P; exact (Qlt_irrefl _ P)). clearbody n t. clear E. Lqa.lra.
Qed.
Lemma tenth_near_R q v : decimals 1 (Fin q) (Fin v) -> Rabs (Q2R v - Q2R q) <= 5 / 100.
Proof.
  intros E. cbn in E. pose proof (fixed_near_Q 1 q) as H. rewrite <- E in H. apply Qle_Rle in H. rewrite Q2R_abs, Q2R_minus in H.
  replace (Q2R ((1 # 2) / inject_Z (10 ^ Z.of_nat 1))) with (5 / 100) in H by (unfold Q2R; cbn; field). exact H.
Qed.
Section Values.
Variable amp phase : Q -> Q -> Q.
Hypothesis good : accurate amp phase.
Lemma amp_near a b : Rabs (Q2R (amp a b) - size (Q2R a) (Q2R b)) <= / 1000000000 * size (Q2R a) (Q2R b).
Proof. apply (good a b). Qed.
Lemma value_near r a b : five_digits (Fin (amp a b)) (r_mag r) -> decimals 1 (Fin (phase a b)) (r_phase r) -> near (a, b) (row_value r).
Proof.
  intros M P. unfold row_value. destruct (r_mag r) as [m|]; [|destruct M]. destruct (r_phase r) as [p|]; [|destruct P]. apply five_near_R in M. apply tenth_near_R in P.
  destruct (good a b) as (A & t & EA & EB & PH). set (n := size (Q2R a) (Q2R b)) in *. pose proof (size_nonneg (Q2R a) (Q2R b)) as N. fold n in N. apply Rabs_le_inv in A.
  exists (Q2R m * cos (Q2R p / 1000)), (Q2R m * sin (Q2R p / 1000)). split; [reflexivity|]. cbn [fst snd]. fold n. rewrite EA, EB. apply polar_near; [exact N| |].
  - rewrite (Rabs_right (Q2R (amp a b))) in M by lra. apply Rabs_le_inv in M. apply Rabs_le. lra.
  - apply Rabs_le_inv in P, PH. apply Rabs_le. lra.
Qed.
Lemma near_opp z c : near z c -> near (opposite z) (Cneg c).
Proof.
  intros (u & v & -> & H). exists (- u), (- v). split; [reflexivity|]. unfold opposite. cbn [fst snd]. rewrite !Q2R_opp. unfold size in *. revert H. destruct z as [a b]. cbn [fst snd]. intros H.
  replace ((- u - - Q2R a) * (- u - - Q2R a) + (- v - - Q2R b) * (- v - - Q2R b)) with ((u - Q2R a) * (u - Q2R a) + (v - Q2R b) * (v - Q2R b)) by ring.
  replace (- Q2R a * - Q2R a + - Q2R b * - Q2R b) with (Q2R a * Q2R a + Q2R b * Q2R b) by ring. exact H.
Qed.
Lemma magnitude_polar m t : 0 <= m -> magnitude (to_complex m t) = m.
Proof.
  intros P. unfold magnitude, to_complex. cbn [fst snd]. pose proof (sin2_cos2 (t / 1000)) as S. unfold Rsqr in S.
  replace (m * cos (t / 1000) * (m * cos (t / 1000)) + m * sin (t / 1000) * (m * sin (t / 1000))) with (m * m * (sin (t / 1000) * sin (t / 1000) + cos (t / 1000) * cos (t / 1000))) by ring. rewrite S, Rmult_1_r. apply sqrt_square. exact P.
Qed.
(** The error of an impedance that is read. *)
Lemma error_read c f a b e r : read_from (z_row amp phase c f (a, b) e) r -> exists x, (r_err r = Fin x /\ (x == fixed_value 1 (if Qeq_bool (amp a b) 0 then 0 else 2 * e / amp a b * 100))%Q) /\
  exists ar fr p, five_digits (Fin ((2 # 10) * (1 / f) * (amp a b * amp a b))%Q) (Fin ar) /\ five_digits (Fin f) (Fin fr) /\
    row_z_error r = (if Qle_bool 0 (x / 100 * ar * 5 * fr) then Some (magnitude (to_complex (sqrt (Q2R (x / 100 * ar * 5 * fr))) (Q2R p))) else None).
Proof.
  intros (_ & _ & F & _ & _ & _ & _ & AR & ER & PE & _). cbn [z_row r_freq r_ares r_err r_perr fst snd] in *. unfold row_z_error.
  destruct (r_err r) as [x|]; [|destruct ER]. exists x. split; [split; [reflexivity|exact ER]|]. destruct (r_ares r) as [ar|]; [|destruct AR]. destruct (r_freq r) as [fr|]; [|destruct F]. destruct (r_perr r) as [p|]; [|destruct PE].
  exists ar, fr, p. split; [exact AR|]. split; [exact F|]. reflexivity.
Qed.
Lemma Qpos_neq x : (0 < x)%Q -> ~ (x == 0)%Q. Proof. intros H E. rewrite E in H. exact (Qlt_irrefl _ H). Qed.
Lemma amp_pos a b : 0 < size (Q2R a) (Q2R b) -> (0 < amp a b)%Q.
Proof. intros P. pose proof (amp_near a b) as A. apply Rabs_le_inv in A. apply Rlt_Qlt. rewrite RMicromega.Q2R_0. lra. Qed.
Lemma err_value a b e : (0 < amp a b)%Q -> Q2R (2 * e / amp a b * 100) = 200 * Q2R e / Q2R (amp a b).
Proof.
  intros P. pose proof (Qpos_neq _ P) as N. rewrite Q2R_mult, Q2R_div by exact N. rewrite Q2R_mult. replace (Q2R 2) with 2 by (unfold Q2R; cbn; field). replace (Q2R 100) with 100 by (unfold Q2R; cbn; field). field. apply Qlt_Rlt in P. rewrite RMicromega.Q2R_0 in P. lra.
Qed.
Lemma ares_value a b f : (0 < f)%Q -> Q2R ((2 # 10) * (1 / f) * (amp a b * amp a b)) = / 5 / Q2R f * (Q2R (amp a b) * Q2R (amp a b)).
Proof.
  intros P. pose proof (Qpos_neq _ P) as N. rewrite !Q2R_mult, Q2R_div by exact N. replace (Q2R 1) with 1 by (unfold Q2R; cbn; field). replace (Q2R (2 # 10)) with (/ 5) by (unfold Q2R; cbn; field). field. apply Qlt_Rlt in P. rewrite RMicromega.Q2R_0 in P. lra.
Qed.
(** An error between a thousandth of the impedance and the impedance is read more than a fifth too large. *)
Lemma error_grows c f a b e r : (0 < f)%Q -> 0 < size (Q2R a) (Q2R b) -> size (Q2R a) (Q2R b) / 1000 <= Q2R e <= size (Q2R a) (Q2R b) ->
  read_from (z_row amp phase c f (a, b) e) r -> exists x, row_z_error r = Some x /\ 12 / 10 * Q2R e <= x.
Proof.
  intros F P (E1 & E2) RF. destruct (error_read c f a b e r RF) as (x & (_ & X) & ar & fr & p & AR & FR & ->). pose proof (amp_pos a b P) as AP. pose proof (Qpos_neq _ AP) as AN.
  assert (Z : Qeq_bool (amp a b) 0 = false) by (destruct (Qeq_bool (amp a b) 0) eqn:B; [apply Qeq_bool_iff in B; contradiction|reflexivity]). rewrite Z in X.
  assert (XN : Rabs (Q2R x - Q2R (2 * e / amp a b * 100)) <= 5 / 100) by (apply tenth_near_R; exact X). rewrite (err_value a b e AP) in XN.
  apply five_near_R in AR, FR. rewrite (ares_value a b f F) in AR. pose proof (amp_near a b) as AM. set (n := size (Q2R a) (Q2R b)) in *. set (A := Q2R (amp a b)) in *. set (G := Q2R f) in *.
  assert (GP : 0 < G) by (unfold G; apply Qlt_Rlt in F; rewrite RMicromega.Q2R_0 in F; exact F). apply Rabs_le_inv in AM. assert (APR : 0 < A) by lra.
  set (ee := Q2R e) in *. rewrite (Rabs_right G) in FR by lra. assert (AA : 0 < / 5 / G * (A * A)). { apply Rmult_lt_0_compat; [apply Rdiv_lt_0_compat; lra|apply Rmult_lt_0_compat; lra]. }
  rewrite (Rabs_right (_ * (A * A))) in AR by lra. apply Rabs_le_inv in XN, AR, FR.
  assert (Q1 : 199 / 1000 <= 200 * ee / A). { apply Rmult_le_reg_r with A; [exact APR|]. unfold Rdiv at 2. rewrite Rmult_assoc, Rinv_l by lra. lra. }
  assert (XL : 74 / 100 * (200 * ee / A) <= Q2R x) by lra.
  assert (AL : (1 - 5 / 100000) * (/ 5 / G * (A * A)) <= Q2R ar) by lra. assert (FL : (1 - 5 / 100000) * G <= Q2R fr) by lra.
  assert (V : Q2R (x / 100 * ar * 5 * fr) = Q2R x * Q2R ar * Q2R fr / 20). { rewrite !Q2R_mult, Q2R_div by discriminate. replace (Q2R 100) with 100 by (unfold Q2R; cbn; field). replace (Q2R 5) with 5 by (unfold Q2R; cbn; field). field. }
  assert (W : 144 / 100 * (ee * ee) <= Q2R x * Q2R ar * Q2R fr / 20).
  { assert (L1 : 74 / 100 * (200 * ee / A) * ((1 - 5 / 100000) * (/ 5 / G * (A * A))) <= Q2R x * Q2R ar) by (apply Rmult_le_compat; lra).
    assert (L2 : 74 / 100 * (200 * ee / A) * ((1 - 5 / 100000) * (/ 5 / G * (A * A))) * ((1 - 5 / 100000) * G) <= Q2R x * Q2R ar * Q2R fr).
    { apply Rmult_le_compat; [|lra|exact L1|exact FL]. apply Rmult_le_pos; [lra|]. apply Rmult_le_pos; lra. }
    replace (74 / 100 * (200 * ee / A) * ((1 - 5 / 100000) * (/ 5 / G * (A * A))) * ((1 - 5 / 100000) * G)) with (74 / 100 * 40 * (1 - 5 / 100000) * (1 - 5 / 100000) * (ee * A)) in L2 by (field; lra).
    assert (EA : (1 - / 1000000000) * (ee * ee) <= ee * A). { assert (ee * ee <= ee * n) by (apply Rmult_le_compat_l; lra). assert (ee * ((1 - / 1000000000) * n) <= ee * A) by (apply Rmult_le_compat_l; lra). nra. }
    assert (0 <= ee * ee) by (apply Rmult_le_pos; lra). lra. }
  assert (EE : 0 <= ee * ee) by (apply Rmult_le_pos; lra).
  assert (PB : Qle_bool 0 (x / 100 * ar * 5 * fr) = true). { apply Qle_bool_iff. apply Rle_Qle. rewrite RMicromega.Q2R_0, V. lra. }
  rewrite PB. eexists. split; [reflexivity|]. rewrite magnitude_polar by apply sqrt_pos. rewrite V. replace (12 / 10 * ee) with (sqrt ((12 / 10 * ee) * (12 / 10 * ee))) by (apply sqrt_square; lra). apply sqrt_le_1_alt. lra.
Qed.
(** An error below 0.024 percent of the impedance is lost. *)
Lemma error_lost c f a b e r : (0 < f)%Q -> 0 < size (Q2R a) (Q2R b) -> 0 <= Q2R e <= 24 / 100000 * size (Q2R a) (Q2R b) ->
  read_from (z_row amp phase c f (a, b) e) r -> row_z_error r = Some 0.
Proof.
  intros F P (E1 & E2) RF. destruct (error_read c f a b e r RF) as (x & (_ & X) & ar & fr & p & AR & FR & ->). pose proof (amp_pos a b P) as AP. pose proof (Qpos_neq _ AP) as AN.
  assert (Z : Qeq_bool (amp a b) 0 = false) by (destruct (Qeq_bool (amp a b) 0) eqn:B; [apply Qeq_bool_iff in B; contradiction|reflexivity]). rewrite Z in X.
  pose proof (amp_near a b) as AM. apply Rabs_le_inv in AM. set (n := size (Q2R a) (Q2R b)) in *.
  assert (S : 0 <= Q2R (2 * e / amp a b * 100) <= 49 / 1000).
  { rewrite (err_value a b e AP). assert (APR : 0 < Q2R (amp a b)) by (apply Qlt_Rlt in AP; rewrite RMicromega.Q2R_0 in AP; exact AP). split; [apply Rmult_le_pos; [lra|apply Rlt_le, Rinv_0_lt_compat; exact APR]|].
    apply Rmult_le_reg_r with (Q2R (amp a b)); [exact APR|]. unfold Rdiv at 1. rewrite Rmult_assoc, Rinv_l by lra. lra. }
  assert (X0 : (x == 0)%Q).
  { rewrite X. unfold fixed_value. set (q := (2 * e / amp a b * 100)%Q) in *. assert (R : round_half_even (q * inject_Z (10 ^ Z.of_nat 1)) = 0%Z).
    { assert (B : (0 <= q /\ q <= 49 # 1000)%Q). { split; apply Rle_Qle; [rewrite RMicromega.Q2R_0; lra|]. replace (Q2R (49 # 1000)) with (49 / 1000) by (unfold Q2R; cbn; field). lra. }
      destruct (round_half_even_bound (q * inject_Z (10 ^ Z.of_nat 1))) as [L U]. change (inject_Z (10 ^ Z.of_nat 1)) with 10%Q in *. set (k := round_half_even (q * 10)) in *. clearbody k. clear -B L U.
      assert (K1 : (inject_Z k < inject_Z 1)%Q) by (change (inject_Z 1) with 1%Q; Lqa.lra). assert (K2 : (inject_Z (-1) < inject_Z k)%Q) by (change (inject_Z (-1)) with (-1)%Q; Lqa.lra). rewrite <- Zlt_Qlt in K1, K2. lia. }
    rewrite R. reflexivity. }
  assert (Y : (x / 100 * ar * 5 * fr == 0)%Q) by (rewrite X0; field). assert (PB : Qle_bool 0 (x / 100 * ar * 5 * fr) = true) by (apply Qle_bool_iff; rewrite Y; apply Qle_refl). rewrite PB. f_equal.
  rewrite magnitude_polar by apply sqrt_pos. rewrite (Qeq_eqR _ _ Y), RMicromega.Q2R_0. apply sqrt_0.
Qed.
End Values.
