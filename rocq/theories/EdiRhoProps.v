(** C77: impedances from apparent resistivity and phase. *)
From Coq Require Import Lra.
From Verif Require Import PyBase Cplx EdiModel EdiRhoModel.
Local Open Scope R_scope.

(** ** Specification *)
(** Apparent resistivity of an impedance in mV/km/nT at frequency [f]. *)
Definition apparent_resistivity (f : R) (z : Cx) : R := 2 / 10 * (1 / f) * Cnorm2 z.
(** The impedance has this phase, in degrees. *)
Definition has_phase (z : Cx) (deg : R) : Prop := exists m, 0 < m /\ z = Cmul (RtoC m) (cis (deg * PI / 180)).
(** One frequency, its resistivity, phase and impedance. *)
Inductive each3 {A B C D : Type} (P : A -> B -> C -> D -> Prop) : list A -> list B -> list C -> list D -> Prop :=
| each3_nil : each3 P [] [] [] []
| each3_cons a b c d la lb lc ld : P a b c d -> each3 P la lb lc ld -> each3 P (a :: la) (b :: lb) (c :: lc) (d :: ld).
Definition zero_column (n : nat) : list Cx := repeat C0 n.
Definition all_pos (l : list R) : Prop := Forall (fun x => 0 < x) l.

(** ** Proofs *)
Lemma rho_z_shape f rho p : cos (deg2rad p) <> 0 -> 0 <= 5 * f * rho ->
  rho_z f rho p = (sqrt (5 * f * rho) * Rabs (cos (deg2rad p)), tan (deg2rad p) * (sqrt (5 * f * rho) * Rabs (cos (deg2rad p)))).
Proof.
  intros C P. unfold rho_z. cbv zeta. set (x := deg2rad p) in *.
  assert (T : tan x * tan x + 1 = / (cos x * cos x)).
  { unfold tan. pose proof (sin2_cos2 x) as S0. unfold Rsqr in S0. field_simplify; [|exact C|exact C]. f_equal. nra. }
  assert (E : sqrt (5 * f * rho / (tan x * tan x + 1)) = sqrt (5 * f * rho) * Rabs (cos x)).
  { rewrite T. replace (5 * f * rho / / (cos x * cos x)) with ((5 * f * rho) * Rsqr (cos x)) by (unfold Rsqr; field; exact C).
    rewrite sqrt_mult; [|exact P|apply Rle_0_sqr]. rewrite sqrt_Rsqr_abs. reflexivity. }
  rewrite E. reflexivity.
Qed.
Lemma rho_z_cis f rho p : cos (deg2rad p) <> 0 -> 0 <= 5 * f * rho ->
  rho_z f rho p = Cmul (RtoC (sqrt (5 * f * rho) * (if Rle_dec 0 (cos (deg2rad p)) then 1 else -1))) (cis (deg2rad p)).
Proof.
  intros C P. rewrite (rho_z_shape f rho p C P). unfold Cmul, RtoC, cis. cbn [fst snd]. set (x := deg2rad p) in *. unfold tan.
  destruct (Rle_dec 0 (cos x)) as [L|L].
  - rewrite Rabs_right by lra. f_equal; field; exact C.
  - rewrite Rabs_left by lra. f_equal; field; exact C.
Qed.
Lemma rho_z_norm f rho p : cos (deg2rad p) <> 0 -> 0 <= 5 * f * rho -> Cnorm2 (rho_z f rho p) = 5 * f * rho.
Proof.
  intros C P. rewrite (rho_z_cis f rho p C P), Cnorm2_mul, cis_norm2. unfold Cnorm2, RtoC. cbn [fst snd].
  pose proof (sqrt_sqrt _ P) as S0. destruct (Rle_dec 0 (cos (deg2rad p))); nra.
Qed.
Lemma Cnorm2_neg z : Cnorm2 (Cmul (RtoC (-1)) z) = Cnorm2 z.
Proof. unfold Cnorm2, Cmul, RtoC. cbn [fst snd]. ring. Qed.
Lemma zero_column_all n : forallb (fun z : Cx => if Req_EM_T (fst z) 0 then if Req_EM_T (snd z) 0 then true else false else false) (zero_column n) = true.
Proof.
  apply forallb_forall. intros z I. apply repeat_spec in I. subst z. unfold C0. cbn [fst snd].
  destruct (Req_EM_T 0 0); [|contradiction]. destruct (Req_EM_T 0 0); [reflexivity|contradiction].
Qed.
Lemma column_each (P : R -> R -> R -> Cx -> Prop) (g : Cx -> Cx) : forall fs rhos ps, List.length rhos = List.length fs -> List.length ps = List.length fs ->
  (forall f r p, In f fs -> In r rhos -> In p ps -> P f r p (g (rho_z f r p))) -> each3 P fs rhos ps (map g (rho_column fs rhos ps)).
Proof.
  induction fs as [|f fs IH]; intros rhos ps L1 L2 H; destruct rhos as [|r rhos]; try discriminate L1; destruct ps as [|p ps]; try discriminate L2; cbn [rho_column map]; constructor.
  - apply H; left; reflexivity.
  - apply IH; [injection L1 as L1; exact L1|injection L2 as L2; exact L2|]. intros f' r' p' I1 I2 I3. apply H; right; assumption.
Qed.
Lemma cos_not_zero p : -90 < p < 90 -> 0 < cos (deg2rad p).
Proof.
  intros [A B]. pose proof PI_RGT_0 as P. apply cos_gt_0; unfold deg2rad; nra.
Qed.
Lemma cos_negative p : 90 < p < 270 -> cos (deg2rad p) < 0.
Proof.
  intros [A B]. pose proof PI_RGT_0 as P. apply cos_lt_0; unfold deg2rad; nra.
Qed.

(** ** Theorems *)
(** Resistivities and phases between -90 and 90 degrees give impedances with that resistivity and phase, for
    the components xx, xy and yy. *)
Theorem C77_resistivity_and_phase c fs rhos ps : c <> ZYX -> List.length rhos = List.length fs -> List.length ps = List.length fs ->
  all_pos fs -> all_pos rhos -> Forall (fun p => -90 < p < 90) ps ->
  each3 (fun f r p z => apparent_resistivity f z = r /\ has_phase z p) fs rhos ps (rho_fill c (zero_column (List.length fs)) fs rhos ps).
Proof.
  intros N L1 L2 F R0 P. unfold rho_fill. rewrite zero_column_all.
  assert (G : each3 (fun f r p z => apparent_resistivity f z = r /\ has_phase z p) fs rhos ps (rho_column fs rhos ps)).
  { rewrite <- (map_id (rho_column fs rhos ps)). apply (column_each _ (fun z => z) fs rhos ps L1 L2). intros f r p If Ir Ip.
    unfold all_pos in *. rewrite Forall_forall in F, R0, P. specialize (F f If). specialize (R0 r Ir). specialize (P p Ip). cbv beta in F, R0, P.
    pose proof (cos_not_zero p P) as C. assert (Q0 : 0 < 5 * f * r) by (apply Rmult_lt_0_compat; lra). split.
    - unfold apparent_resistivity. rewrite rho_z_norm by lra. field. lra.
    - exists (sqrt (5 * f * r)). split; [apply sqrt_lt_R0; exact Q0|]. rewrite rho_z_cis by lra. destruct (Rle_dec 0 (cos (deg2rad p))); [|exfalso; lra].
      rewrite Rmult_1_r. reflexivity. }
  destruct c; [exact G|exact G|contradiction|exact G].
Qed.
(** Component yx, whose phases are given in the first quadrant: the resistivity is right and the phase turned by
    half a circle. *)
Theorem C77_yx_first_quadrant fs rhos ps : List.length rhos = List.length fs -> List.length ps = List.length fs -> fs <> [] ->
  all_pos fs -> all_pos rhos -> Forall (fun p => 0 < p < 90) ps ->
  each3 (fun f r p z => apparent_resistivity f z = r /\ has_phase z (p - 180)) fs rhos ps (rho_fill ZYX (zero_column (List.length fs)) fs rhos ps).
Proof.
  intros L1 L2 NE F R0 P. unfold rho_fill. rewrite zero_column_all.
  assert (M : 0 < mean ps < 90).
  { unfold mean. assert (LP : (0 < List.length ps)%nat) by (rewrite L2; destruct fs; [contradiction|cbn; lia]). apply lt_0_INR in LP.
    assert (S0 : 0 < fold_right Rplus 0 ps < 90 * INR (List.length ps)).
    { clear - P LP. induction P as [|p ps Hp P IH]; [cbn in LP; lra|]. cbn [fold_right]. destruct ps as [|q ps].
      - cbn. lra.
      - assert (Q0 : 0 < INR (List.length (q :: ps))) by (apply lt_0_INR; cbn; lia). specialize (IH Q0).
        change (List.length (p :: q :: ps)) with (S (List.length (q :: ps))). rewrite S_INR. lra. }
    split; [apply Rdiv_lt_0_compat; lra|]. apply Rmult_lt_reg_r with (INR (List.length ps)); [exact LP|].
    unfold Rdiv. rewrite Rmult_assoc, Rinv_l, Rmult_1_r by lra. lra. }
  destruct (Rlt_dec (mean ps) 90); [|exfalso; lra]. destruct (Rlt_dec 0 (mean ps)); [|exfalso; lra].
  apply (column_each _ (fun z => Cmul (RtoC (-1)) z) fs rhos ps L1 L2). intros f r' p If Ir Ip.
  unfold all_pos in *. rewrite Forall_forall in F, R0, P. specialize (F f If). specialize (R0 r' Ir). specialize (P p Ip). cbv beta in F, R0, P.
  pose proof (cos_not_zero p ltac:(lra)) as C. assert (Q0 : 0 < 5 * f * r') by (apply Rmult_lt_0_compat; lra). split.
  - unfold apparent_resistivity. rewrite Cnorm2_neg, rho_z_norm by lra. field. lra.
  - exists (sqrt (5 * f * r')). split; [apply sqrt_lt_R0; exact Q0|]. rewrite rho_z_cis by lra. destruct (Rle_dec 0 (cos (deg2rad p))); [|exfalso; lra].
    replace ((p - 180) * PI / 180) with (- (PI - deg2rad p)) by (unfold deg2rad; field).
    unfold Cmul, RtoC, cis. cbn [fst snd]. rewrite cos_neg, sin_neg, cos_minus, sin_minus, cos_PI, sin_PI. f_equal; ring.
Qed.
(** A component that was read as impedance is kept. *)
Theorem C77_impedance_kept c old fs rhos ps : (exists z, In z old /\ z <> C0) -> rho_fill c old fs rhos ps = old.
Proof.
  intros (z & I & N). unfold rho_fill. match goal with |- (if ?b then _ else _) = _ => destruct b eqn:E end; [|reflexivity]. exfalso. rewrite forallb_forall in E. specialize (E z I).
  apply N. destruct z as [x y]. cbn [fst snd] in E. destruct (Req_EM_T x 0); [|discriminate E]. destruct (Req_EM_T y 0); [|discriminate E]. subst. reflexivity.
Qed.
(** Not so for other phases.  Phases between 90 and 270 degrees: the impedance comes with the opposite sign. *)
Theorem C77_second_quadrant_refuted c fs rhos ps : c <> ZYX -> List.length rhos = List.length fs -> List.length ps = List.length fs ->
  all_pos fs -> all_pos rhos -> Forall (fun p => 90 < p < 270) ps ->
  each3 (fun f r p z => apparent_resistivity f z = r /\ has_phase z (p - 180) /\ ~ has_phase z p) fs rhos ps (rho_fill c (zero_column (List.length fs)) fs rhos ps).
Proof.
  intros N L1 L2 F R0 P. unfold rho_fill. rewrite zero_column_all.
  assert (G : each3 (fun f r p z => apparent_resistivity f z = r /\ has_phase z (p - 180) /\ ~ has_phase z p) fs rhos ps (rho_column fs rhos ps)).
  { rewrite <- (map_id (rho_column fs rhos ps)). apply (column_each _ (fun z => z) fs rhos ps L1 L2). intros f r p If Ir Ip.
    unfold all_pos in *. rewrite Forall_forall in F, R0, P. specialize (F f If). specialize (R0 r Ir). specialize (P p Ip). cbv beta in F, R0, P.
    pose proof (cos_negative p P) as C. assert (Q0 : 0 < 5 * f * r) by (apply Rmult_lt_0_compat; lra). pose proof (sqrt_lt_R0 _ Q0) as SQ. split; [|split].
    - unfold apparent_resistivity. rewrite rho_z_norm by lra. field. lra.
    - exists (sqrt (5 * f * r)). split; [exact SQ|]. rewrite rho_z_cis by lra. destruct (Rle_dec 0 (cos (deg2rad p))); [exfalso; lra|].
      replace ((p - 180) * PI / 180) with (- (PI - deg2rad p)) by (unfold deg2rad; field).
      unfold Cmul, RtoC, cis. cbn [fst snd]. rewrite cos_neg, sin_neg, cos_minus, sin_minus, cos_PI, sin_PI. f_equal; ring.
    - intros (m & M & E). rewrite rho_z_cis in E by lra. destruct (Rle_dec 0 (cos (deg2rad p))); [exfalso; lra|].
      apply (f_equal fst) in E. change (p * PI / 180) with (deg2rad p) in E. unfold Cmul, RtoC, cis in E. cbn [fst snd] in E. nra. }
  destruct c; [exact G|exact G|contradiction|exact G].
Qed.
(** Component yx with phases in the third quadrant, which is how they are written for the usual sign: nothing is
    read, the impedance stays zero. *)
Theorem C77_yx_third_quadrant_refuted fs rhos ps : mean ps <= 0 \/ 90 <= mean ps ->
  rho_fill ZYX (zero_column (List.length fs)) fs rhos ps = zero_column (List.length fs).
Proof.
  intros M. unfold rho_fill. rewrite zero_column_all. destruct (Rlt_dec (mean ps) 90); [|reflexivity]. destruct (Rlt_dec 0 (mean ps)); [exfalso; lra|reflexivity].
Qed.
(** The error is the size of the impedance times the error of the phase in radians. *)
Theorem C77_error f rho p e : -90 < p < 90 -> 0 < f -> 0 < rho ->
  rho_error f rho e = (e * PI / 180) * sqrt (Cnorm2 (rho_z f rho p)).
Proof.
  intros P F R0. pose proof (cos_not_zero p P) as C. assert (Q0 : 0 < 5 * f * rho) by (apply Rmult_lt_0_compat; lra).
  rewrite rho_z_norm by lra. unfold rho_error, deg2rad. replace (rho * (f * 5)) with (5 * f * rho) by ring. reflexivity.
Qed.
Example C77_hyp : all_pos [10; 1] /\ all_pos [100; 50] /\ Forall (fun p => 0 < p < 90) [45; 60] /\ mean [-135; -120] <= 0.
Proof.
  unfold all_pos. split; [repeat constructor; lra|]. split; [repeat constructor; lra|]. split; [repeat constructor; lra|]. unfold mean. cbn. lra.
Qed.

Print Assumptions C77_resistivity_and_phase.
Print Assumptions C77_yx_first_quadrant.
Print Assumptions C77_impedance_kept.
Print Assumptions C77_error.
Print Assumptions C77_second_quadrant_refuted.
Print Assumptions C77_yx_third_quadrant_refuted.
