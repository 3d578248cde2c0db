From Coq Require Import Reals Lra.
From Verif Require Import PyBase WeightModel WeightSpec.
Open Scope R_scope.

Ltac rdec := repeat match goal with
  | |- context [Rlt_dec ?a ?b] => destruct (Rlt_dec a b)
  | |- context [Req_EM_T ?a ?b] => destruct (Req_EM_T a b)
  | H : context [Rlt_dec ?a ?b] |- _ => destruct (Rlt_dec a b)
  | H : context [Req_EM_T ?a ?b] |- _ => destruct (Req_EM_T a b)
  end.

Lemma clip_range : forall x, 0 <= clip01 x <= 1.
Proof. intros x. unfold clip01, Rmin, Rmax. destruct (Rle_dec x 0), (Rle_dec _ 1); lra. Qed.
Lemma clip_mono : forall x y, x <= y -> clip01 x <= clip01 y.
Proof.
  intros x y H. unfold clip01, Rmin, Rmax.
  destruct (Rle_dec x 0), (Rle_dec y 0); repeat match goal with |- context [Rle_dec ?a ?b] => destruct (Rle_dec a b) end; lra.
Qed.
Lemma clip_id : forall x, 0 <= x <= 1 -> clip01 x = x.
Proof. intros x H. unfold clip01, Rmin, Rmax. destruct (Rle_dec x 0), (Rle_dec _ 1); lra. Qed.
Lemma clip_low : forall x, x <= 0 -> clip01 x = 0.
Proof. intros x H. unfold clip01, Rmin, Rmax. destruct (Rle_dec x 0), (Rle_dec _ 1); lra. Qed.
Lemma clip_high : forall x, 1 <= x -> clip01 x = 1.
Proof. intros x H. unfold clip01, Rmin, Rmax. destruct (Rle_dec x 0), (Rle_dec _ 1); lra. Qed.

Lemma clip_1minus : forall t, clip01 (1 - t) = 1 - clip01 t.
Proof.
  intros t. destruct (Rle_dec t 0) as [L|L]; [rewrite (clip_low t L), clip_high; lra|].
  destruct (Rle_dec 1 t) as [G|G]; [rewrite (clip_high t G), clip_low; lra|]. rewrite !clip_id; lra.
Qed.
Lemma div_mono : forall a b x y, a < b -> x <= y -> (x - a) / (b - a) <= (y - a) / (b - a).
Proof. intros a b x y H L. unfold Rdiv. apply Rmult_le_compat_r; [left; apply Rinv_0_lt_compat; lra|lra]. Qed.
Lemma div_low : forall a b x, a < b -> x <= a -> (x - a) / (b - a) <= 0.
Proof. intros a b x H L. replace 0 with ((a - a) / (b - a)) by (field; lra). apply div_mono; assumption. Qed.
Lemma div_high : forall a b x, a < b -> b <= x -> 1 <= (x - a) / (b - a).
Proof. intros a b x H L. replace 1 with ((b - a) / (b - a)) by (field; lra). apply div_mono; assumption. Qed.

(** ** Position of a value between the bounds *)
Definition pos (a b : R) (v : xr) : R :=
  match v with XF r => clip01 ((r - a) / (b - a)) | XP => 1 | _ => 0 end.
Lemma pos_range : forall a b v, 0 <= pos a b v <= 1.
Proof. intros a b [r| | |]; cbn [pos]; try lra. apply clip_range. Qed.
Lemma pos_mono : forall a b v w, a < b -> xle v w -> pos a b v <= pos a b w.
Proof.
  intros a b v w H [u N|u N|x y L]; cbn [pos].
  - apply pos_range.
  - apply pos_range.
  - apply clip_mono, div_mono; assumption.
Qed.
Lemma norm_pos : forall a b v, a < b -> v <> XNan -> xclip (xdiv (xsub v (XF a)) (xsub (XF b) (XF a))) = XF (pos a b v).
Proof.
  intros a b v H N. unfold xsub. cbn [xopp xadd]. destruct v as [r| | |]; cbn [xadd xdiv pos]; try (exfalso; apply N; reflexivity).
  - rdec; try (exfalso; Lra.lra); cbn [xclip]; unfold Rminus; reflexivity.
  - rdec; try (exfalso; Lra.lra); reflexivity.
  - rdec; try (exfalso; Lra.lra); reflexivity.
Qed.
Lemma xsub_fin : forall a b, xsub (XF a) (XF b) = XF (a - b).
Proof. reflexivity. Qed.

Definition step_up (a : R) (v : xr) : R := if xleb (XF a) v then 1 else 0.
Definition step_down (b : R) (v : xr) : R := if xleb v (XF b) then 1 else 0.
Lemma step_up_mono : forall a v w, xle v w -> step_up a v <= step_up a w.
Proof.
  intros a v w [u N|u N|x y L]; unfold step_up, xleb, xltb.
  - destruct u as [r| | |]; cbn [negb]; try (rdec; cbn [negb]; lra); try lra.
  - destruct u as [r| | |]; cbn [negb]; try (rdec; cbn [negb]; lra); try lra.
  - rdec; cbn [negb]; lra.
Qed.
Lemma step_down_mono : forall b v w, xle v w -> step_down b w <= step_down b v.
Proof.
  intros b v w [u N|u N|x y L]; unfold step_down, xleb, xltb.
  - destruct u as [r| | |]; cbn [negb]; try (rdec; cbn [negb]; lra); try lra.
  - destruct u as [r| | |]; cbn [negb]; try (rdec; cbn [negb]; lra); try lra.
  - rdec; cbn [negb]; lra.
Qed.
Lemma step_up_range : forall a v, 0 <= step_up a v <= 1.
Proof. intros a v. unfold step_up. destruct (xleb _ _); lra. Qed.
Lemma step_down_range : forall a v, 0 <= step_down a v <= 1.
Proof. intros a v. unfold step_down. destruct (xleb _ _); lra. Qed.

Definition npos (d : direction) (a b : R) (v : xr) : R :=
  if Req_EM_T (b - a) 0 then match d with LowCut => step_up a v | HighCut => step_down b v end
  else match d with LowCut => pos a b v | HighCut => 1 - pos a b v end.
Lemma taper_normalize_fin : forall d a b v, a <= b -> v <> XNan ->
  taper_normalize d (XF a) (XF b) v = XF (npos d a b v).
Proof.
  intros d a b v H N. unfold taper_normalize, npos. rewrite xsub_fin. cbn [xis0].
  destruct (Req_EM_T (b - a) 0) as [E|E].
  - destruct d; unfold where_, step_up, step_down; reflexivity.
  - rewrite <- xsub_fin. rewrite norm_pos by (try exact N; lra). destruct d; [reflexivity|]. rewrite xsub_fin. reflexivity.
Qed.
Lemma npos_range : forall d a b v, 0 <= npos d a b v <= 1.
Proof.
  intros d a b v. unfold npos. pose proof (pos_range a b v). pose proof (step_up_range a v). pose proof (step_down_range b v).
  destruct (Req_EM_T (b - a) 0), d; lra.
Qed.
Lemma npos_low_mono : forall a b v w, a <= b -> xle v w -> npos LowCut a b v <= npos LowCut a b w.
Proof.
  intros a b v w H L. unfold npos. destruct (Req_EM_T (b - a) 0); [apply step_up_mono; exact L|apply pos_mono; [lra|exact L]].
Qed.
Lemma npos_high_mono : forall a b v w, a <= b -> xle v w -> npos HighCut a b w <= npos HighCut a b v.
Proof.
  intros a b v w H L. unfold npos. destruct (Req_EM_T (b - a) 0); [apply step_down_mono; exact L|].
  assert (pos a b v <= pos a b w) by (apply pos_mono; [lra|exact L]). lra.
Qed.

Lemma pos_at_low : forall a b v, a < b -> xle v (XF a) -> pos a b v = 0.
Proof.
  intros a b v H L. inversion L; subst; cbn [pos]; [reflexivity|]. apply clip_low, div_low; assumption.
Qed.
Lemma pos_at_high : forall a b v, a < b -> xle (XF b) v -> pos a b v = 1.
Proof.
  intros a b v H L. inversion L; subst; cbn [pos]; [reflexivity|]. apply clip_high, div_high; assumption.
Qed.
Lemma npos_extremes : forall a b v, a <= b ->
  (xlt v (XF a) -> npos LowCut a b v = 0 /\ npos HighCut a b v = 1) /\
  (xlt (XF b) v -> npos LowCut a b v = 1 /\ npos HighCut a b v = 0) /\
  (xle (XF b) v -> npos LowCut a b v = 1) /\ (xle v (XF a) -> npos HighCut a b v = 1).
Proof.
  intros a b v H. unfold npos. destruct (Req_EM_T (b - a) 0) as [E|E].
  - assert (b = a) by lra. subst b. unfold step_up, step_down, xlt. repeat split; intros;
      repeat match goal with H : _ /\ _ |- _ => destruct H end;
      match goal with L : xle _ _ |- _ => inversion L; subst end; cbn [xleb xltb negb]; try reflexivity; rdec; cbn [negb]; try reflexivity; try lra;
      exfalso; match goal with N : _ <> _ |- _ => apply N; f_equal; lra end.
  - assert (L : a < b) by lra. repeat split; intros.
    + apply pos_at_low; [exact L|]. apply H0.
    + rewrite pos_at_low; [lra|exact L|apply H0].
    + apply pos_at_high; [exact L|apply H0].
    + rewrite pos_at_high; [lra|exact L|apply H0].
    + apply pos_at_high; assumption.
    + rewrite pos_at_low; [lra|exact L|assumption].
Qed.

(** ** Shapes *)
Definition shape (st : taper_style) (x : R) : R :=
  match st with
  | Rectangle => 1
  | Hann => 5 / 10 * (1 - cos (PI * x))
  | Hamming => 54 / 100 - 46 / 100 * cos (PI * x)
  | Blackman => 42 / 100 - 5 / 10 * cos (PI * x) + 8 / 100 * cos (2 * PI * x)
  end.
Lemma cos_mono : forall x y, 0 <= x -> x <= y -> y <= 1 -> cos (PI * y) <= cos (PI * x).
Proof.
  intros x y X L Y. pose proof PI_RGT_0. destruct (Req_dec x y) as [->|N]; [lra|].
  apply Rlt_le. apply cos_decreasing_1; nra.
Qed.
Lemma shape_blackman : forall x, shape Blackman x = 34 / 100 - 5 / 10 * cos (PI * x) + 16 / 100 * (cos (PI * x) * cos (PI * x)).
Proof.
  intros x. unfold shape. replace (2 * PI * x) with (2 * (PI * x)) by ring. rewrite cos_2a_cos. field.
Qed.
Lemma shape_mono : forall st x y, 0 <= x -> x <= y -> y <= 1 -> shape st x <= shape st y.
Proof.
  intros st x y X L Y. pose proof (cos_mono x y X L Y) as C. pose proof (COS_bound (PI * x)). pose proof (COS_bound (PI * y)).
  destruct st; [cbn [shape]; lra|cbn [shape]; lra|cbn [shape]; lra|].
  rewrite !shape_blackman. set (c := cos (PI * x)) in *. set (e := cos (PI * y)) in *. nra.
Qed.
Lemma shape_0 : forall st, st <> Rectangle -> shape st 0 = least st.
Proof.
  intros st N. destruct st; [contradiction (N eq_refl)| | |]; cbn [shape least]; rewrite ?Rmult_0_r, ?cos_0; field.
Qed.
Lemma shape_1 : forall st, shape st 1 = 1.
Proof.
  intros st. destruct st; cbn [shape]; rewrite ?Rmult_1_r, ?cos_PI, ?cos_2PI; field.
Qed.
Lemma shape_range : forall st x, 0 <= x <= 1 -> least st <= shape st x <= 1.
Proof.
  intros st x H. destruct st eqn:E; [cbn [shape least]; lra| | |];
  (split; [rewrite <- shape_0 by discriminate; apply shape_mono; lra|rewrite <- (shape_1 st); rewrite E; apply shape_mono; lra]).
Qed.
Lemma least_range : forall st, 0 <= least st <= 1.
Proof. intros []; cbn [least]; lra. Qed.
Definition rect (d : direction) (a b : R) (v : xr) : R :=
  match d with LowCut => if xltb v (XF a) then 0 else 1 | HighCut => if xltb (XF b) v then 0 else 1 end.
Definition tw (st : taper_style) (d : direction) (a b : R) (v : xr) : R :=
  match st with Rectangle => rect d a b v | _ => shape st (npos d a b v) end.
Lemma taper_evaluate_fin : forall st d a b v, a <= b -> v <> XNan ->
  taper_evaluate st d (XF a) (XF b) v = XF (tw st d a b v).
Proof.
  intros st d a b v H N. unfold taper_evaluate. rewrite taper_normalize_fin by assumption.
  destruct st; try reflexivity. destruct d; reflexivity.
Qed.
Lemma rect_low : forall a b v, rect LowCut a b v = if xltb v (XF a) then 0 else 1. Proof. reflexivity. Qed.
Lemma rect_mono : forall a b v w, xle v w -> rect LowCut a b v <= rect LowCut a b w /\ rect HighCut a b w <= rect HighCut a b v.
Proof.
  intros a b v w [u N|u N|x y L]; unfold rect, xltb.
  - destruct u; rdec; lra.
  - destruct u; rdec; lra.
  - rdec; lra.
Qed.
Lemma tw_range : forall st d a b v, least st <= tw st d a b v <= 1.
Proof.
  intros st d a b v. destruct st.
  - cbn [tw least]. unfold rect. destruct d; destruct (xltb _ _); lra.
  - apply shape_range, npos_range.
  - apply shape_range, npos_range.
  - apply shape_range, npos_range.
Qed.
Lemma tw_low_mono : forall st a b v w, a <= b -> xle v w -> tw st LowCut a b v <= tw st LowCut a b w.
Proof.
  intros st a b v w H L. pose proof (npos_range LowCut a b v). pose proof (npos_range LowCut a b w).
  pose proof (npos_low_mono a b v w H L). destruct st; [apply rect_mono; exact L| | |]; apply shape_mono; lra.
Qed.
Lemma tw_high_mono : forall st a b v w, a <= b -> xle v w -> tw st HighCut a b w <= tw st HighCut a b v.
Proof.
  intros st a b v w H L. pose proof (npos_range HighCut a b v). pose proof (npos_range HighCut a b w).
  pose proof (npos_high_mono a b v w H L). destruct st; [apply rect_mono; exact L| | |]; apply shape_mono; lra.
Qed.
Lemma tw_extremes : forall st a b v, a <= b ->
  (xlt v (XF a) -> tw st LowCut a b v = least st /\ tw st HighCut a b v = 1) /\
  (xlt (XF b) v -> tw st LowCut a b v = 1 /\ tw st HighCut a b v = least st) /\
  (xle (XF b) v -> tw st LowCut a b v = 1) /\ (xle v (XF a) -> tw st HighCut a b v = 1).
Proof.
  intros st a b v H. destruct (npos_extremes a b v H) as (A & B & C & D).
  assert (Q : st = Rectangle \/ st <> Rectangle) by (destruct st; auto; right; discriminate).
  destruct Q as [->|Q].
  - cbn [tw least]. unfold rect. repeat split; intros;
      repeat match goal with H : xlt _ _ |- _ => destruct H end;
      match goal with L : xle _ _ |- _ => inversion L; subst end; cbn [xltb]; try reflexivity; rdec; try reflexivity; try lra;
      exfalso; match goal with N : _ <> _ |- _ => apply N; f_equal; lra end.
  - assert (E : forall d, tw st d a b v = shape st (npos d a b v)) by (intros d; destruct st; [contradiction (Q eq_refl)| | |]; reflexivity).
    rewrite !E. repeat split; intros.
    + destruct (A H0) as [-> _]. apply shape_0, Q.
    + destruct (A H0) as [_ ->]. apply shape_1.
    + destruct (B H0) as [-> _]. apply shape_1.
    + destruct (B H0) as [_ ->]. apply shape_0, Q.
    + rewrite (C H0). apply shape_1.
    + rewrite (D H0). apply shape_1.
Qed.

(** ** Activations *)
Definition apos (d : direction) (a b : R) (v : xr) : R := match d with LowCut => pos a b v | HighCut => 1 - pos a b v end.
Lemma activation_normalize_fin : forall d a b v, a < b -> v <> XNan ->
  activation_normalize d (XF a) (XF b) v = XF (apos d a b v).
Proof.
  intros d a b v H N. unfold activation_normalize. cbn [xfinite andb]. destruct d; cbn [apos]; [apply norm_pos; assumption|].
  unfold xsub at 1. unfold xsub. cbn [xopp xadd].
  destruct v as [r| | |]; cbn [xadd xdiv pos xopp]; try (exfalso; apply N; reflexivity).
  - destruct (Req_EM_T (b + - a) 0); [exfalso; Lra.lra|]. cbn [xopp xadd xclip]. f_equal.
    replace (1 + - ((r + - a) / (b + - a))) with (1 - (r - a) / (b - a)) by (unfold Rminus; ring).
    apply clip_1minus.
  - rdec; try (exfalso; Lra.lra); cbn [xopp xadd xclip]; f_equal; lra.
  - rdec; try (exfalso; Lra.lra); cbn [xopp xadd xclip]; f_equal; lra.
Qed.
Lemma apos_range : forall d a b v, 0 <= apos d a b v <= 1.
Proof. intros d a b v. pose proof (pos_range a b v). destruct d; cbn [apos]; lra. Qed.
Lemma apos_mono : forall a b v w, a < b -> xle v w -> apos LowCut a b v <= apos LowCut a b w /\ apos HighCut a b w <= apos HighCut a b v.
Proof. intros a b v w H L. pose proof (pos_mono a b v w H L). cbn [apos]. lra. Qed.

Definition act (st : activation_style) (s : R) (x : R) : R :=
  match st with
  | Sigmoid => 1 / (1 + exp (- s * (x - 5 / 10)))
  | HardSigmoid => 4 / 10 + x / 5
  | Tanh => 1 / (1 + exp (- (2 * s) * (x - 5 / 10)))
  | HardTanh => x
  end.
Lemma logistic_mono : forall u v, u <= v -> 1 / (1 + exp (- u)) <= 1 / (1 + exp (- v)).
Proof.
  intros u v H. unfold Rdiv. rewrite !Rmult_1_l. pose proof (exp_pos (- u)). pose proof (exp_pos (- v)).
  apply Rinv_le_contravar; [lra|]. apply Rplus_le_compat_l.
  destruct (Req_dec u v) as [->|N]; [lra|]. left. apply exp_increasing. lra.
Qed.
Lemma logistic_range : forall u, 0 < 1 / (1 + exp u) < 1.
Proof.
  intros u. pose proof (exp_pos u). unfold Rdiv. rewrite Rmult_1_l. split; [apply Rinv_0_lt_compat; lra|].
  rewrite <- Rinv_1. apply Rinv_lt_contravar; lra.
Qed.
Lemma tanh_logistic : forall u, 5 / 10 * (tanh u + 1) = 1 / (1 + exp (- (2 * u))).
Proof.
  intros u. unfold tanh, sinh, cosh. replace (- (2 * u)) with (- u + - u) by ring. rewrite exp_plus.
  pose proof (exp_pos u). pose proof (exp_pos (- u)).
  assert (E : exp u * exp (- u) = 1) by (rewrite <- exp_plus; replace (u + - u) with 0 by ring; apply exp_0).
  assert (exp u = / exp (- u)) by (apply (Rmult_eq_reg_r (exp (- u))); [rewrite E, Rinv_l; [reflexivity|Lra.lra]|Lra.lra]).
  set (q := exp (- u)) in *. rewrite H1. assert (0 < q * q) by nra. assert (0 < / q) by (apply Rinv_0_lt_compat; lra).
  field. repeat split; lra.
Qed.
Lemma activation_evaluate_fin : forall st s d a b v, a < b -> v <> XNan ->
  activation_evaluate st s d (XF a) (XF b) v = XF (act st s (apos d a b v)).
Proof.
  intros st s d a b v H N. unfold activation_evaluate. rewrite activation_normalize_fin by assumption.
  pose proof (apos_range d a b v). set (x := apos d a b v) in *. destruct st; cbn [xmap xclip act].
  - reflexivity.
  - rewrite clip_id by lra. f_equal. field.
  - f_equal. rewrite tanh_logistic. do 3 f_equal. ring.
  - rewrite clip_id by lra. reflexivity.
Qed.
Lemma act_range : forall st s x, 0 <= x <= 1 -> 0 <= act st s x <= 1.
Proof.
  intros st s x H. destruct st; cbn [act]; try lra.
  - pose proof (logistic_range (- s * (x - 5 / 10))). lra.
  - pose proof (logistic_range (- (2 * s) * (x - 5 / 10))). lra.
Qed.
Lemma act_mono : forall st s x y, 0 <= s -> x <= y -> act st s x <= act st s y.
Proof.
  intros st s x y Hs H. destruct st; cbn [act]; try lra.
  - replace (- s * (x - 5 / 10)) with (- (s * (x - 5 / 10))) by ring. replace (- s * (y - 5 / 10)) with (- (s * (y - 5 / 10))) by ring.
    apply logistic_mono. nra.
  - replace (- (2 * s) * (x - 5 / 10)) with (- (2 * s * (x - 5 / 10))) by ring.
    replace (- (2 * s) * (y - 5 / 10)) with (- (2 * s * (y - 5 / 10))) by ring. apply logistic_mono. nra.
Qed.
