From Coq Require Import Reals Lra.
From Verif Require Import PyBase PyFacts WeightModel WeightSpec WeightProofs WeightComb.
Open Scope R_scope.

(** C45.  A taper gives every number (also an infinite one) a weight. *)
Theorem C45_weights : forall st d a b v, a <= b -> v <> XNan -> weight (taper_evaluate st d (XF a) (XF b) v).
Proof.
  intros st d a b v H N. rewrite taper_evaluate_fin by assumption. eexists. split; [reflexivity|].
  pose proof (tw_range st d a b v). pose proof (least_range st). lra.
Qed.
(** It grows with the value for "low cut" and falls for "high cut". *)
Theorem C45_monotone : forall st a b v w x y x' y', a <= b -> xle v w ->
  taper_evaluate st LowCut (XF a) (XF b) v = XF x -> taper_evaluate st LowCut (XF a) (XF b) w = XF y ->
  taper_evaluate st HighCut (XF a) (XF b) v = XF x' -> taper_evaluate st HighCut (XF a) (XF b) w = XF y' ->
  x <= y /\ y' <= x'.
Proof.
  intros st a b v w x y x' y' H L. assert (Nv : v <> XNan /\ w <> XNan) by (inversion L; subst; split; (assumption || discriminate)).
  destruct Nv as [Nv Nw]. rewrite !taper_evaluate_fin by assumption. intros A B C D.
  injection A as <-. injection B as <-. injection C as <-. injection D as <-.
  split; [apply tw_low_mono; assumption|apply tw_high_mono; assumption].
Qed.
(** Outside the transition it is at its extremes. *)
Theorem C45_extremes : forall st a b v, a <= b ->
  (xlt v (XF a) -> taper_evaluate st LowCut (XF a) (XF b) v = XF (least st) /\
                   taper_evaluate st HighCut (XF a) (XF b) v = XF 1) /\
  (xlt (XF b) v -> taper_evaluate st LowCut (XF a) (XF b) v = XF 1 /\
                   taper_evaluate st HighCut (XF a) (XF b) v = XF (least st)).
Proof.
  intros st a b v H. destruct (tw_extremes st a b v H) as (A & B & _ & _).
  split; intros L; assert (N : v <> XNan) by (destruct L as [L _]; inversion L; subst; (assumption || discriminate));
    rewrite !taper_evaluate_fin by assumption.
  - destruct (A L) as [-> ->]. split; reflexivity.
  - destruct (B L) as [-> ->]. split; reflexivity.
Qed.
(** No weight is below the least weight of the window. *)
Theorem C45_least : forall st d a b v r, a <= b -> v <> XNan -> taper_evaluate st d (XF a) (XF b) v = XF r -> least st <= r.
Proof.
  intros st d a b v r H N E. rewrite taper_evaluate_fin in E by assumption. injection E as <-. apply tw_range.
Qed.
(** The composite kernel gives weights, and 1 between the two transitions. *)
Theorem C45_composite : forall low high style v, In style ["hann"; "hamming"; "blackman"]%string ->
  fst low <= snd low -> fst high <= snd high -> v <> XNan ->
  exists x, taper_kernel_evaluate low high style v = Ok x /\ weight x /\
    (xle (XF (snd low)) v -> xle v (XF (fst high)) -> x = XF 1).
Proof.
  intros [a b] [c d] style v I L1 L2 N. cbn [fst snd] in *. unfold taper_kernel_evaluate.
  assert (S0 : exists st, half_window_of style = Ok st).
  { cbn [In] in I. destruct I as [<-|[<-|[<-|[]]]]; eexists; reflexivity. }
  destruct S0 as [st ->]. cbn [bindR fst snd]. rewrite !taper_evaluate_fin by assumption. cbn [xmul].
  eexists. split; [reflexivity|].
  pose proof (tw_range st LowCut a b v). pose proof (tw_range st HighCut c d v). pose proof (least_range st). split.
  - eexists. split; [reflexivity|]. nra.
  - intros A B. destruct (tw_extremes st a b v L1) as (_ & _ & X & _). destruct (tw_extremes st c d v L2) as (_ & _ & _ & Y).
    rewrite (X A), (Y B). f_equal. ring.
Qed.
(** Other window types are accepted as its style and raise when it is evaluated. *)
Theorem C45_composite_style_refuted :
  ~ (forall low high style v, In style ["boxcar"; "triang"; "blackman"; "hamming"; "hann"; "bartlett"]%string ->
       exists x, taper_kernel_evaluate low high style v = Ok x).
Proof.
  intros H. destruct (H (0, 1) (2, 3) "boxcar"%string (XF 0)) as [x E]; [left; reflexivity|]. discriminate E.
Qed.
(** Not so with the infinite bound named in the documentation: the weight is nan. *)
Theorem C45_infinite_bound_refuted :
  forall b v, taper_evaluate Hann LowCut XN (XF b) (XF v) = XNan.
Proof. intros b v. reflexivity. Qed.
(** Not so: a value that is nan is weighted down.  A rectangle gives it the weight 1. *)
Theorem C45_nan_value_refuted : forall d a b, taper_evaluate Rectangle d (XF a) (XF b) XNan = XF 1.
Proof. intros [] a b; reflexivity. Qed.
(** Not so for exchanged bounds: the direction is reversed. *)
Theorem C45_exchanged_bounds_refuted :
  taper_evaluate Hann LowCut (XF 1) (XF 0) (XF 0) = XF 1 /\ taper_evaluate Hann LowCut (XF 1) (XF 0) (XF 1) = XF 0.
Proof.
  split; unfold taper_evaluate, taper_normalize; rewrite xsub_fin; cbn [xis0]; (destruct (Req_EM_T (0 - 1) 0); [exfalso; lra|]);
    rewrite ?xsub_fin; cbn [xdiv]; (destruct (Req_EM_T (0 - 1) 0); [exfalso; lra|]); cbn [xclip xmap]; f_equal.
  - replace ((0 - 1) / (0 - 1)) with 1 by (field; lra). rewrite clip_id by lra. rewrite Rmult_1_r, cos_PI. field.
  - replace ((1 - 1) / (0 - 1)) with 0 by (field; lra). rewrite clip_id by lra. rewrite Rmult_0_r, cos_0. field.
Qed.
(** Not so: the weight of what is cut is 0.  With a Hamming window it is 0.08. *)
Theorem C45_cut_is_zero_refuted :
  ~ (forall st d a b v, a < b -> (d = LowCut -> xlt v (XF a)) -> (d = HighCut -> xlt (XF b) v) ->
       taper_evaluate st d (XF a) (XF b) v = XF 0).
Proof.
  intros H. specialize (H Hamming LowCut 0 1 XN ltac:(lra)).
  assert (L : xlt XN (XF 0)) by (split; [constructor; discriminate|discriminate]).
  specialize (H (fun _ => L) ltac:(discriminate)). destruct (C45_extremes Hamming 0 1 XN ltac:(lra)) as [E _].
  destruct (E L) as [E' _]. rewrite E' in H. injection H as H. cbn [least] in H. lra.
Qed.
(** Not so: a threshold kernel is a step.  It raises for every value. *)
Theorem C45_threshold_kernel_refuted : forall st d lb ub active v,
  kernel_evaluate (mkKernel (KThreshold st d lb ub) active) v = Err NotImplementedError.
Proof. reflexivity. Qed.
Example C45_hyp : taper_evaluate Hann LowCut (XF 0) (XF 1) (XF (1 / 2)) = XF (1 / 2) /\ xlt XN (XF 0) /\ xlt (XF 1) (XF 2) /\ xle (XF 0) (XF 1).
Proof.
  split; [|split; [split; [constructor; discriminate|discriminate]|split; [split; [constructor; lra|intros F; injection F as F; lra]|constructor; lra]]].
  rewrite taper_evaluate_fin by (try discriminate; lra). cbn [tw shape]. unfold npos. destruct (Req_EM_T (1 - 0) 0); [exfalso; lra|].
  cbn [pos]. rewrite clip_id; [|lra]. replace (PI * ((1 / 2 - 0) / (1 - 0))) with (PI / 2) by field. rewrite cos_PI2. f_equal. field.
Qed.

(** C46.  An activation gives every number a weight. *)
Theorem C46_weights : forall st s d a b v, a < b -> v <> XNan -> weight (activation_evaluate st s d (XF a) (XF b) v).
Proof.
  intros st s d a b v H N. rewrite activation_evaluate_fin by assumption. eexists. split; [reflexivity|]. apply act_range, apos_range.
Qed.
Theorem C46_monotone : forall st s a b v w x y x' y', 0 <= s -> a < b -> xle v w ->
  activation_evaluate st s LowCut (XF a) (XF b) v = XF x -> activation_evaluate st s LowCut (XF a) (XF b) w = XF y ->
  activation_evaluate st s HighCut (XF a) (XF b) v = XF x' -> activation_evaluate st s HighCut (XF a) (XF b) w = XF y' ->
  x <= y /\ y' <= x'.
Proof.
  intros st s a b v w x y x' y' Hs H L. assert (Nv : v <> XNan /\ w <> XNan) by (inversion L; subst; split; (assumption || discriminate)).
  destruct Nv as [Nv Nw]. rewrite !activation_evaluate_fin by assumption. intros A B C D.
  injection A as <-. injection B as <-. injection C as <-. injection D as <-.
  destruct (apos_mono a b v w H L). split; apply act_mono; assumption.
Qed.
(** Outside the transition it is at its extremes. *)
Theorem C46_extremes : forall st s a b v, a < b ->
  (xle v (XF a) -> activation_evaluate st s LowCut (XF a) (XF b) v = XF (act_least st s) /\
                   activation_evaluate st s HighCut (XF a) (XF b) v = XF (1 - act_least st s)) /\
  (xle (XF b) v -> activation_evaluate st s LowCut (XF a) (XF b) v = XF (1 - act_least st s) /\
                   activation_evaluate st s HighCut (XF a) (XF b) v = XF (act_least st s)).
Proof.
  assert (E0 : forall st s, act st s 0 = act_least st s).
  { intros [] s; cbn [act act_least]; try lra.
    - replace (- s * (0 - 5 / 10)) with (s / 2) by field. reflexivity.
    - replace (- (2 * s) * (0 - 5 / 10)) with s by field. reflexivity. }
  assert (LG : forall u, 1 / (1 + exp (- u)) = 1 - 1 / (1 + exp u)).
  { intros u. rewrite exp_Ropp. pose proof (exp_pos u). field. split; lra. }
  assert (E1 : forall st s, act st s 1 = 1 - act_least st s).
  { intros [] s; cbn [act act_least]; try lra.
    - replace (- s * (1 - 5 / 10)) with (- (s / 2)) by field. apply LG.
    - replace (- (2 * s) * (1 - 5 / 10)) with (- s) by field. apply LG. }
  intros st s a b v H. split; intros L; assert (N : v <> XNan) by (inversion L; subst; (assumption || discriminate));
    rewrite !activation_evaluate_fin by assumption; cbn [apos].
  - rewrite (pos_at_low a b v H L), E0. rewrite Rminus_0_r, E1. split; reflexivity.
  - rewrite (pos_at_high a b v H L), E1. replace (1 - 1) with 0 by ring. rewrite E0. split; reflexivity.
Qed.
(** With an infinite bound every value has the weight 1/2. *)
Theorem C46_infinite_bounds : forall st s d lb ub v, (forall r, lb <> XF r) \/ (forall r, ub <> XF r) ->
  activation_evaluate st s d lb ub v = XF (1 / 2).
Proof.
  intros st s d lb ub v H. unfold activation_evaluate, activation_normalize.
  replace (xfinite lb && xfinite ub)%bool with false.
  2: { destruct lb as [x| | |], ub as [y| | |]; try reflexivity. destruct H as [H|H]; [contradiction (H x eq_refl)|contradiction (H y eq_refl)]. }
  destruct st; cbn [xmap xclip]; f_equal.
  - replace (- s * (5 / 10 - 5 / 10)) with 0 by field. rewrite exp_0. field.
  - rewrite clip_id by lra. field.
  - rewrite tanh_logistic. replace (- (2 * (s * (5 / 10 - 5 / 10)))) with 0 by field. rewrite exp_0. field.
  - rewrite clip_id by lra. field.
Qed.
(** Not so: what is cut has the weight 0 in the limit named by the documentation; with the default steepness a
    sigmoid gives every value more than 1/3. *)
Theorem C46_cut_is_zero_refuted : forall v, v <> XNan ->
  exists r, activation_evaluate Sigmoid 1 LowCut (XF 0) (XF 1) v = XF r /\ 1 / 3 <= r.
Proof.
  intros v N. rewrite activation_evaluate_fin by (try assumption; lra). eexists. split; [reflexivity|].
  pose proof (apos_range LowCut 0 1 v) as [A B]. set (x := apos LowCut 0 1 v) in *.
  apply Rle_trans with (act Sigmoid 1 0); [|apply act_mono; lra].
  cbn [act]. replace (- (1) * (0 - 5 / 10)) with (1 / 2) by field. pose proof (exp_pos (1 / 2)).
  assert (E : exp (1 / 2) <= 2).
  { destruct (Rle_dec (exp (1 / 2)) 2) as [L|L]; [exact L|]. exfalso.
    assert (Q : exp (1 / 2) * exp (1 / 2) = exp 1) by (rewrite <- exp_plus; f_equal; field). pose proof exp_le_3. nra. }
  unfold Rdiv at 1. rewrite Rmult_1_l. unfold Rdiv. rewrite Rmult_1_l. apply Rinv_le_contravar; lra.
Qed.
(** Not so for equal bounds: the bound itself has the weight nan. *)
Theorem C46_equal_bounds_refuted : forall st s d a, activation_evaluate st s d (XF a) (XF a) (XF a) = XNan.
Proof.
  intros st s d a. unfold activation_evaluate, activation_normalize. cbn [xfinite andb]. rewrite xsub_fin. cbn [xdiv].
  destruct (Req_EM_T (a - a) 0); [|exfalso; lra]. destruct d; destruct st; reflexivity.
Qed.
(** Not so for a negative steepness: a low cut then weights down the high values. *)
Theorem C46_negative_steepness_refuted : exists x y,
  activation_evaluate Sigmoid (-1) LowCut (XF 0) (XF 1) (XF 0) = XF x /\
  activation_evaluate Sigmoid (-1) LowCut (XF 0) (XF 1) (XF 1) = XF y /\ y < x.
Proof.
  destruct (C46_extremes Sigmoid (-1) 0 1 (XF 0) ltac:(lra)) as [A _].
  destruct (C46_extremes Sigmoid (-1) 0 1 (XF 1) ltac:(lra)) as [_ B].
  destruct (A ltac:(constructor; lra)) as [-> _]. destruct (B ltac:(constructor; lra)) as [-> _].
  eexists _, _. split; [reflexivity|]. split; [reflexivity|]. cbn [act_least].
  assert (E : exp (-1 / 2) < 1) by (rewrite <- exp_0; apply exp_increasing; lra). pose proof (exp_pos (-1 / 2)).
  assert (X : 1 / 2 < 1 / (1 + exp (-1 / 2))).
  { unfold Rdiv at 2. rewrite Rmult_1_l. unfold Rdiv. rewrite Rmult_1_l. apply Rinv_lt_contravar; lra. }
  lra.
Qed.
Example C46_hyp : activation_evaluate HardTanh 1 LowCut (XF 0) (XF 2) (XF 1) = XF (1 / 2) /\ weight (XF (1 / 2)).
Proof.
  split; [|exists (1 / 2); split; [reflexivity|lra]].
  rewrite activation_evaluate_fin by (try discriminate; lra). cbn [act apos pos]. f_equal. rewrite clip_id; lra.
Qed.

(** C47.  The weight of a feature. *)
Theorem C47_feature_weight : forall ks v,
  (forall k x, In k ks -> value_in x v -> exists y, kernel_evaluate k x = Ok y /\ weight y) ->
  exists r, feature_evaluate ks v = Ok r /\ all_weights r /\ (ks <> [] -> same_form v r).
Proof. exact feature_weights. Qed.
(** Without kernels the weight is 1; so is that of a channel without features. *)
Theorem C47_no_kernels : forall v c fv, feature_evaluate [] v = Ok (VOne (XF 1)) /\ channel_evaluate c [] fv = Ok (VOne (XF 1)).
Proof. split; reflexivity. Qed.
(** Every kernel can only lower the weight: it is at most the weight each kernel gives. *)
Theorem C47_each_kernel : forall ks x r k y,
  (forall k x', In k ks -> value_in x' (VOne x) -> exists y, kernel_evaluate k x' = Ok y /\ weight y) ->
  feature_evaluate ks (VOne x) = Ok (VOne r) -> In k ks -> kernel_evaluate k x = Ok y -> num_le r y.
Proof.
  intros ks x r k y H E I Y. unfold feature_evaluate in E.
  assert (G : exists rs, mapR (fun k => values_map (kernel_evaluate k) (VOne x)) ks = Ok (map (fun r => VOne (XF r)) rs) /\ Forall unit_r rs /\
     Forall2 (fun k r => kernel_evaluate k x = Ok (XF r)) ks rs).
  { clear E I. induction ks as [|k0 ks IH]; [exists []; repeat split; constructor|].
    destruct (H k0 x (or_introl eq_refl) eq_refl) as (z & Z & (q & -> & U)).
    destruct (IH (fun k' x' I => H k' x' (or_intror I))) as (rs & E' & U' & F).
    exists (q :: rs). cbn [mapR values_map]. rewrite Z. cbn [bindR]. cbn [values_map] in E'. rewrite E'. cbn [bindR map].
    split; [reflexivity|]. split; constructor; assumption. }
  destruct G as (rs & M & U & F). rewrite M in E. cbn [bindR] in E. destruct rs as [|q rs]; [inversion F; subst; contradiction|].
  cbn [map] in E. unfold reduce in E.
  change (VOne (XF q) :: map (fun r => VOne (XF r)) rs) with (map (fun r => VOne (XF r)) (q :: rs)) in E.
  rewrite <- (map_map XF VOne) in E. rewrite all_some_one in E. cbn [map] in E. rewrite reduce_numbers_reals in E.
  assert (E' : r = XF (redr Multiplication q rs)) by congruence. rewrite E'. clear E E'.
  inversion U; subst. destruct (prod_facts rs q) as [_ P]; [assumption|assumption|].
  assert (J : exists z, In z (q :: rs) /\ y = XF z).
  { clear - F I Y. induction F as [|k0 r0 ks' rs' E F IH]; [contradiction|]. destruct I as [->|I].
    - exists r0. split; [left; reflexivity|congruence].
    - destruct (IH I) as (z & Iz & Ez). exists z. split; [right; exact Iz|exact Ez]. }
  destruct J as (z & Iz & ->). constructor. cbn [redr]. apply P. exact Iz.
Qed.
(** The weight of a channel: with weights of one form it is a weight, for every style of combination. *)
Theorem C47_channel_weight : forall c specs fv v, specs <> [] ->
  (forall n ks, In (n, ks) specs -> ks <> [] /\ exists u, dget string_dec n fv = Some u /\ same_form v u /\
      forall k x, In k ks -> value_in x u -> exists y, kernel_evaluate k x = Ok y /\ weight y) ->
  exists r, channel_evaluate c specs fv = Ok r /\ all_weights r /\ same_form v r.
Proof.
  intros c specs fv v NE H. unfold channel_evaluate.
  assert (T : forall a b d, same_form a b -> same_form b d -> same_form a d).
  { intros a b d X Y. inversion X; subst; inversion Y; subst; constructor; congruence. }
  assert (G : exists ws, mapR (fun sp => match dget string_dec (fst sp) fv with None => Err KeyError | Some v => feature_evaluate (snd sp) v end) specs
      = Ok ws /\ Forall all_weights ws /\ Forall (same_form v) ws /\ List.length specs = List.length ws).
  { clear NE. induction specs as [|[n ks] specs IH]; [exists []; repeat split; constructor|].
    destruct (H n ks (or_introl eq_refl)) as (N & u & D & S0 & K). destruct (feature_weights ks u K) as (r & E & W & S1).
    destruct (IH (fun n' ks' I => H n' ks' (or_intror I))) as (ws & E' & W' & S' & L).
    exists (r :: ws). cbn [mapR fst snd]. rewrite D, E. cbn [bindR]. rewrite E'. cbn [bindR]. split; [reflexivity|].
    split; [constructor; assumption|]. split; [constructor; [exact (T _ _ _ S0 (S1 N))|assumption]|]. cbn. f_equal. exact L. }
  destruct G as (ws & E & W & S0 & L). rewrite E. cbn [bindR]. destruct ws as [|w ws].
  - destruct specs; [contradiction (NE eq_refl)|discriminate L].
  - apply (reduce_ok c v); assumption.
Qed.
(** Product below minimum below mean below maximum, in every place. *)
Theorem C47_order : forall specs fv v p mi me ma, specs <> [] ->
  (forall n ks, In (n, ks) specs -> ks <> [] /\ exists u, dget string_dec n fv = Some u /\ same_form v u /\
      forall k x, In k ks -> value_in x u -> exists y, kernel_evaluate k x = Ok y /\ weight y) ->
  channel_evaluate Multiplication specs fv = Ok p -> channel_evaluate Minimum specs fv = Ok mi ->
  channel_evaluate Mean specs fv = Ok me -> channel_evaluate Maximum specs fv = Ok ma ->
  values_le p mi /\ values_le mi me /\ values_le me ma.
Proof.
  intros specs fv v p mi me ma NE H. unfold channel_evaluate.
  assert (T : forall a b d, same_form a b -> same_form b d -> same_form a d).
  { intros a b d X Y. inversion X; subst; inversion Y; subst; constructor; congruence. }
  assert (G : exists ws, mapR (fun sp => match dget string_dec (fst sp) fv with None => Err KeyError | Some v => feature_evaluate (snd sp) v end) specs
      = Ok ws /\ Forall all_weights ws /\ Forall (same_form v) ws /\ List.length specs = List.length ws).
  { clear NE. induction specs as [|[n ks] specs IH]; [exists []; repeat split; constructor|].
    destruct (H n ks (or_introl eq_refl)) as (N & u & D & S0 & K). destruct (feature_weights ks u K) as (r & E & W & S1).
    destruct (IH (fun n' ks' I => H n' ks' (or_intror I))) as (ws & E' & W' & S' & L).
    exists (r :: ws). cbn [mapR fst snd]. rewrite D, E. cbn [bindR]. rewrite E'. cbn [bindR]. split; [reflexivity|].
    split; [constructor; assumption|]. split; [constructor; [exact (T _ _ _ S0 (S1 N))|assumption]|]. cbn. f_equal. exact L. }
  destruct G as (ws & E & W & S0 & L). rewrite E. cbn [bindR]. destruct ws as [|w ws].
  - destruct specs; [contradiction (NE eq_refl)|discriminate L].
  - intros A B C D. repeat split; (eapply (reduce_compare _ _ v w ws S0 W); [|eassumption|eassumption]); intros r rs U F; apply redr_order; assumption.
Qed.
(** In every place, the weight of a channel is what the style of combination says of the weights of its
    features, and the weight of a feature is the product of those of its kernels. *)
Theorem C47_combination : forall c specs fv ws r,
  Forall2 (fun sp w => exists v, dget string_dec (fst sp) fv = Some v /\ feature_evaluate (snd sp) v = Ok w) specs ws ->
  channel_evaluate c specs fv = Ok r ->
  forall j rs, rs <> [] -> Forall2 (fun w x => place j w = Some (XF x)) ws rs ->
  exists x, place j r = Some (XF x) /\ combined c rs x.
Proof.
  intros c specs fv ws r G E j rs NE F. unfold channel_evaluate in E.
  assert (M : mapR (fun sp => match dget string_dec (fst sp) fv with None => Err KeyError | Some v => feature_evaluate (snd sp) v end) specs = Ok ws).
  { clear E F. induction G as [|sp w specs ws (v & D & W) G IH]; [reflexivity|]. cbn [mapR]. rewrite D, W. cbn [bindR]. rewrite IH. reflexivity. }
  rewrite M in E. cbn [bindR] in E. destruct ws as [|w ws]; [inversion F; subst; contradiction (NE eq_refl)|].
  apply (reduce_places c (w :: ws) r E j rs NE F).
Qed.
Theorem C47_kernels : forall ks v ws r,
  Forall2 (fun k w => values_map (kernel_evaluate k) v = Ok w) ks ws -> feature_evaluate ks v = Ok r ->
  forall j rs, rs <> [] -> Forall2 (fun w x => place j w = Some (XF x)) ws rs ->
  place j r = Some (XF (fold_right Rmult 1 rs)).
Proof.
  intros ks v ws r G E j rs NE F. unfold feature_evaluate in E.
  assert (M : mapR (fun k => values_map (kernel_evaluate k) v) ks = Ok ws).
  { clear E F. induction G as [|k w ks ws W G IH]; [reflexivity|]. cbn [mapR]. rewrite W. cbn [bindR]. rewrite IH. reflexivity. }
  rewrite M in E. cbn [bindR] in E. destruct ws as [|w ws]; [inversion F; subst; contradiction (NE eq_refl)|].
  destruct (reduce_places _ (w :: ws) r E j rs NE F) as (x & P & C). cbn [combined] in C. rewrite P, C. reflexivity.
Qed.
(** A feature whose values are missing is reported. *)
Theorem C47_missing_values : forall c n ks specs fv, dget string_dec n fv = None ->
  channel_evaluate c ((n, ks) :: specs) fv = Err KeyError.
Proof. intros c n ks specs fv D. unfold channel_evaluate. cbn [mapR fst]. rewrite D. reflexivity. Qed.

Definition hann01 (active : option bool) : wkernel := mkKernel (KTaper Hann LowCut (XF 0) (XF 1)) active.
(** Not so: an inactive kernel is skipped. *)
Theorem C47_inactive_kernel_refuted :
  ~ (forall k ks v, k_active k = Some false -> feature_evaluate (k :: ks) v = feature_evaluate ks v).
Proof.
  intros H. specialize (H (hann01 (Some false)) [] (VOne (XF (-1))) eq_refl).
  assert (L : xlt (XF (-1)) (XF 0)) by (split; [constructor; lra|intros F; injection F as F; lra]).
  destruct (C45_extremes Hann 0 1 (XF (-1)) ltac:(lra)) as [E _]. destruct (E L) as [E' _].
  unfold feature_evaluate in H. cbn [mapR bindR values_map kernel_evaluate hann01 k_kernel] in H. rewrite E' in H. cbn [bindR reduce all_some the_one] in H.
  unfold reduce_numbers in H. cbn [fold_left finish least] in H. injection H as H. lra.
Qed.
(** Not so: the weights of features can always be combined.  A feature without kernels has the number 1 as its
    weight, which does not combine with the array of another feature. *)
Theorem C47_mixed_refuted :
  ~ (forall c specs fv, (forall n ks, In (n, ks) specs -> exists u r, dget string_dec n fv = Some u /\ feature_evaluate ks u = Ok r) ->
       exists r, channel_evaluate c specs fv = Ok r).
Proof.
  intros H. pose (l := VMany [XF 0; XF 1]).
  destruct (H Multiplication [("a", []); ("b", [hann01 None])]%string [("a", l); ("b", l)]%string) as [r E].
  - intros n ks [I|[I|[]]]; injection I as <- <-; exists l; eexists; (split; [reflexivity|]); reflexivity.
  - unfold channel_evaluate in E. cbn [mapR fst snd dget] in E. vm_compute in E. discriminate E.
Qed.
(** Kernels given as dictionaries: the ones that are understood, in order, each of the class named by its style,
    or else by its weight type; everything else is skipped, unless something is neither kernel nor
    dictionary. *)
Lemma weight_class_names s c : weight_class s = Some c <-> names_class s c.
Proof.
  unfold weight_class. split.
  - destruct (String.eqb_spec s "monotonic") as [->|]; [intros E; injection E as <-; constructor|].
    destruct (String.eqb_spec s "taper") as [->|]; [intros E; injection E as <-; constructor|].
    destruct (String.eqb_spec s "activation") as [->|]; [intros E; injection E as <-; constructor|discriminate].
  - intros []; reflexivity.
Qed.
Lemma class_of_asks d c : class_of d = Some c <-> asks_for d c.
Proof.
  assert (NE : forall c', ~ names_class "" c') by (intros c' H; inversion H).
  unfold class_of. destruct d as [st ty]. cbn [kd_style kd_weight_type]. split.
  - destruct (weight_class (text_of st)) as [c0|] eqn:W.
    + intros E. injection E as <-. apply weight_class_names in W. destruct st as [s|]; [|destruct (NE _ W)]. eapply asks_style; [reflexivity|exact W].
    + intros E. apply weight_class_names in E. destruct ty as [t|]; [|destruct (NE _ E)]. eapply asks_type; [|reflexivity|exact E]. cbn. intros s c' -> N. apply weight_class_names in N. cbn in W. congruence.
  - intros A. inversion A as [s c' E N|t c' F E N]; subst; cbn in *; subst.
    + cbn. apply weight_class_names in N. rewrite N. reflexivity.
    + cbn. apply weight_class_names in N. destruct (weight_class (text_of st)) as [c1|] eqn:W; [|exact N]. apply weight_class_names in W. destruct st as [s|]; [|destruct (NE _ W)]. destruct (F s c1 eq_refl W).
Qed.
Theorem C47_dictionaries : forall build l, ~ In GOther l -> exists ks, validate_kernels build l = Ok ks /\ kernels_made build l ks.
Proof.
  intros build. induction l as [|g l IH]; intros N; [exists []; split; [reflexivity|constructor]|].
  destruct (IH (fun I => N (or_intror I))) as (ks & E & M). destruct g as [k|d|]; cbn [validate_kernels].
  - exists (k :: ks). rewrite E. split; [reflexivity|constructor; exact M].
  - destruct (class_of d) as [c|] eqn:C.
    + apply class_of_asks in C. destruct (build c d) as [k|] eqn:B; [exists (k :: ks); rewrite E; split; [reflexivity|eapply made_dict; eassumption]|exists ks; split; [exact E|eapply made_refused; eassumption]].
    + exists ks. split; [exact E|]. apply made_unknown; [|exact M]. intros c A. apply class_of_asks in A. congruence.
  - exfalso. apply N. left. reflexivity.
Qed.
(** Not so: a dictionary with the default weight type gives a kernel that can be evaluated. *)
Theorem C47_default_dictionary_refuted :
  class_of (mkKdict None (Some "monotonic"%string)) = Some CMonotonic /\
  forall active v, kernel_evaluate (mkKernel KMonotonic active) v = Err NotImplementedError.
Proof. split; reflexivity. Qed.

Example C47_hyp :
  let ks := [hann01 None; mkKernel (KActivation HardTanh 1 HighCut (XF 0) (XF 1)) None] in
  let v := VMany [XF (-1); XN; XP] in
  (forall k x, In k ks -> value_in x v -> exists y, kernel_evaluate k x = Ok y /\ weight y) /\
  dget string_dec "coherence"%string [("coherence"%string, v)] = Some v /\ same_form v v.
Proof.
  split; [|split; [reflexivity|constructor; reflexivity]].
  intros k x [<-|[<-|[]]] I; cbn [value_in] in I; assert (N : x <> XNan) by (destruct I as [<-|[<-|[<-|[]]]]; discriminate);
    eexists; (split; [reflexivity|]); [apply C45_weights|apply C46_weights]; (assumption || lra).
Qed.

Print Assumptions C45_weights.
Print Assumptions C45_monotone.
Print Assumptions C45_extremes.
Print Assumptions C46_weights.
Print Assumptions C46_monotone.
Print Assumptions C46_extremes.
Print Assumptions C47_channel_weight.
Print Assumptions C47_order.
Print Assumptions C47_combination.
Print Assumptions C47_mixed_refuted.
