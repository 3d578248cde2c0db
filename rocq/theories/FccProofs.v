From Verif Require Import PyBase Cplx FccModel FccSpec.
From Coq Require Import Permutation Lra Lia.
Local Open Scope list_scope.
Local Open Scope R_scope.

Definition prod (p : Cx * Cx) : Cx := Cmul (fst p) (Cconj (snd p)).
Definition power (l : list Cx) : R := sumR (map Cnorm2 l).
Definition crossed (l : list (Cx * Cx)) : Cx := sumC (map prod l).
Lemma Cabs_sq a : Cabs a ^ 2 = Cnorm2 a.
Proof. cbn [pow]. rewrite Rmult_1_r. unfold Cabs. apply sqrt_sqrt, Cnorm2_nonneg. Qed.
Lemma Cnorm2_zero a : Cnorm2 a = 0 -> a = C0.
Proof. destruct a as [x y]. unfold Cnorm2, C0. cbn [fst snd]. intros H. assert (x = 0) by nra. assert (y = 0) by nra. subst. reflexivity. Qed.
Lemma Cnorm2_pos a : a <> C0 -> 0 < Cnorm2 a.
Proof. intros H. pose proof (Cnorm2_nonneg a). destruct (Req_dec (Cnorm2 a) 0) as [E|E]; [contradiction H; apply Cnorm2_zero; exact E|lra]. Qed.
Lemma power_nonneg l : 0 <= power l.
Proof. unfold power. induction l as [|a l IH]; cbn [map sumR fold_right]; [lra|]. pose proof (Cnorm2_nonneg a). unfold sumR in IH. lra. Qed.
Lemma power_zero l : power l = 0 -> Forall (eq C0) l.
Proof. induction l as [|a l IH]; [constructor|]. unfold power. cbn [map sumR fold_right]. change (fold_right Rplus 0 (map Cnorm2 l)) with (power l). intros H. pose proof (Cnorm2_nonneg a). pose proof (power_nonneg l). constructor; [symmetry; apply Cnorm2_zero; lra|apply IH; lra]. Qed.
Lemma power_dead l : Forall (eq C0) l -> power l = 0.
Proof. induction 1 as [|a l <- F IH]; [reflexivity|]. unfold power in *. cbn [map sumR fold_right]. unfold sumR in IH. rewrite IH. unfold Cnorm2, C0. cbn. ring. Qed.
(** The sum of the squares of [b x - s y]. *)
Lemma residual b s l : sumR (map (fun p => Cnorm2 (Csub (Cmul (RtoC b) (fst p)) (Cmul s (snd p)))) l) =
  b * b * power (map fst l) - 2 * b * (fst s * fst (crossed l) + snd s * snd (crossed l)) + Cnorm2 s * power (map snd l).
Proof.
  unfold power, crossed. induction l as [|[[x1 x2] [y1 y2]] l IH]; cbn [map sumR sumC fold_right fst snd]; [unfold C0; cbn [fst snd]; ring|].
  unfold sumR, sumC in IH. rewrite IH. generalize (fold_right Rplus 0 (map Cnorm2 (map fst l))), (fold_right Rplus 0 (map Cnorm2 (map snd l))), (fold_right Cadd C0 (map prod l)). intros A B [c1 c2]. destruct s as [s1 s2]. unfold prod, Csub, Cadd, Cmul, Cconj, Copp, RtoC, Cnorm2, C0. cbn [fst snd]. ring.
Qed.
Lemma residual_own l : sumR (map (fun p => Cnorm2 (Csub (Cmul (RtoC (power (map snd l))) (fst p)) (Cmul (crossed l) (snd p)))) l) = power (map snd l) * (power (map fst l) * power (map snd l) - Cnorm2 (crossed l)).
Proof. rewrite residual. set (B := power (map snd l)). set (A := power (map fst l)). destruct (crossed l) as [s t]. unfold Cnorm2. cbn [fst snd]. ring. Qed.
Lemma sumR_nonneg {A} (f : A -> R) l : (forall a, 0 <= f a) -> 0 <= sumR (map f l).
Proof. intros H. induction l as [|a l IH]; cbn [map sumR fold_right]; [lra|]. pose proof (H a). unfold sumR in IH. lra. Qed.
Lemma sumR_zero {A} (f : A -> R) l : (forall a, 0 <= f a) -> sumR (map f l) = 0 -> Forall (fun a => f a = 0) l.
Proof. intros H. induction l as [|a l IH]; [constructor|]. cbn [map sumR fold_right]. change (fold_right Rplus 0 (map f l)) with (sumR (map f l)). intros E. pose proof (H a). pose proof (sumR_nonneg f l H). constructor; [lra|apply IH; lra]. Qed.
Lemma crossed_dead l : Forall (eq C0) (map snd l) -> crossed l = C0.
Proof. induction l as [|[x y] l IH]; [reflexivity|]. cbn [map snd]. intros H. inversion H as [|? ? <- F]; subst. unfold crossed in *. cbn [map sumC fold_right]. unfold sumC in IH. rewrite (IH F). unfold prod, Cconj, Cmul, Cadd, C0. cbn [fst snd]. f_equal; ring. Qed.
Lemma crossed_dead_l l : Forall (eq C0) (map fst l) -> crossed l = C0.
Proof. induction l as [|[x y] l IH]; [reflexivity|]. cbn [map fst]. intros H. inversion H as [|? ? <- F]; subst. unfold crossed in *. cbn [map sumC fold_right]. unfold sumC in IH. rewrite (IH F). unfold prod, Cconj, Cmul, Cadd, C0. cbn [fst snd]. f_equal; ring. Qed.
Lemma cauchy_schwarz l : Cnorm2 (crossed l) <= power (map fst l) * power (map snd l).
Proof.
  pose proof (residual_own l) as E. pose proof (sumR_nonneg (fun p => Cnorm2 (Csub (Cmul (RtoC (power (map snd l))) (fst p)) (Cmul (crossed l) (snd p)))) l (fun _ => Cnorm2_nonneg _)) as P. rewrite E in P.
  pose proof (power_nonneg (map snd l)) as B. pose proof (power_nonneg (map fst l)) as A. destruct (Req_dec (power (map snd l)) 0) as [Z|Z].
  - rewrite (crossed_dead l (power_zero _ Z)), Z. unfold Cnorm2, C0. cbn. lra.
  - apply Rnot_lt_le. intros L. assert (0 < power (map snd l)) by lra. nra.
Qed.
(** Coherence without the means. *)
Lemma mean_powers l : l <> [] -> meanR (map (fun a => Cabs a ^ 2) l) = Some (power l / INR (List.length l)).
Proof. intros H. destruct l as [|a l]; [contradiction H; reflexivity|]. unfold meanR. cbn [map]. f_equal. unfold power. f_equal; [|cbn [List.length]; rewrite map_length; reflexivity]. cbn [map sumR fold_right]. f_equal; [apply Cabs_sq|]. f_equal. apply map_ext. intros x. apply Cabs_sq. Qed.
Lemma Cnorm2_RtoC r a : Cnorm2 (Cmul (RtoC r) a) = r * r * Cnorm2 a.
Proof. unfold Cnorm2, Cmul, RtoC. cbn [fst snd]. ring. Qed.
Lemma INR_pos n : n <> O -> 0 < INR n.
Proof. intros H. apply lt_0_INR. lia. Qed.
Lemma coherence_value x y : List.length x = List.length y -> coherence_at x y = if Req_EM_T (power x * power y) 0 then 0 else Cnorm2 (crossed (combine x y)) / (power x * power y).
Proof.
  intros L. destruct x as [|a x].
  - destruct y; [|discriminate L]. unfold coherence_at. cbn. destruct (Req_EM_T _ _) as [E|E]; [reflexivity|]. contradiction E. unfold power. cbn. ring.
  - destruct y as [|b y]; [discriminate L|]. unfold coherence_at. rewrite !mean_powers by discriminate. unfold meanC. cbn [combine map]. set (n := List.length (a :: x)).
    replace (List.length (b :: y)) with n by exact L.
    replace (List.length (Cmul (fst (a, b)) (Cconj (snd (a, b))) :: map (fun p => Cmul (fst p) (Cconj (snd p))) (combine x y))) with n by (unfold n; cbn [List.length] in L |- *; rewrite map_length, combine_length; injection L as L; rewrite <- L, Nat.min_id; reflexivity).
    change (sumC (Cmul (fst (a, b)) (Cconj (snd (a, b))) :: map (fun p => Cmul (fst p) (Cconj (snd p))) (combine x y))) with (crossed ((a, b) :: combine x y)).
    assert (N : 0 < INR n) by (apply INR_pos; discriminate). set (P := power (a :: x)). set (Q := power (b :: y)). rewrite Cabs_sq, Cnorm2_RtoC.
    destruct (Req_EM_T (P / INR n * (Q / INR n)) 0) as [E|E], (Req_EM_T (P * Q) 0) as [F|F]; [reflexivity| | |].
    + contradiction F. replace (P * Q) with (P / INR n * (Q / INR n) * (INR n * INR n)) by (field; lra). rewrite E. ring.
    + contradiction E. replace (P / INR n * (Q / INR n)) with (P * Q * (/ INR n * / INR n)) by (field; lra). rewrite F. ring.
    + assert (P <> 0) by (intros Z; apply F; rewrite Z; ring). assert (Q <> 0) by (intros Z; apply F; rewrite Z; ring). field. repeat split; first [assumption|lra].
Qed.
Lemma combine_fst {A B} (x : list A) (y : list B) : List.length x = List.length y -> map fst (combine x y) = x.
Proof. revert y. induction x as [|a x IH]; intros [|b y] L; try discriminate L; [reflexivity|]. cbn. f_equal. apply IH. injection L. tauto. Qed.
Lemma combine_snd {A B} (x : list A) (y : list B) : List.length x = List.length y -> map snd (combine x y) = y.
Proof. revert y. induction x as [|a x IH]; intros [|b y] L; try discriminate L; [reflexivity|]. cbn. f_equal. apply IH. injection L. tauto. Qed.
Lemma cs x y : List.length x = List.length y -> Cnorm2 (crossed (combine x y)) <= power x * power y.
Proof. intros L. pose proof (cauchy_schwarz (combine x y)) as H. rewrite combine_fst, combine_snd in H by exact L. exact H. Qed.
Lemma powers_pos x y : power x * power y <> 0 -> 0 < power x /\ 0 < power y.
Proof. intros H. pose proof (power_nonneg x). pose proof (power_nonneg y). split; [destruct (Req_dec (power x) 0) as [E|E]|destruct (Req_dec (power y) 0) as [E|E]]; try lra; contradiction H; rewrite E; ring. Qed.
Lemma bounds_at x y : List.length x = List.length y -> 0 <= coherence_at x y <= 1.
Proof.
  intros L. rewrite coherence_value by exact L. destruct (Req_EM_T _ _) as [E|E]; [lra|]. destruct (powers_pos x y E) as (P & Q). pose proof (cs x y L). pose proof (Cnorm2_nonneg (crossed (combine x y))). assert (0 < power x * power y) by nra.
  split; [apply Rle_mult_inv_pos; lra|]. apply Rmult_le_reg_r with (power x * power y); [lra|]. unfold Rdiv. rewrite Rmult_assoc, Rinv_l by lra. lra.
Qed.
Lemma zero_at x y : List.length x = List.length y -> coherence_at x y = 0 <-> crossed (combine x y) = C0.
Proof.
  intros L. rewrite coherence_value by exact L. destruct (Req_EM_T _ _) as [E|E].
  - split; [intros _|reflexivity]. apply Rmult_integral in E as [E|E]; [apply crossed_dead_l; rewrite combine_fst by exact L|apply crossed_dead; rewrite combine_snd by exact L]; apply power_zero; exact E.
  - split; [|intros ->; unfold Cnorm2, C0; cbn; unfold Rdiv; ring]. intros H. apply Cnorm2_zero. unfold Rdiv in H. apply Rmult_integral in H as [H|H]; [exact H|]. exfalso. exact (Rinv_neq_0_compat _ E H).
Qed.
Lemma crossed_swap l : crossed (map (fun p => (snd p, fst p)) l) = Cconj (crossed l).
Proof. unfold crossed. induction l as [|[x y] l IH]; [cbn [map sumC fold_right]; unfold C0, Cconj; cbn [fst snd]; f_equal; lra|]. cbn [map sumC fold_right fst snd]. unfold sumC in IH. rewrite IH. unfold prod, Cconj, Cadd, Cmul. cbn [fst snd]. f_equal; ring. Qed.
Lemma combine_swap {A B} (x : list A) (y : list B) : combine y x = map (fun p => (snd p, fst p)) (combine x y).
Proof. revert y. induction x as [|a x IH]; intros [|b y]; [reflexivity..|]. cbn. f_equal. apply IH. Qed.
Lemma swap_at x y : List.length x = List.length y -> coherence_at x y = coherence_at y x.
Proof.
  intros L. rewrite !coherence_value by (rewrite ?L; reflexivity). rewrite (combine_swap x y), crossed_swap. replace (Cnorm2 (Cconj (crossed (combine x y)))) with (Cnorm2 (crossed (combine x y))) by (unfold Cnorm2, Cconj; cbn [fst snd]; ring).
  rewrite (Rmult_comm (power y)). reflexivity.
Qed.
Lemma one_at x y : List.length x = List.length y -> coherence_at x y = 1 <-> power x <> 0 /\ exists c, c <> C0 /\ Forall (fun p => snd p = Cmul c (fst p)) (combine x y).
Proof.
  intros L. split.
  - intros H. rewrite swap_at in H by exact L. rewrite coherence_value in H by (symmetry; exact L). destruct (Req_EM_T _ _) as [E|E]; [lra|]. destruct (powers_pos y x E) as (Q & P). split; [lra|].
    assert (L' : List.length y = List.length x) by (symmetry; exact L). set (l := combine y x) in *. assert (EQ : Cnorm2 (crossed l) = power y * power x). { apply Rmult_eq_reg_r with (/ (power y * power x)); [|apply Rinv_neq_0_compat; exact E]. rewrite Rinv_r by exact E. exact H. }
    pose proof (residual_own l) as R. unfold l in R. rewrite combine_snd, combine_fst in R by exact L'. fold l in R. rewrite EQ, Rminus_diag_eq, Rmult_0_r in R by reflexivity. apply sumR_zero in R; [|intros; apply Cnorm2_nonneg].
    exists (Cmul (RtoC (/ power x)) (crossed l)). assert (N : crossed l <> C0) by (intros Z; rewrite Z in EQ; unfold Cnorm2, C0 in EQ; cbn in EQ; nra). split.
    + intros Z. apply N. apply Cnorm2_zero. assert (Y : Cnorm2 (Cmul (RtoC (/ power x)) (crossed l)) = 0) by (rewrite Z; unfold Cnorm2, C0; cbn; ring). rewrite Cnorm2_RtoC in Y. assert (0 < / power x) by (apply Rinv_0_lt_compat; exact P). apply Rmult_integral in Y as [Y|Y]; [apply Rmult_integral in Y; lra|exact Y].
    + rewrite (combine_swap y x). fold l. apply Forall_forall. intros p I. apply in_map_iff in I as (q & <- & I). rewrite Forall_forall in R. specialize (R q I). cbv beta in R. apply Cnorm2_zero in R. cbn [fst snd]. destruct q as [[b1 b2] [a1 a2]], (crossed l) as [s1 s2]. cbn [fst snd] in *. unfold Csub, Cadd, Copp, Cmul, RtoC, C0 in *. cbn [fst snd] in *. injection R as R1 R2.
      f_equal; apply Rmult_eq_reg_l with (power x); try lra; field_simplify; try lra.
  - intros (P & c & C & F). rewrite coherence_value by exact L.
    assert (K : power y = Cnorm2 c * power x /\ crossed (combine x y) = Cmul (RtoC (power x)) (Cconj c)).
    { clear P C. revert y L F. induction x as [|a x IH]; intros [|b y] L F; try discriminate L; [unfold power, crossed; cbn [combine map sumR sumC fold_right]; unfold Cmul, RtoC, Cconj, C0; cbn [fst snd]; split; [ring|f_equal; ring]|]. cbn [combine] in F. inversion F as [|? ? B F']; subst. cbn [fst snd] in B. subst b. injection L as L. destruct (IH y L F') as (U & V).
      unfold power, crossed in *. cbn [combine map sumR sumC fold_right]. unfold sumR, sumC in *. rewrite U, V. rewrite Cnorm2_mul. split; [ring|]. unfold prod, Cnorm2, Cmul, RtoC, Cconj, Cadd. cbn [fst snd]. f_equal; ring. }
    destruct K as (U & V). pose proof (Cnorm2_pos c C) as CP. pose proof (power_nonneg x). assert (0 < power x) by lra. rewrite U, V. rewrite Cnorm2_RtoC. replace (Cnorm2 (Cconj c)) with (Cnorm2 c) by (unfold Cnorm2, Cconj; cbn [fst snd]; ring).
    destruct (Req_EM_T _ _) as [E|E]; [exfalso; assert (0 < power x * (Cnorm2 c * power x)) by (apply Rmult_lt_0_compat; [lra|apply Rmult_lt_0_compat; lra]); lra|]. field. lra.
Qed.
Lemma scaled_at h g x y : h <> C0 -> g <> C0 -> List.length x = List.length y -> coherence_at (map (Cmul h) x) (map (Cmul g) y) = coherence_at x y.
Proof.
  intros H G L. rewrite !coherence_value by (rewrite ?map_length; exact L). pose proof (Cnorm2_pos h H). pose proof (Cnorm2_pos g G).
  assert (PW : forall k l, power (map (Cmul k) l) = Cnorm2 k * power l). { intros k l. unfold power. induction l as [|a l IH]; cbn [map sumR fold_right]; [ring|]. unfold sumR in IH. rewrite IH, Cnorm2_mul. ring. }
  assert (CR : crossed (combine (map (Cmul h) x) (map (Cmul g) y)) = Cmul (Cmul h (Cconj g)) (crossed (combine x y))).
  { clear L. revert y. induction x as [|a x IH]; intros [|b y]; try (unfold crossed; cbn [map combine sumC fold_right]; unfold Cmul, C0; cbn [fst snd]; f_equal; ring). unfold crossed in *. cbn [map combine sumC fold_right]. unfold sumC in IH. rewrite IH. unfold prod, Cmul, Cconj, Cadd. cbn [fst snd]. f_equal; ring. }
  rewrite !PW, CR, !Cnorm2_mul. replace (Cnorm2 (Cconj g)) with (Cnorm2 g) by (unfold Cnorm2, Cconj; cbn [fst snd]; ring).
  destruct (Req_EM_T (Cnorm2 h * power x * (Cnorm2 g * power y)) 0) as [E|E], (Req_EM_T (power x * power y) 0) as [F|F]; [reflexivity| | |].
  - contradiction F. apply Rmult_eq_reg_l with (Cnorm2 h * Cnorm2 g); [|nra]. lra.
  - contradiction E. replace (Cnorm2 h * power x * (Cnorm2 g * power y)) with (Cnorm2 h * Cnorm2 g * (power x * power y)) by ring. rewrite F. ring.
  - destruct (powers_pos x y F). field. lra.
Qed.
Lemma sumC_perm l l' : Permutation l l' -> sumC l = sumC l'.
Proof. induction 1 as [|a l l' _ IH|a b l|l l' l'' _ IH1 _ IH2]; unfold sumC in *; cbn [fold_right]; [reflexivity|rewrite IH; reflexivity|unfold Cadd; cbn [fst snd]; f_equal; ring|congruence]. Qed.
Lemma sumR_perm l l' : Permutation l l' -> sumR l = sumR l'.
Proof. induction 1 as [|a l l' _ IH|a b l|l l' l'' _ IH1 _ IH2]; unfold sumR in *; cbn [fold_right]; [reflexivity|rewrite IH; reflexivity|ring|congruence]. Qed.
Lemma perm_at x y x' y' : List.length x = List.length y -> List.length x' = List.length y' -> Permutation (combine x y) (combine x' y') -> coherence_at x y = coherence_at x' y'.
Proof.
  intros L L' P. rewrite !coherence_value by assumption. replace (crossed (combine x' y')) with (crossed (combine x y)) by (apply sumC_perm, Permutation_map; exact P).
  assert (A : power x = power x'). { unfold power. rewrite <- (combine_fst x y L), <- (combine_fst x' y' L'). apply sumR_perm. do 2 apply Permutation_map. exact P. }
  assert (B : power y = power y'). { unfold power. rewrite <- (combine_snd x y L), <- (combine_snd x' y' L'). apply sumR_perm. do 2 apply Permutation_map. exact P. }
  rewrite A, B. reflexivity.
Qed.
