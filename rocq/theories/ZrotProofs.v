(** Lemmas for C52. *)
From Coq Require Import Lra.
From Verif Require Import PyBase Cplx ZrotModel ZrotSpec.
Local Open Scope R_scope.

Lemma sumC_zero n f : (forall k, (k < n)%nat -> f k = C0) -> sumC n f = C0.
Proof. induction n as [|n IH]; intros H; [reflexivity|]. cbn [sumC]. rewrite IH, H; [ring|lia|]. intros k L. apply H. lia. Qed.
Lemma sumC_one n f a : (a < n)%nat -> (forall k, (k < n)%nat -> k <> a -> f k = C0) -> sumC n f = f a.
Proof.
  induction n as [|n IH]; intros L H; [lia|]. cbn [sumC]. destruct (Nat.eq_dec a n) as [->|N].
  - rewrite sumC_zero; [ring|]. intros k Lk. apply H; lia.
  - rewrite IH; [|lia|intros k Lk Nk; apply H; lia]. rewrite (H n) by lia. ring.
Qed.
Lemma sumC_two n f a b : (a < n)%nat -> (b < n)%nat -> a <> b -> (forall k, (k < n)%nat -> k <> a -> k <> b -> f k = C0) -> sumC n f = Cadd (f a) (f b).
Proof.
  induction n as [|n IH]; intros La Lb N H; [lia|]. cbn [sumC]. destruct (Nat.eq_dec a n) as [->|Na].
  - rewrite (sumC_one n f b); [ring|lia|]. intros k Lk Nk. apply H; lia.
  - destruct (Nat.eq_dec b n) as [->|Nb].
    + rewrite (sumC_one n f a); [ring|lia|]. intros k Lk Nk. apply H; lia.
    + rewrite IH; [|lia|lia|exact N|intros k Lk N1 N2; apply H; lia]. rewrite (H n) by lia. ring.
Qed.
Lemma RtoC_0 : RtoC 0 = C0. Proof. reflexivity. Qed.
Lemma RtoC_1 : RtoC 1 = C1. Proof. reflexivity. Qed.
Lemma RtoC_opp x : RtoC (- x) = Copp (RtoC x).
Proof. unfold RtoC, Copp. cbn [fst snd]. f_equal. ring. Qed.

(** The azimuth of the input channel with this index. *)
Definition az_of (hx hy : zchan) (i : nat) : R := if Nat.eqb i (zc_index hx) then zc_az hx else zc_az hy.
Lemma deg2rad_minus a b : deg2rad (a - b) = deg2rad a - deg2rad b.
Proof. unfold deg2rad. field. Qed.
Lemma angle_shift a b g : (a - b) * PI / 180 = deg2rad (a - g) - deg2rad (b - g).
Proof. unfold deg2rad. field. Qed.
(** Two directions at a right angle. *)
Lemma right_angle_trig x y : cos (x - y) = 0 -> exists s, s * s = 1 /\ cos y = s * sin x /\ sin y = - s * cos x.
Proof.
  intros H. exists (sin (x - y)). pose proof (sin2_cos2 (x - y)) as S0. unfold Rsqr in S0. split; [rewrite H in S0; nra|].
  split.
  - replace y with (x - (x - y)) at 1 by ring. rewrite cos_minus, H. ring.
  - replace y with (x - (x - y)) at 1 by ring. rewrite sin_minus, H. ring.
Qed.
Lemma trig1 x : cos x * cos x + sin x * sin x = 1.
Proof. pose proof (sin2_cos2 x) as S0. unfold Rsqr in S0. lra. Qed.

(** The matrix of the magnetic channels, written out. *)
Lemma u_matrix_inv hx hy g : (zc_index hx < 2)%nat -> (zc_index hy < 2)%nat -> zc_index hx <> zc_index hy -> not_parallel hx hy ->
  exists u, u_matrix hx hy g = Ok u /\
    forall i j, (i < 2)%nat -> (j < 2)%nat ->
      cos (deg2rad (az_of hx hy i - g)) * u (zc_index hx) j + sin (deg2rad (az_of hx hy i - g)) * u (zc_index hy) j = (if Nat.eqb i j then 1 else 0).
Proof.
  intros Lx Ly N P. unfold u_matrix, not_parallel in *. rewrite (angle_shift _ _ g) in P.
  set (x := deg2rad (zc_az hx - g)) in *. set (y := deg2rad (zc_az hy - g)) in *. rewrite sin_minus in P.
  rewrite (proj2 (Nat.ltb_lt _ _) Lx), (proj2 (Nat.ltb_lt _ _) Ly). cbn [andb].
  assert (C : zc_index hx = 0%nat /\ zc_index hy = 1%nat \/ zc_index hx = 1%nat /\ zc_index hy = 0%nat) by lia.
  unfold az_of. destruct C as [[E1 E2]|[E1 E2]]; rewrite !E1, !E2; unfold inv2R; cbn [set_rmat eye Nat.eqb andb]; unfold set_rmat; cbn [Nat.eqb andb].
  - destruct (Req_EM_T (cos x * sin y - sin x * cos y) 0) as [Z|Z]; [exfalso; apply P; lra|]. eexists. split; [reflexivity|].
    intros i j Li Lj. destruct i as [|[|i]]; [| |lia]; destruct j as [|[|j]]; try lia; cbn [Nat.eqb]; fold x y; field; exact Z.
  - destruct (Req_EM_T (sin y * cos x - cos y * sin x) 0) as [Z|Z]; [exfalso; apply P; lra|]. eexists. split; [reflexivity|].
    intros i j Li Lj. destruct i as [|[|i]]; [| |lia]; destruct j as [|[|j]]; try lia; cbn [Nat.eqb]; fold x y; field; exact Z.
Qed.
Lemma right_not_parallel a b : right_angle a b -> not_parallel a b.
Proof. unfold right_angle, not_parallel. intros H Z. pose proof (trig1 ((zc_az a - zc_az b) * PI / 180)) as T. rewrite H, Z in T. lra. Qed.
Lemma not_parallel_az a b : not_parallel a b -> zc_az a <> zc_az b.
Proof. unfold not_parallel. intros H E. apply H. rewrite E. replace ((zc_az b - zc_az b) * PI / 180) with 0 by field. apply sin_0. Qed.
Lemma solve_pq c d p q s k l a b : c * c + d * d = 1 -> s * s = 1 -> c * p + d * q = k -> s * d * p + - s * c * q = l ->
  a = c * k + d * (s * l) -> b = d * k - c * (s * l) -> p = a /\ q = b.
Proof.
  intros T SS E1 E2 -> ->. subst k l. split.
  - transitivity ((c * c + d * d) * p); [rewrite T; ring|]. transitivity (c * (c * p + d * q) + d * ((s * s) * (d * p - c * q))); [rewrite SS; ring|ring].
  - transitivity ((c * c + d * d) * q); [rewrite T; ring|]. transitivity (d * (c * p + d * q) - c * ((s * s) * (d * p - c * q))); [rewrite SS; ring|ring].
Qed.
(** At a right angle the inverse is the transposed matrix. *)
Lemma u_right hx hy g u : (zc_index hx < 2)%nat -> (zc_index hy < 2)%nat -> zc_index hx <> zc_index hy -> right_angle hx hy -> u_matrix hx hy g = Ok u ->
  forall j, (j < 2)%nat -> u (zc_index hx) j = cos (deg2rad (az_of hx hy j - g)) /\ u (zc_index hy) j = sin (deg2rad (az_of hx hy j - g)).
Proof.
  intros Lx Ly N R0 U j Lj. destruct (u_matrix_inv hx hy g Lx Ly N (right_not_parallel _ _ R0)) as (u' & U' & E).
  rewrite U in U'. injection U' as <-. unfold right_angle in R0. rewrite (angle_shift _ _ g) in R0.
  destruct (right_angle_trig _ _ R0) as (s & SS & CY & SY). pose proof (trig1 (deg2rad (zc_az hx - g))) as T1.
  pose proof (E (zc_index hx) j Lx Lj) as Ex. pose proof (E (zc_index hy) j Ly Lj) as Ey. unfold az_of in *.
  rewrite Nat.eqb_refl in Ex. replace (Nat.eqb (zc_index hy) (zc_index hx)) with false in Ey by (symmetry; apply Nat.eqb_neq; lia).
  rewrite CY, SY in Ey. set (c := cos (deg2rad (zc_az hx - g))) in *. set (d := sin (deg2rad (zc_az hx - g))) in *.
  assert (C : j = zc_index hx \/ j = zc_index hy) by lia. destruct C as [-> | ->].
  - rewrite Nat.eqb_refl in *. replace (Nat.eqb (zc_index hy) (zc_index hx)) with false in Ey by (symmetry; apply Nat.eqb_neq; lia).
    set (p := u (zc_index hx) (zc_index hx)) in *. set (q := u (zc_index hy) (zc_index hx)) in *. fold c d.
    apply (solve_pq c d p q s 1 0 _ _ T1 SS Ex Ey); ring.
  - replace (Nat.eqb (zc_index hy) (zc_index hx)) with false in * by (symmetry; apply Nat.eqb_neq; lia).
    replace (Nat.eqb (zc_index hx) (zc_index hy)) with false in Ex by (symmetry; apply Nat.eqb_neq; lia). rewrite Nat.eqb_refl in Ey.
    rewrite CY, SY. set (p := u (zc_index hx) (zc_index hy)) in *. set (q := u (zc_index hy) (zc_index hy)) in *.
    apply (solve_pq c d p q s 0 1 _ _ T1 SS Ex Ey); ring.
Qed.

(** Entries of the rotated transfer function. *)
Lemma mul_cr2 t u k j : mul_cr 2 t (transp u) k j = Cadd (Cmul (t k 0%nat) (RtoC (u j 0%nat))) (Cmul (t k 1%nat) (RtoC (u j 1%nat))).
Proof. unfold mul_cr, transp. cbn [sumC]. ring. Qed.
Lemma v_matrix_ok n ex ey g : (2 <= zc_index ex < n + 2)%nat -> (2 <= zc_index ey < n + 2)%nat -> zc_index ex <> zc_index ey ->
  exists v, v_matrix n ex ey g = Ok v /\
    v (zc_index ex - 2)%nat (zc_index ex - 2)%nat = cos (deg2rad (zc_az ex - g)) /\
    v (zc_index ey - 2)%nat (zc_index ex - 2)%nat = sin (deg2rad (zc_az ex - g)) /\
    v (zc_index ex - 2)%nat (zc_index ey - 2)%nat = cos (deg2rad (zc_az ey - g)) /\
    v (zc_index ey - 2)%nat (zc_index ey - 2)%nat = sin (deg2rad (zc_az ey - g)) /\
    forall i k, i = (zc_index ex - 2)%nat \/ i = (zc_index ey - 2)%nat -> k <> (zc_index ex - 2)%nat -> k <> (zc_index ey - 2)%nat -> v i k = 0.
Proof.
  intros Lx Ly N. unfold v_matrix. set (a := (zc_index ex - 2)%nat). set (b := (zc_index ey - 2)%nat).
  assert (AB : a <> b) by (unfold a, b; lia). assert (La : (a < n)%nat) by (unfold a; lia). assert (Lb : (b < n)%nat) by (unfold b; lia).
  rewrite (proj2 (Nat.ltb_lt _ _) La), (proj2 (Nat.ltb_lt _ _) Lb). cbn [andb]. eexists. split; [reflexivity|].
  assert (ab : Nat.eqb a b = false) by (apply Nat.eqb_neq; exact AB). assert (ba : Nat.eqb b a = false) by (apply Nat.eqb_neq; lia).
  unfold set_rmat, eye. rewrite !Nat.eqb_refl, ?ab, ?ba. cbn [andb]. repeat split.
  intros i k I Ka Kb. rewrite (proj2 (Nat.eqb_neq k a) Ka), (proj2 (Nat.eqb_neq k b) Kb), !andb_false_r.
  destruct (Nat.eqb i k) eqn:E; [|reflexivity]. apply Nat.eqb_eq in E. exfalso. destruct I; subst; contradiction.
Qed.
Lemma rotate_tf_row n v u t a b i j : (a < n)%nat -> (b < n)%nat -> a <> b -> (forall k, k <> a -> k <> b -> v i k = 0) ->
  rotate_tf n v u t i j = Cadd (Cmul (RtoC (v i a)) (Cadd (Cmul (t a 0%nat) (RtoC (u j 0%nat))) (Cmul (t a 1%nat) (RtoC (u j 1%nat)))))
                               (Cmul (RtoC (v i b)) (Cadd (Cmul (t b 0%nat) (RtoC (u j 0%nat))) (Cmul (t b 1%nat) (RtoC (u j 1%nat))))).
Proof.
  intros La Lb N Z. unfold rotate_tf, mul_rc. rewrite (sumC_two n _ a b La Lb N).
  - rewrite !mul_cr2. reflexivity.
  - intros k Lk Na Nb. rewrite (Z k Na Nb), RtoC_0. ring.
Qed.
Lemma rotate_cov_diag n m s a b i : (a < n)%nat -> (b < n)%nat -> a <> b -> (forall k, (k < n)%nat -> k <> a -> k <> b -> m i k = 0) ->
  rotate_cov n m s i i = weighted s a b (m i a) (m i b).
Proof.
  intros La Lb N Z. unfold rotate_cov, mul_rc. rewrite (sumC_two n _ a b La Lb N).
  - unfold mul_cr, transp. rewrite !(sumC_two n _ a b La Lb N); [|intros k Lk Na Nb; rewrite (Z k Lk Na Nb), RtoC_0; ring..].
    unfold weighted. rewrite !RtoC_mul. ring.
  - intros k Lk Na Nb. rewrite (Z k Lk Na Nb), RtoC_0. ring.
Qed.
Lemma rotate_eye n u t k j : (k < n)%nat -> rotate_tf n eye u t k j = Cadd (Cmul (t k 0%nat) (RtoC (u j 0%nat))) (Cmul (t k 1%nat) (RtoC (u j 1%nat))).
Proof.
  intros L. unfold rotate_tf, mul_rc. rewrite (sumC_one n _ k L).
  - unfold eye at 1. rewrite Nat.eqb_refl, RtoC_1, mul_cr2. ring.
  - intros i Li N. unfold eye. replace (Nat.eqb k i) with false by (symmetry; apply Nat.eqb_neq; lia). rewrite RtoC_0. ring.
Qed.
Lemma rotate_cov_eye n s k : (k < n)%nat -> rotate_cov n eye s k k = s k k.
Proof.
  intros L. unfold rotate_cov, mul_rc. rewrite (sumC_one n _ k L).
  - unfold mul_cr, transp. rewrite (sumC_one n _ k L).
    + unfold eye. rewrite Nat.eqb_refl, RtoC_1. ring.
    + intros i Li N. unfold eye. replace (Nat.eqb k i) with false by (symmetry; apply Nat.eqb_neq; lia). rewrite RtoC_0. ring.
  - intros i Li N. unfold eye at 1. replace (Nat.eqb k i) with false by (symmetry; apply Nat.eqb_neq; lia). rewrite RtoC_0. ring.
Qed.

(** Everything [calculate_impedance] returns, for sensors that are not parallel. *)
Lemma impedance_entries n hx hy ex ey g t s e : numbered n hx hy ex ey -> not_parallel hx hy -> zc_az ex <> zc_az ey ->
  exists u z r, u_matrix hx hy g = Ok u /\ calculate_impedance n (Some hx) (Some hy) (Some ex) (Some ey) g t s e = Ok (Some (z, r)) /\
    (forall i j, z i j =
       let h := match j with O => zc_index hx | _ => zc_index hy end in
       let tr k := Cadd (Cmul (t k 0%nat) (RtoC (u h 0%nat))) (Cmul (t k 1%nat) (RtoC (u h 1%nat))) in
       let f := match i with O => cos | _ => sin end in
       Cadd (Cmul (RtoC (f (deg2rad (zc_az ex - g)))) (tr (zc_index ex - 2)%nat)) (Cmul (RtoC (f (deg2rad (zc_az ey - g)))) (tr (zc_index ey - 2)%nat))) /\
    (forall i j, r i j =
       let h := match j with O => zc_index hx | _ => zc_index hy end in
       let f := match i with O => cos | _ => sin end in
       sqrt (fst (Cmul (weighted e (zc_index ex - 2) (zc_index ey - 2) (f (deg2rad (zc_az ex - g))) (f (deg2rad (zc_az ey - g))))
                       (weighted s 0 1 (u h 0%nat) (u h 1%nat))))).
Proof.
  intros (Lx & Ly & N & Ex & Ey & NE) P A. destruct (u_matrix_inv hx hy g Lx Ly N P) as (u & U & _).
  destruct (v_matrix_ok n ex ey g Ex Ey NE) as (v & V & V1 & V2 & V3 & V4 & V0).
  exists u. unfold calculate_impedance. destruct (Req_EM_T (zc_az hx) (zc_az hy)) as [Z|_]; [destruct (not_parallel_az _ _ P Z)|].
  destruct (Req_EM_T (zc_az ex) (zc_az ey)) as [Z|_]; [contradiction|]. rewrite U, V. cbn [bindR].
  eexists. eexists. split; [reflexivity|]. split; [reflexivity|].
  assert (La : (zc_index ex - 2 < n)%nat) by lia. assert (Lb : (zc_index ey - 2 < n)%nat) by lia.
  assert (AB : (zc_index ex - 2)%nat <> (zc_index ey - 2)%nat) by lia. split.
  - intros i j. cbv zeta. rewrite (rotate_tf_row n v u t _ _ _ _ La Lb AB); [|intros k N1 N2; apply V0; [destruct i; auto|exact N1|exact N2]].
    destruct i as [|i]; rewrite ?V1, ?V2, ?V3, ?V4; reflexivity.
  - intros i j. cbv zeta. f_equal. f_equal. f_equal.
    + rewrite (rotate_cov_diag n v e _ _ _ La Lb AB); [|intros k _ N1 N2; apply V0; [destruct i; auto|exact N1|exact N2]].
      destruct i as [|i]; rewrite ?V1, ?V2, ?V3, ?V4; reflexivity.
    + apply (rotate_cov_diag 2 u s 0 1); [lia|lia|lia|]. intros k Lk N0 N1. lia.
Qed.
