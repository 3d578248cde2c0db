(** C52: rotation of the transfer functions of Z files to geographic coordinates. *)
From Coq Require Import Lra.
From Verif Require Import PyBase Cplx ZrotModel ZrotSpec ZrotProofs.
Local Open Scope R_scope.

Lemma input_reading_az hx hy g i fx fy : input_reading hx hy g i fx fy = reading (az_of hx hy i - g) fx fy.
Proof. unfold input_reading, az_of. destruct (Nat.eqb i (zc_index hx)); reflexivity. Qed.
Lemma reading_back x y p q : cos (x - y) = 0 ->
  let ex := Cadd (Cmul (RtoC (cos x)) p) (Cmul (RtoC (cos y)) q) in
  let ey := Cadd (Cmul (RtoC (sin x)) p) (Cmul (RtoC (sin y)) q) in
  Cadd (Cmul (RtoC (cos x)) ex) (Cmul (RtoC (sin x)) ey) = p /\ Cadd (Cmul (RtoC (cos y)) ex) (Cmul (RtoC (sin y)) ey) = q.
Proof.
  intros H. cbv zeta. destruct (right_angle_trig _ _ H) as (s & SS & CY & SY). pose proof (trig1 x) as T. rewrite CY, SY.
  set (c := cos x) in *. set (d := sin x) in *.
  assert (TC : Cadd (Cmul (RtoC c) (RtoC c)) (Cmul (RtoC d) (RtoC d)) = C1) by (rewrite <- !RtoC_mul, <- RtoC_add, T; reflexivity).
  assert (SC : Cmul (RtoC s) (RtoC s) = C1) by (rewrite <- RtoC_mul, SS; reflexivity).
  replace (- s * c) with (- (s * c)) by ring. rewrite RtoC_opp, !RtoC_mul. set (C := RtoC c) in *. set (D := RtoC d) in *. set (S0 := RtoC s) in *. split.
  - transitivity (Cmul (Cadd (Cmul C C) (Cmul D D)) p); [ring|rewrite TC; ring].
  - transitivity (Cmul (Cmul (Cmul S0 S0) (Cadd (Cmul C C) (Cmul D D))) q); [ring|rewrite TC, SC; ring].
Qed.
Lemma right_shift a b g : right_angle a b -> cos (deg2rad (zc_az a - g) - deg2rad (zc_az b - g)) = 0.
Proof. unfold right_angle. rewrite (angle_shift _ _ g). exact (fun H => H). Qed.

(** ** Right angles *)
(** With horizontal sensors at right angles, in any orientation and order, the impedance agrees with the measured
    transfer function in every field, and is the only one that does. *)
Theorem C52_impedance n hx hy ex ey angle t s e : numbered n hx hy ex ey -> right_angle hx hy -> right_angle ex ey ->
  exists z err, calculate_impedance n (Some hx) (Some hy) (Some ex) (Some ey) angle t s e = Ok (Some (z, err)) /\
    consistent hx hy ex ey angle t z /\
    forall z', consistent hx hy ex ey angle t z' -> forall i j, (i < 2)%nat -> (j < 2)%nat -> z' i j = z i j.
Proof.
  intros Nu RH RE. pose proof Nu as (Lx & Ly & N & _).
  destruct (impedance_entries n hx hy ex ey angle t s e Nu (right_not_parallel _ _ RH) (not_parallel_az _ _ (right_not_parallel _ _ RE))) as (u & z & r & U & I & Z & _).
  exists z, r. split; [exact I|].
  pose proof (u_right hx hy angle u Lx Ly N RH U) as UR. destruct (UR 0%nat ltac:(lia)) as [A0 B0]. destruct (UR 1%nat ltac:(lia)) as [A1 B1].
  assert (CON : consistent hx hy ex ey angle t z).
  { intros bx by_. cbv zeta. rewrite !Z. cbv zeta. rewrite A0, A1, B0, B1. rewrite !input_reading_az. unfold predict, reading at 3 4 5 6. fold (deg2rad (az_of hx hy 0 - angle)) (deg2rad (az_of hx hy 1 - angle)).
    set (c0 := RtoC (cos (deg2rad (az_of hx hy 0 - angle)))). set (s0 := RtoC (sin (deg2rad (az_of hx hy 0 - angle)))).
    set (c1 := RtoC (cos (deg2rad (az_of hx hy 1 - angle)))). set (s1 := RtoC (sin (deg2rad (az_of hx hy 1 - angle)))).
    set (P := Cadd (Cmul (t (zc_index ex - 2)%nat 0%nat) (Cadd (Cmul c0 bx) (Cmul s0 by_))) (Cmul (t (zc_index ex - 2)%nat 1%nat) (Cadd (Cmul c1 bx) (Cmul s1 by_)))).
    set (Q := Cadd (Cmul (t (zc_index ey - 2)%nat 0%nat) (Cadd (Cmul c0 bx) (Cmul s0 by_))) (Cmul (t (zc_index ey - 2)%nat 1%nat) (Cadd (Cmul c1 bx) (Cmul s1 by_)))).
    unfold reading. fold (deg2rad (zc_az ex - angle)) (deg2rad (zc_az ey - angle)).
    destruct (reading_back _ _ P Q (right_shift ex ey angle RE)) as [R1 R2]. cbv zeta in R1, R2. split.
    - etransitivity; [|exact R1]. unfold P, Q. ring.
    - etransitivity; [|exact R2]. unfold P, Q. ring. }
  split; [exact CON|].
  (* uniqueness: the field of Ex, Ey follows from its readings *)
  assert (UN : forall z', consistent hx hy ex ey angle t z' -> forall bx by_,
     Cadd (Cmul (z' 0%nat 0%nat) bx) (Cmul (z' 0%nat 1%nat) by_) = Cadd (Cmul (z 0%nat 0%nat) bx) (Cmul (z 0%nat 1%nat) by_) /\
     Cadd (Cmul (z' 1%nat 0%nat) bx) (Cmul (z' 1%nat 1%nat) by_) = Cadd (Cmul (z 1%nat 0%nat) bx) (Cmul (z 1%nat 1%nat) by_)).
  { intros z' C' bx by_. destruct (CON bx by_) as [K1 K2]. destruct (C' bx by_) as [K1' K2']. rewrite <- K1 in K1'. rewrite <- K2 in K2'. clear K1 K2 C' CON.
    unfold reading in K1', K2'. fold (deg2rad (zc_az ex - angle)) (deg2rad (zc_az ey - angle)) in K1', K2'.
    set (X' := Cadd (Cmul (z' 0%nat 0%nat) bx) (Cmul (z' 0%nat 1%nat) by_)) in *. set (Y' := Cadd (Cmul (z' 1%nat 0%nat) bx) (Cmul (z' 1%nat 1%nat) by_)) in *.
    set (X := Cadd (Cmul (z 0%nat 0%nat) bx) (Cmul (z 0%nat 1%nat) by_)) in *. set (Y := Cadd (Cmul (z 1%nat 0%nat) bx) (Cmul (z 1%nat 1%nat) by_)) in *.
    destruct (right_angle_trig _ _ (right_shift ex ey angle RE)) as (sg & SS & CY & SY). rewrite CY, SY in K2'.
    pose proof (trig1 (deg2rad (zc_az ex - angle))) as T. set (c := cos (deg2rad (zc_az ex - angle))) in *. set (d := sin (deg2rad (zc_az ex - angle))) in *.
    assert (TC : Cadd (Cmul (RtoC c) (RtoC c)) (Cmul (RtoC d) (RtoC d)) = C1) by (rewrite <- !RtoC_mul, <- RtoC_add, T; reflexivity).
    assert (SC : Cmul (RtoC sg) (RtoC sg) = C1) by (rewrite <- RtoC_mul, SS; reflexivity).
    replace (- sg * c) with (- (sg * c)) in K2' by ring. rewrite RtoC_opp, !RtoC_mul in K2'.
    set (C := RtoC c) in *. set (D := RtoC d) in *. set (S0 := RtoC sg) in *.
    assert (X1 : forall a b, a = Cadd (Cmul C (Cadd (Cmul C a) (Cmul D b))) (Cmul (Cmul S0 D) (Cadd (Cmul (Cmul S0 D) a) (Cmul (Copp (Cmul S0 C)) b)))).
    { intros a b. transitivity (Cadd (Cmul (Cadd (Cmul C C) (Cmul (Cmul S0 S0) (Cmul D D))) a) (Cmul (Csub (Cmul C D) (Cmul (Cmul S0 S0) (Cmul C D))) b)); [rewrite SC|ring].
      transitivity (Cmul (Cadd (Cmul C C) (Cmul D D)) a); [rewrite TC; ring|ring]. }
    assert (Y1 : forall a b, b = Cadd (Cmul D (Cadd (Cmul C a) (Cmul D b))) (Cmul (Copp (Cmul S0 C)) (Cadd (Cmul (Cmul S0 D) a) (Cmul (Copp (Cmul S0 C)) b)))).
    { intros a b. transitivity (Cadd (Cmul (Cadd (Cmul D D) (Cmul (Cmul S0 S0) (Cmul C C))) b) (Cmul (Csub (Cmul C D) (Cmul (Cmul S0 S0) (Cmul C D))) a)); [rewrite SC|ring].
      transitivity (Cmul (Cadd (Cmul C C) (Cmul D D)) b); [rewrite TC; ring|ring]. }
    split.
    - rewrite (X1 X' Y'), (X1 X Y). rewrite K1', K2'. reflexivity.
    - rewrite (Y1 X' Y'), (Y1 X Y). rewrite K1', K2'. reflexivity. }
  intros z' C' i j Li Lj. destruct (UN z' C' C1 C0) as [E1 E2]. destruct (UN z' C' C0 C1) as [E3 E4].
  assert (s1 : forall a b, Cadd (Cmul a C1) (Cmul b C0) = a) by (intros; ring). assert (s2 : forall a b, Cadd (Cmul a C0) (Cmul b C1) = b) by (intros; ring).
  rewrite !s1 in E1, E2. rewrite !s2 in E3, E4.
  destruct i as [|[|i]]; [| |lia]; destruct j as [|[|j]]; try lia; assumption.
Qed.
(** The squared error of an impedance is the variance of the combination of outputs times that of the combination of
    inputs it belongs to. *)
Theorem C52_error n hx hy ex ey angle t s e : numbered n hx hy ex ey -> right_angle hx hy -> right_angle ex ey ->
  exists z err, calculate_impedance n (Some hx) (Some hy) (Some ex) (Some ey) angle t s e = Ok (Some (z, err)) /\
    forall i j, err i j =
      let f := match i with O => cos | _ => sin end in
      let g := match j with O => cos | _ => sin end in
      let az i := (if Nat.eqb i (zc_index hx) then zc_az hx else zc_az hy) - angle in
      sqrt (fst (Cmul (weighted e (zc_index ex - 2) (zc_index ey - 2) (f ((zc_az ex - angle) * PI / 180)) (f ((zc_az ey - angle) * PI / 180)))
                      (weighted s 0 1 (g (az 0%nat * PI / 180)) (g (az 1%nat * PI / 180))))).
Proof.
  intros Nu RH RE. pose proof Nu as (Lx & Ly & N & _).
  destruct (impedance_entries n hx hy ex ey angle t s e Nu (right_not_parallel _ _ RH) (not_parallel_az _ _ (right_not_parallel _ _ RE))) as (u & z & r & U & I & _ & R0).
  exists z, r. split; [exact I|]. intros i j. rewrite R0. cbv zeta.
  pose proof (u_right hx hy angle u Lx Ly N RH U) as UR. destruct (UR 0%nat ltac:(lia)) as [A0 B0]. destruct (UR 1%nat ltac:(lia)) as [A1 B1].
  destruct j as [|j]; [rewrite A0, A1|rewrite B0, B1]; reflexivity.
Qed.
(** The tipper gives the measured vertical field in every magnetic field; its error likewise. *)
Theorem C52_tipper n hx hy hz angle t s e : (zc_index hx < 2)%nat -> (zc_index hy < 2)%nat -> zc_index hx <> zc_index hy -> right_angle hx hy ->
  (2 <= zc_index hz < n + 2)%nat ->
  exists w err, calculate_tippers n hx hy (Some hz) angle t s e = Ok (Some (w, err)) /\
    (forall bx by_, Cadd (Cmul (w 0%nat) bx) (Cmul (w 1%nat) by_) =
                    predict t (zc_index hz - 2) (input_reading hx hy angle 0 bx by_) (input_reading hx hy angle 1 bx by_)) /\
    forall j, err j =
      let g := match j with O => cos | _ => sin end in
      let az i := (if Nat.eqb i (zc_index hx) then zc_az hx else zc_az hy) - angle in
      sqrt (fst (Cmul (e (zc_index hz - 2)%nat (zc_index hz - 2)%nat) (weighted s 0 1 (g (az 0%nat * PI / 180)) (g (az 1%nat * PI / 180))))).
Proof.
  intros Lx Ly N RH Lz. destruct (u_matrix_inv hx hy angle Lx Ly N (right_not_parallel _ _ RH)) as (u & U & _).
  pose proof (u_right hx hy angle u Lx Ly N RH U) as UR. destruct (UR 0%nat ltac:(lia)) as [A0 B0]. destruct (UR 1%nat ltac:(lia)) as [A1 B1].
  assert (Lk : (zc_index hz - 2 < n)%nat) by lia. unfold calculate_tippers. rewrite U. cbn [bindR]. rewrite (proj2 (Nat.ltb_lt _ _) Lk).
  eexists. eexists. split; [reflexivity|]. split.
  - intros bx by_. rewrite !(rotate_eye n u t _ _ Lk). rewrite A0, A1, B0, B1, !input_reading_az. unfold predict, reading.
    fold (deg2rad (az_of hx hy 0 - angle)) (deg2rad (az_of hx hy 1 - angle)). ring.
  - intros j. cbv zeta. rewrite (rotate_cov_eye n e _ Lk). f_equal. f_equal. f_equal.
    rewrite (rotate_cov_diag 2 u s 0 1); [|lia|lia|lia|intros k Lk0 N0 N1; lia]. destruct j as [|j]; [rewrite A0, A1|rewrite B0, B1]; reflexivity.
Qed.
Lemma cos_90 : cos (90 * PI / 180) = 0.
Proof. replace (90 * PI / 180) with (PI / 2) by field. apply cos_PI2. Qed.
Lemma sin_90 : sin (90 * PI / 180) = 1.
Proof. replace (90 * PI / 180) with (PI / 2) by field. apply sin_PI2. Qed.
(** Sensors along the axes: nothing changes. *)
Theorem C52_aligned n ihx ihy iex iey t s e :
  let hx := mkZchan ihx 0 in let hy := mkZchan ihy 90 in let ex := mkZchan iex 0 in let ey := mkZchan iey 90 in
  numbered n hx hy ex ey ->
  exists z err, calculate_impedance n (Some hx) (Some hy) (Some ex) (Some ey) 0 t s e = Ok (Some (z, err)) /\
    z 0%nat 0%nat = t (iex - 2)%nat ihx /\ z 0%nat 1%nat = t (iex - 2)%nat ihy /\ z 1%nat 0%nat = t (iey - 2)%nat ihx /\ z 1%nat 1%nat = t (iey - 2)%nat ihy.
Proof.
  cbv zeta. intros Nu.
  assert (RA : forall i j, right_angle (mkZchan i 0) (mkZchan j 90)).
  { intros i j. unfold right_angle. cbn [zc_az]. replace ((0 - 90) * PI / 180) with (- (90 * PI / 180)) by field. rewrite cos_neg. apply cos_90. }
  destruct (C52_impedance n _ _ _ _ 0 t s e Nu (RA _ _) (RA _ _)) as (z & r & I & _ & UN). exists z, r. split; [exact I|].
  unfold numbered in Nu. cbn [zc_index] in Nu.
  pose (z' := fun i j : nat => t (match i with O => (iex - 2)%nat | _ => (iey - 2)%nat end) (match j with O => ihx | _ => ihy end)).
  assert (CON : consistent (mkZchan ihx 0) (mkZchan ihy 90) (mkZchan iex 0) (mkZchan iey 90) 0 t z').
  { intros bx by_. cbv zeta. unfold input_reading, reading, predict, z'. cbn [zc_index zc_az].
    replace ((0 - 0) * PI / 180) with 0 by field. replace ((90 - 0) * PI / 180) with (90 * PI / 180) by field. rewrite cos_0, sin_0, cos_90, sin_90, RtoC_0, RtoC_1.
    assert (C : ihx = 0%nat /\ ihy = 1%nat \/ ihx = 1%nat /\ ihy = 0%nat) by lia. destruct C as [[-> ->]|[-> ->]]; cbn [Nat.eqb]; split; ring. }
  rewrite <- !(UN z' CON) by lia. repeat split.
Qed.

(** ** Other sensors *)
Lemma cancel2 a b c d x y : Csub (Cmul a d) (Cmul b c) <> C0 -> Cadd (Cmul a x) (Cmul b y) = C0 -> Cadd (Cmul c x) (Cmul d y) = C0 -> x = C0 /\ y = C0.
Proof.
  intros D E1 E2. assert (K : forall p q, p <> C0 -> Cmul p q = C0 -> q = C0).
  { intros p q P E. assert (NZ : Cnorm2 p <> 0).
    { intros Z. apply P. destruct p as [p1 p2]. unfold Cnorm2 in Z. cbn [fst snd] in Z. assert (p1 = 0) by nra. assert (p2 = 0) by nra. subst. reflexivity. }
    assert (Z : Cnorm2 q = 0). { apply (f_equal Cnorm2) in E. rewrite Cnorm2_mul in E. unfold C0 in E. unfold Cnorm2 in E at 3. cbn [fst snd] in E.
      replace (0 * 0 + 0 * 0) with 0 in E by ring. apply Rmult_integral in E. destruct E; [contradiction|assumption]. }
    destruct q as [q1 q2]. unfold Cnorm2 in Z. cbn [fst snd] in Z. assert (q1 = 0) by nra. assert (q2 = 0) by nra. subst. reflexivity. }
  split; apply (K _ _ D).
  - transitivity (Csub (Cmul d (Cadd (Cmul a x) (Cmul b y))) (Cmul b (Cadd (Cmul c x) (Cmul d y)))); [ring|rewrite E1, E2; ring].
  - transitivity (Csub (Cmul a (Cadd (Cmul c x) (Cmul d y))) (Cmul c (Cadd (Cmul a x) (Cmul b y)))); [ring|rewrite E1, E2; ring].
Qed.
Definition electric_det (ex ey : zchan) (t : cmat) : Cx :=
  Csub (Cmul (t (zc_index ex - 2)%nat 0%nat) (t (zc_index ey - 2)%nat 1%nat)) (Cmul (t (zc_index ex - 2)%nat 1%nat) (t (zc_index ey - 2)%nat 0%nat)).
(** Magnetic sensors that are neither parallel nor at a right angle: the impedance is wrong, whatever the (regular)
    transfer function. *)
Theorem C52_skew_magnetic_refuted n hx hy ex ey angle t s e : numbered n hx hy ex ey -> not_parallel hx hy -> ~ right_angle hx hy -> right_angle ex ey ->
  electric_det ex ey t <> C0 ->
  exists z err, calculate_impedance n (Some hx) (Some hy) (Some ex) (Some ey) angle t s e = Ok (Some (z, err)) /\ ~ consistent hx hy ex ey angle t z.
Proof.
  intros Nu NP NR RE DT. pose proof Nu as (Lx & Ly & N & _).
  destruct (impedance_entries n hx hy ex ey angle t s e Nu NP (not_parallel_az _ _ (right_not_parallel _ _ RE))) as (u & z & r & U & I & Z & _).
  exists z, r. split; [exact I|]. intros CON. apply NR. clear NR.
  assert (K : forall bx by_ i, (i < 2)%nat -> Cadd (Cmul (RtoC (u (zc_index hx) i)) bx) (Cmul (RtoC (u (zc_index hy) i)) by_) = input_reading hx hy angle i bx by_).
  { intros bx by_. destruct (CON bx by_) as [K1 K2]. rewrite !Z in K1, K2. cbv zeta in K1, K2.
    set (h0 := input_reading hx hy angle 0 bx by_) in *. set (h1 := input_reading hx hy angle 1 bx by_) in *.
    set (g0 := Cadd (Cmul (RtoC (u (zc_index hx) 0%nat)) bx) (Cmul (RtoC (u (zc_index hy) 0%nat)) by_)).
    set (g1 := Cadd (Cmul (RtoC (u (zc_index hx) 1%nat)) bx) (Cmul (RtoC (u (zc_index hy) 1%nat)) by_)).
    set (P := Cadd (Cmul (t (zc_index ex - 2)%nat 0%nat) g0) (Cmul (t (zc_index ex - 2)%nat 1%nat) g1)).
    set (Q := Cadd (Cmul (t (zc_index ey - 2)%nat 0%nat) g0) (Cmul (t (zc_index ey - 2)%nat 1%nat) g1)).
    unfold reading in K1, K2. fold (deg2rad (zc_az ex - angle)) (deg2rad (zc_az ey - angle)) in K1, K2.
    destruct (reading_back _ _ P Q (right_shift ex ey angle RE)) as [R1 R2]. cbv zeta in R1, R2.
    assert (P1 : P = predict t (zc_index ex - 2) h0 h1). { rewrite <- K1. etransitivity; [symmetry; exact R1|]. unfold P, Q, g0, g1. ring. }
    assert (Q1 : Q = predict t (zc_index ey - 2) h0 h1). { rewrite <- K2. etransitivity; [symmetry; exact R2|]. unfold P, Q, g0, g1. ring. }
    destruct (cancel2 _ _ _ _ (Csub g0 h0) (Csub g1 h1) DT) as [D0 D1].
    - transitivity (Csub P (predict t (zc_index ex - 2) h0 h1)); [unfold P, predict; ring|rewrite P1; ring].
    - transitivity (Csub Q (predict t (zc_index ey - 2) h0 h1)); [unfold Q, predict; ring|rewrite Q1; ring].
    - intros i Li. destruct i as [|[|i]]; [| |lia].
      + fold g0 h0. transitivity (Cadd (Csub g0 h0) h0); [ring|rewrite D0; ring].
      + fold g1 h1. transitivity (Cadd (Csub g1 h1) h1); [ring|rewrite D1; ring]. }
  assert (A : forall i, (i < 2)%nat -> u (zc_index hx) i = cos (deg2rad (az_of hx hy i - angle)) /\ u (zc_index hy) i = sin (deg2rad (az_of hx hy i - angle))).
  { intros i Li. pose proof (K C1 C0 i Li) as E1. pose proof (K C0 C1 i Li) as E2. rewrite input_reading_az in E1, E2. unfold reading in E1, E2.
    fold (deg2rad (az_of hx hy i - angle)) in E1, E2. split.
    - apply (f_equal fst) in E1. unfold Cadd, Cmul, RtoC, C1, C0 in E1. cbn [fst snd] in E1. lra.
    - apply (f_equal fst) in E2. unfold Cadd, Cmul, RtoC, C1, C0 in E2. cbn [fst snd] in E2. lra. }
  destruct (u_matrix_inv hx hy angle Lx Ly N NP) as (u' & U' & E). rewrite U in U'. injection U' as <-.
  pose proof (E (zc_index hx) (zc_index hy) Lx Ly) as EE. destruct (A (zc_index hy) Ly) as [AX AY]. rewrite AX, AY in EE.
  unfold az_of in EE. rewrite Nat.eqb_refl in EE. replace (Nat.eqb (zc_index hy) (zc_index hx)) with false in EE by (symmetry; apply Nat.eqb_neq; lia).
  replace (Nat.eqb (zc_index hx) (zc_index hy)) with false in EE by (symmetry; apply Nat.eqb_neq; lia).
  unfold right_angle. rewrite (angle_shift _ _ angle), cos_minus. exact EE.
Qed.
(** The same for electric sensors that are not at a right angle. *)
Theorem C52_skew_electric_refuted n hx hy ex ey angle t s e : numbered n hx hy ex ey -> right_angle hx hy -> zc_az ex <> zc_az ey -> ~ right_angle ex ey ->
  electric_det ex ey t <> C0 ->
  exists z err, calculate_impedance n (Some hx) (Some hy) (Some ex) (Some ey) angle t s e = Ok (Some (z, err)) /\ ~ consistent hx hy ex ey angle t z.
Proof.
  intros Nu RH AE NR DT. pose proof Nu as (Lx & Ly & N & _).
  destruct (impedance_entries n hx hy ex ey angle t s e Nu (right_not_parallel _ _ RH) AE) as (u & z & r & U & I & Z & _).
  exists z, r. split; [exact I|]. intros CON. apply NR. clear NR.
  pose proof (u_right hx hy angle u Lx Ly N RH U) as UR. destruct (UR 0%nat ltac:(lia)) as [A0 B0]. destruct (UR 1%nat ltac:(lia)) as [A1 B1].
  (* a field in which ex reads 0 and ey reads the determinant *)
  set (a := t (zc_index ex - 2)%nat 0%nat) in *. set (b := t (zc_index ex - 2)%nat 1%nat) in *. set (c := t (zc_index ey - 2)%nat 0%nat) in *. set (d := t (zc_index ey - 2)%nat 1%nat) in *.
  assert (F : exists bx by_, input_reading hx hy angle 0 bx by_ = Copp b /\ input_reading hx hy angle 1 bx by_ = a).
  { pose proof (right_shift hx hy angle RH) as RS.
    assert (C : zc_index hx = 0%nat /\ zc_index hy = 1%nat \/ zc_index hx = 1%nat /\ zc_index hy = 0%nat) by lia.
    set (x := deg2rad (zc_az hx - angle)) in *. set (y := deg2rad (zc_az hy - angle)) in *.
    destruct C as [[E1 E2]|[E1 E2]]; unfold input_reading, reading; rewrite E1; cbn [Nat.eqb]; fold (deg2rad (zc_az hx - angle)) (deg2rad (zc_az hy - angle)); fold x y.
    - destruct (reading_back x y (Copp b) a RS) as [R1 R2]. cbv zeta in R1, R2. eexists. eexists. split; [exact R1|exact R2].
    - destruct (reading_back x y a (Copp b) RS) as [R1 R2]. cbv zeta in R1, R2. eexists. eexists. split; [exact R2|exact R1]. }
  destruct F as (bx & by_ & F0 & F1). destruct (CON bx by_) as [K1 _]. cbv zeta in K1. rewrite F0, F1 in K1. rewrite !Z in K1. cbv zeta in K1.
  rewrite A0, A1, B0, B1 in K1. unfold predict in K1. fold a b c d in K1. unfold input_reading in F0, F1.
  assert (F0' : Cadd (Cmul (RtoC (cos (deg2rad (az_of hx hy 0 - angle)))) bx) (Cmul (RtoC (sin (deg2rad (az_of hx hy 0 - angle)))) by_) = Copp b)
    by (unfold az_of; destruct (Nat.eqb 0 (zc_index hx)); exact F0).
  assert (F1' : Cadd (Cmul (RtoC (cos (deg2rad (az_of hx hy 1 - angle)))) bx) (Cmul (RtoC (sin (deg2rad (az_of hx hy 1 - angle)))) by_) = a)
    by (unfold az_of; destruct (Nat.eqb 1 (zc_index hx)); exact F1).
  unfold reading in K1. fold (deg2rad (zc_az ex - angle)) in K1.
  set (c0 := RtoC (cos (deg2rad (az_of hx hy 0 - angle)))) in *. set (s0 := RtoC (sin (deg2rad (az_of hx hy 0 - angle)))) in *.
  set (c1 := RtoC (cos (deg2rad (az_of hx hy 1 - angle)))) in *. set (s1 := RtoC (sin (deg2rad (az_of hx hy 1 - angle)))) in *.
  set (x := deg2rad (zc_az ex - angle)) in *. set (y := deg2rad (zc_az ey - angle)) in *.
  assert (K2 : Cmul (RtoC (cos x * cos y + sin x * sin y)) (Csub (Cmul a d) (Cmul b c)) = C0).
  { transitivity (Cadd (Cmul a (Copp b)) (Cmul b a)); [|ring]. rewrite <- K1.
    set (f0 := Cadd (Cmul c0 bx) (Cmul s0 by_)) in *. set (f1 := Cadd (Cmul c1 bx) (Cmul s1 by_)) in *.
    transitivity (Cadd (Cmul (RtoC (cos x)) (Cadd (Cmul (RtoC (cos x)) (Cadd (Cmul a f0) (Cmul b f1))) (Cmul (RtoC (cos y)) (Cadd (Cmul c f0) (Cmul d f1)))))
                       (Cmul (RtoC (sin x)) (Cadd (Cmul (RtoC (sin x)) (Cadd (Cmul a f0) (Cmul b f1))) (Cmul (RtoC (sin y)) (Cadd (Cmul c f0) (Cmul d f1)))))).
    - rewrite F0', F1'. rewrite RtoC_add, !RtoC_mul. ring.
    - unfold f0, f1. ring. }
  unfold right_angle. rewrite (angle_shift _ _ angle), cos_minus. fold x y.
  apply (f_equal Cnorm2) in K2. rewrite Cnorm2_mul in K2. unfold C0 in K2. unfold Cnorm2 at 3 in K2. cbn [fst snd] in K2.
  replace (0 * 0 + 0 * 0) with 0 in K2 by ring. apply Rmult_integral in K2. destruct K2 as [K2|K2].
  - unfold Cnorm2, RtoC in K2. cbn [fst snd] in K2. nra.
  - exfalso. apply DT. unfold electric_det. fold a b c d. destruct (Csub (Cmul a d) (Cmul b c)) as [p q]. unfold Cnorm2 in K2. cbn [fst snd] in K2.
    assert (p = 0) by nra. assert (q = 0) by nra. subst. reflexivity.
Qed.
(** Sensors with the same azimuth give no impedance; the check is missing for tippers, and opposite azimuths are
    not noticed: a singular matrix is inverted. *)
Theorem C52_parallel_refuted n hx hy ex ey hz angle t s e : (zc_index hx < 2)%nat -> (zc_index hy < 2)%nat -> zc_index hx <> zc_index hy ->
  (zc_az hx = zc_az hy -> calculate_impedance n (Some hx) (Some hy) (Some ex) (Some ey) angle t s e = Ok None /\
                          calculate_tippers n hx hy (Some hz) angle t s e = Err LinAlgError) /\
  (zc_az hy = zc_az hx + 180 -> zc_az ex <> zc_az ey -> calculate_impedance n (Some hx) (Some hy) (Some ex) (Some ey) angle t s e = Err LinAlgError).
Proof.
  intros Lx Ly N.
  assert (SING : sin (deg2rad (zc_az hx - angle) - deg2rad (zc_az hy - angle)) = 0 -> u_matrix hx hy angle = Err LinAlgError).
  { intros Z. unfold u_matrix. rewrite (proj2 (Nat.ltb_lt _ _) Lx), (proj2 (Nat.ltb_lt _ _) Ly). cbn [andb].
    set (x := deg2rad (zc_az hx - angle)) in *. set (y := deg2rad (zc_az hy - angle)) in *. rewrite sin_minus in Z.
    assert (C : zc_index hx = 0%nat /\ zc_index hy = 1%nat \/ zc_index hx = 1%nat /\ zc_index hy = 0%nat) by lia.
    destruct C as [[E1 E2]|[E1 E2]]; rewrite E1, E2; unfold inv2R, set_rmat; cbn [Nat.eqb andb];
      match goal with |- (if Req_EM_T ?d 0 then _ else _) = _ => destruct (Req_EM_T d 0) as [_|K]; [reflexivity|exfalso; apply K; lra] end. }
  split.
  - intros E. split.
    + unfold calculate_impedance. destruct (Req_EM_T (zc_az hx) (zc_az hy)); [reflexivity|contradiction].
    + unfold calculate_tippers. rewrite SING; [reflexivity|]. rewrite E. replace (_ - _) with 0 by ring. apply sin_0.
  - intros E AE. unfold calculate_impedance. destruct (Req_EM_T (zc_az hx) (zc_az hy)) as [Z|_]; [exfalso; lra|]. destruct (Req_EM_T (zc_az ex) (zc_az ey)); [contradiction|].
    rewrite SING; [reflexivity|]. rewrite E. replace (_ - _) with (- PI) by (unfold deg2rad; field). rewrite sin_neg, sin_PI. ring.
Qed.
(** What is written after reading are the rotated transfer functions with the azimuths of the sensors, so reading
    the written file rotates them once more: with all sensors turned by 90 degrees, the first element changes at
    every reading unless both diagonal elements are equal. *)
Theorem C52_read_again_refuted t s e s' e' :
  let hx := mkZchan 0 90 in let hy := mkZchan 1 180 in let hz := mkZchan 2 0 in let ex := mkZchan 3 90 in let ey := mkZchan 4 180 in
  t 1%nat 0%nat <> t 2%nat 1%nat ->
  exists t1 t2, dataset_tf 3 hx hy ex ey hz (read_angle false 0) t s e = Ok t1 /\ dataset_tf 3 hx hy ex ey hz (read_angle false 0) t1 s' e' = Ok t2 /\
    t2 1%nat 0%nat <> t1 1%nat 0%nat.
Proof.
  cbv zeta. intros D. set (hx := mkZchan 0 90). set (hy := mkZchan 1 180). set (ex := mkZchan 3 90). set (ey := mkZchan 4 180).
  assert (RA : forall i j, right_angle (mkZchan i 90) (mkZchan j 180)).
  { intros i j. unfold right_angle. cbn [zc_az]. replace ((90 - 180) * PI / 180) with (- (90 * PI / 180)) by field. rewrite cos_neg. apply cos_90. }
  assert (NU : numbered 3 hx hy ex ey) by (unfold numbered, hx, hy, ex, ey; cbn [zc_index]; lia).
  assert (STEP : forall t s e, exists t', dataset_tf 3 hx hy ex ey (mkZchan 2 0) (read_angle false 0) t s e = Ok t' /\ t' 1%nat 0%nat = t 2%nat 1%nat /\ t' 2%nat 1%nat = t 1%nat 0%nat).
  { clear. intros t s e. fold hx hy ex ey. unfold read_angle. unfold dataset_tf.
    assert (RA : forall i j, right_angle (mkZchan i 90) (mkZchan j 180)).
    { intros i j. unfold right_angle. cbn [zc_az]. replace ((90 - 180) * PI / 180) with (- (90 * PI / 180)) by field. rewrite cos_neg. apply cos_90. }
    assert (NU : numbered 3 hx hy ex ey) by (unfold numbered, hx, hy, ex, ey; cbn [zc_index]; lia).
    destruct (C52_impedance 3 hx hy ex ey 0 t s e NU (RA _ _) (RA _ _)) as (z & r & I & _ & UN). rewrite I. cbn [bindR].
    destruct (C52_tipper 3 hx hy (mkZchan 2 0) 0 t s e) as (w & r' & W & _); [cbn; lia|cbn; lia|cbn; lia|apply RA|cbn; lia|]. rewrite W. cbn [bindR].
    eexists. split; [reflexivity|]. unfold hx, ex, ey. cbn [zc_index Nat.sub Nat.eqb].
    pose (z' := fun i j : nat => match i, j with O, O => t 2%nat 1%nat | O, _ => Copp (t 2%nat 0%nat) | _, O => Copp (t 1%nat 1%nat) | _, _ => t 1%nat 0%nat end).
    assert (CON : consistent hx hy ex ey 0 t z').
    { intros bx by_. cbv zeta. unfold input_reading, reading, predict, z', hx, hy, ex, ey. cbn [zc_index zc_az Nat.eqb Nat.sub].
      replace ((90 - 0) * PI / 180) with (90 * PI / 180) by field. replace ((180 - 0) * PI / 180) with PI by field.
      rewrite cos_90, sin_90, cos_PI, sin_PI, RtoC_0, RtoC_1. replace (RtoC (-1)) with (Copp C1) by (unfold Copp, C1, RtoC; cbn [fst snd]; f_equal; ring).
      split; ring. }
    rewrite <- !(UN z' CON) by lia. split; reflexivity. }
  destruct (STEP t s e) as (t1 & E1 & A1 & B1). destruct (STEP t1 s' e') as (t2 & E2 & A2 & _).
  exists t1, t2. split; [exact E1|]. split; [exact E2|]. rewrite A2, A1, B1. exact D.
Qed.
(** With the declination, azimuths from magnetic north are taken as azimuths from geographic north: the impedance is
    the one of the sensors turned by the declination. *)
Theorem C52_declination n hx hy ex ey d t s e : numbered n hx hy ex ey -> right_angle hx hy -> right_angle ex ey ->
  let turned c := mkZchan (zc_index c) (zc_az c + d) in
  exists z err, calculate_impedance n (Some hx) (Some hy) (Some ex) (Some ey) (read_angle true d) t s e = Ok (Some (z, err)) /\
    consistent (turned hx) (turned hy) (turned ex) (turned ey) 0 t z.
Proof.
  intros Nu RH RE. cbv zeta. destruct (C52_impedance n hx hy ex ey (read_angle true d) t s e Nu RH RE) as (z & err & I & C & _). exists z, err. split; [exact I|].
  unfold consistent, input_reading in *. cbn [zc_index zc_az]. unfold read_angle in C.
  assert (E : forall c, zc_az c + d - 0 = zc_az c - -1 * d) by (intros c; ring). rewrite !E. exact C.
Qed.
(** Cases that meet the hypotheses. *)
Example C52_hyp : numbered 3 (mkZchan 0 30) (mkZchan 1 120) (mkZchan 3 45) (mkZchan 4 135) /\ right_angle (mkZchan 0 30) (mkZchan 1 120) /\
  numbered 2 (mkZchan 1 0) (mkZchan 0 90) (mkZchan 2 0) (mkZchan 3 90) /\
  ~ right_angle (mkZchan 0 0) (mkZchan 1 60) /\ not_parallel (mkZchan 0 0) (mkZchan 1 60) /\
  electric_det (mkZchan 2 0) (mkZchan 3 90) (fun i j => if Nat.eqb i j then C1 else C0) <> C0.
Proof.
  assert (Q0 : (0 - 60) * PI / 180 = - (PI / 3)) by field.
  split; [unfold numbered; cbn [zc_index]; lia|]. split.
  { unfold right_angle. cbn [zc_az]. replace ((30 - 120) * PI / 180) with (- (90 * PI / 180)) by field. rewrite cos_neg. apply cos_90. }
  split; [unfold numbered; cbn [zc_index]; lia|]. split.
  { unfold right_angle. cbn [zc_az]. rewrite Q0, cos_neg, cos_PI3. lra. }
  split.
  { unfold not_parallel. cbn [zc_az]. rewrite Q0, sin_neg, sin_PI3. pose proof (sqrt_lt_R0 3 ltac:(lra)). lra. }
  unfold electric_det. cbn [zc_index Nat.sub Nat.eqb]. intros E. apply (f_equal fst) in E. unfold Csub, Cadd, Copp, Cmul, C1, C0 in E. cbn [fst snd] in E. lra.
Qed.

Print Assumptions C52_impedance.
Print Assumptions C52_error.
Print Assumptions C52_tipper.
Print Assumptions C52_aligned.
Print Assumptions C52_skew_magnetic_refuted.
Print Assumptions C52_skew_electric_refuted.
Print Assumptions C52_parallel_refuted.
Print Assumptions C52_read_again_refuted.
Print Assumptions C52_declination.
