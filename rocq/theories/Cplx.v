(** Complex numbers as pairs of reals, for filter responses.  Floating-point rounding is not
    modelled. *)
From Coq Require Export Reals.
From Verif Require Import PyBase.
Local Open Scope R_scope.

Definition Cx : Type := (R * R)%type.
Definition C0 : Cx := (0, 0).
Definition C1 : Cx := (1, 0).
Definition RtoC (x : R) : Cx := (x, 0).
Definition Cadd (a b : Cx) : Cx := (fst a + fst b, snd a + snd b).
Definition Copp (a : Cx) : Cx := (- fst a, - snd a).
Definition Csub (a b : Cx) : Cx := Cadd a (Copp b).
Definition Cmul (a b : Cx) : Cx := (fst a * fst b - snd a * snd b, fst a * snd b + snd a * fst b).
Definition Cconj (a : Cx) : Cx := (fst a, - snd a).
Definition Cnorm2 (a : Cx) : R := fst a * fst a + snd a * snd a.
Definition Cabs (a : Cx) : R := sqrt (Cnorm2 a).
Definition Cinv (a : Cx) : Cx := (fst a / Cnorm2 a, - snd a / Cnorm2 a).
Definition Cdiv (a b : Cx) : Cx := Cmul a (Cinv b).
(** [np.exp(1j * t)] *)
Definition cis (t : R) : Cx := (cos t, sin t).

Lemma Cring : ring_theory C0 C1 Cadd Cmul Csub Copp (@eq Cx).
Proof.
  constructor; intros; unfold C0, C1, Cadd, Cmul, Csub, Copp, Cadd in *;
  try destruct x as [x1 x2]; try destruct y as [y1 y2]; try destruct z as [z1 z2]; cbn [fst snd];
  f_equal; ring.
Qed.
Add Ring CxRing : Cring.

Lemma Cmul_comm a b : Cmul a b = Cmul b a. Proof. ring. Qed.
Lemma Cmul_assoc a b c : Cmul a (Cmul b c) = Cmul (Cmul a b) c. Proof. ring. Qed.
Lemma Cmul_1_l a : Cmul C1 a = a. Proof. ring. Qed.
Lemma Cmul_1_r a : Cmul a C1 = a. Proof. ring. Qed.

Lemma cis_add s t : cis (s + t) = Cmul (cis s) (cis t).
Proof. unfold cis, Cmul; cbn [fst snd]. rewrite cos_plus, sin_plus. f_equal; ring. Qed.
Lemma cis_0 : cis 0 = C1.
Proof. unfold cis. now rewrite cos_0, sin_0. Qed.
Lemma cis_conj t : Cconj (cis t) = cis (- t).
Proof. unfold cis, Cconj; cbn [fst snd]. now rewrite cos_neg, sin_neg. Qed.
Lemma cis_norm2 t : Cnorm2 (cis t) = 1.
Proof.
  unfold Cnorm2, cis; cbn [fst snd]. pose proof (sin2_cos2 t) as H. unfold Rsqr in H. rewrite <- H. ring.
Qed.

Lemma Cnorm2_nonneg a : 0 <= Cnorm2 a.
Proof.
  unfold Cnorm2. apply Rplus_le_le_0_compat; [apply (Rle_0_sqr (fst a))|apply (Rle_0_sqr (snd a))].
Qed.
Lemma Cnorm2_mul a b : Cnorm2 (Cmul a b) = Cnorm2 a * Cnorm2 b.
Proof. unfold Cnorm2, Cmul; cbn [fst snd]. ring. Qed.
Lemma Cabs_mul a b : Cabs (Cmul a b) = Cabs a * Cabs b.
Proof. unfold Cabs. rewrite Cnorm2_mul. apply sqrt_mult; apply Cnorm2_nonneg. Qed.
Lemma Cabs_nonneg a : 0 <= Cabs a.
Proof. apply sqrt_pos. Qed.
Lemma Cabs_cis t : Cabs (cis t) = 1.
Proof. unfold Cabs. rewrite cis_norm2. apply sqrt_1. Qed.
Lemma Cabs_C1 : Cabs C1 = 1.
Proof. rewrite <- cis_0. apply Cabs_cis. Qed.
Lemma Cabs_RtoC x : Cabs (RtoC x) = Rabs x.
Proof.
  unfold Cabs, Cnorm2, RtoC; cbn [fst snd].
  replace (x * x + 0 * 0) with (Rsqr x) by (unfold Rsqr; ring). apply sqrt_Rsqr_abs.
Qed.
Lemma RtoC_mul x y : RtoC (x * y) = Cmul (RtoC x) (RtoC y).
Proof. unfold RtoC, Cmul; cbn [fst snd]. f_equal; ring. Qed.
Lemma RtoC_add x y : RtoC (x + y) = Cadd (RtoC x) (RtoC y).
Proof. unfold RtoC, Cadd; cbn [fst snd]. f_equal; ring. Qed.
Lemma Cinv_RtoC x : x <> 0 -> Cinv (RtoC x) = RtoC (/ x).
Proof. intros H. unfold Cinv, RtoC, Cnorm2; cbn [fst snd]. f_equal; field; auto. Qed.
Lemma Cinv_C1 : Cinv C1 = C1.
Proof. unfold Cinv, C1, Cnorm2; cbn [fst snd]. f_equal; field. Qed.
Lemma Cdiv_C1 a : Cdiv a C1 = a.
Proof. unfold Cdiv. rewrite Cinv_C1. apply Cmul_1_r. Qed.
