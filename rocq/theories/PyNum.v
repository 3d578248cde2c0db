(** Rounding of rational numbers, shared by the models.  Python floats are modelled by the
    rationals they stand for, so binary rounding is not modelled. *)
From Coq Require Export QArith Qround Lqa.
From Verif Require Import PyBase.

(** Python's [round(x)] and the rounding of [datetime.fromtimestamp]: to the nearest integer,
    ties to the even one. *)
Definition round_half_even (q : Q) : Z :=
  let f := Qfloor q in
  match Qcompare (q - inject_Z f) (1 # 2) with
  | Lt => f
  | Gt => (f + 1)%Z
  | Eq => if Z.even f then f else (f + 1)%Z
  end.

Lemma round_half_even_bound q :
  (inject_Z (round_half_even q) - (1 # 2) <= q /\ q <= inject_Z (round_half_even q) + (1 # 2))%Q.
Proof.
  unfold round_half_even.
  pose proof (Qfloor_le q) as H1. pose proof (Qlt_floor q) as H2.
  set (f := Qfloor q) in *.
  assert (H2' : (q < inject_Z f + 1)%Q) by (rewrite inject_Z_plus in H2; exact H2). clear H2.
  destruct (Qcompare_spec (q - inject_Z f) (1 # 2)) as [E|E|E]; [destruct (Z.even f)| |];
  rewrite ?inject_Z_plus; change (inject_Z 1) with 1%Q; split; lra.
Qed.

Lemma round_half_even_mono p q : (p <= q)%Q -> (round_half_even p <= round_half_even q)%Z.
Proof.
  intros H. unfold round_half_even.
  pose proof (Qfloor_resp_le _ _ H) as HF.
  set (f := Qfloor p) in *. set (g := Qfloor q) in *.
  destruct (Z.eq_dec f g) as [E|E].
  - rewrite <- E in *.
    destruct (Qcompare_spec (p - inject_Z f) (1 # 2)) as [Ep|Ep|Ep];
    destruct (Qcompare_spec (q - inject_Z f) (1 # 2)) as [Eq|Eq|Eq]; try destruct (Z.even f); try lia;
    exfalso; lra.
  - assert (f + 1 <= g)%Z by lia.
    destruct (Qcompare (p - inject_Z f) (1 # 2)); destruct (Qcompare (q - inject_Z g) (1 # 2));
    try destruct (Z.even f); try destruct (Z.even g); lia.
Qed.

Lemma round_half_even_Z z : round_half_even (inject_Z z) = z.
Proof.
  unfold round_half_even. rewrite Qfloor_Z.
  assert (E : (inject_Z z - inject_Z z == 0)%Q) by ring. rewrite E. reflexivity.
Qed.

#[global] Instance round_half_even_comp : Proper (Qeq ==> eq) round_half_even.
Proof.
  intros p q E. apply Z.le_antisymm; apply round_half_even_mono; rewrite E; apply Qle_refl.
Qed.
