(** Specification for C52: what sensors measure. *)
From Verif Require Import PyBase Cplx ZrotModel.
Local Open Scope R_scope.
(** The reading of a horizontal sensor of azimuth [deg] (degrees from north) in the field with north component
    [fx] and east component [fy]. *)
Definition reading (deg : R) (fx fy : Cx) : Cx :=
  Cadd (Cmul (RtoC (cos (deg * PI / 180))) fx) (Cmul (RtoC (sin (deg * PI / 180))) fy).
(** The prediction of output channel [k] from the readings of the two input channels 0 and 1. *)
Definition predict (t : cmat) (k : nat) (h0 h1 : Cx) : Cx := Cadd (Cmul (t k 0%nat) h0) (Cmul (t k 1%nat) h1).
(** The readings of the input channels in the order of their numbers. *)
Definition input_reading (hx hy : zchan) (angle : R) (i : nat) (fx fy : Cx) : Cx :=
  if Nat.eqb i (zc_index hx) then reading (zc_az hx - angle) fx fy else reading (zc_az hy - angle) fx fy.
(** The impedance [z] in geographic coordinates agrees with the transfer function [t] of the sensors: in every
    magnetic field the electric field it gives has the readings that [t] predicts. *)
Definition consistent (hx hy ex ey : zchan) (angle : R) (t : cmat) (z : cmat) : Prop :=
  forall bx by_ : Cx,
    let e_x := Cadd (Cmul (z 0%nat 0%nat) bx) (Cmul (z 0%nat 1%nat) by_) in
    let e_y := Cadd (Cmul (z 1%nat 0%nat) bx) (Cmul (z 1%nat 1%nat) by_) in
    let h0 := input_reading hx hy angle 0 bx by_ in
    let h1 := input_reading hx hy angle 1 bx by_ in
    reading (zc_az ex - angle) e_x e_y = predict t (zc_index ex - 2) h0 h1 /\
    reading (zc_az ey - angle) e_x e_y = predict t (zc_index ey - 2) h0 h1.
(** Sensors at right angles. *)
Definition right_angle (a b : zchan) : Prop := cos ((zc_az a - zc_az b) * PI / 180) = 0.
Definition not_parallel (a b : zchan) : Prop := sin ((zc_az a - zc_az b) * PI / 180) <> 0.
(** Channel numbers as in a Z file: two inputs, then [n] outputs. *)
Definition numbered (n : nat) (hx hy ex ey : zchan) : Prop :=
  (zc_index hx < 2 /\ zc_index hy < 2 /\ zc_index hx <> zc_index hy /\
   2 <= zc_index ex < n + 2 /\ 2 <= zc_index ey < n + 2 /\ zc_index ex <> zc_index ey)%nat.
(** The variance of a weighted sum of two quantities with covariance matrix [m]: weights [a] and [b] at [i] and [j]. *)
Definition weighted (m : cmat) (i j : nat) (a b : R) : Cx :=
  Cadd (Cadd (Cmul (RtoC (a * a)) (m i i)) (Cmul (RtoC (a * b)) (m i j))) (Cadd (Cmul (RtoC (b * a)) (m j i)) (Cmul (RtoC (b * b)) (m j j))).
