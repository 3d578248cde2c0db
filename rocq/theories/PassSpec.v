(** Specification for C85 and C100: pass bands and sensitivities. *)
From Coq Require Import Reals List.
Import ListNotations.
Local Open Scope R_scope.

(** Frequencies in increasing order. *)
Definition increasing (fs : list R) : Prop := forall i j, (i < j < length fs)%nat -> nth i fs 0 < nth j fs 0.
(** The amplitudes from one place on. *)
Definition stretch (n i : nat) (amp w : list R) : Prop :=
  length w = n /\ forall k, (k < n)%nat -> nth k w 0 = nth (i + k) amp 0.
(** Flat: no amplitude is zero, and the logarithms of the smallest and the largest differ by no more than the
    tolerance, relative to that of the largest (which can not be the logarithm of one). *)
Definition flat (tol : R) (w : list R) : Prop :=
  (forall a, In a w -> 0 < a) /\
  exists lo hi, In lo w /\ In hi w /\ (forall a, In a w -> lo <= a <= hi) /\ hi <> 1 /\ Rabs (1 - ln lo / ln hi) <= tol.
Definition flat_at (tol : R) (n : nat) (amp : list R) (i : nat) : Prop := exists w, stretch n i amp w /\ flat tol w.
(** The average of a response. *)
Definition average (amp : list R) (m : R) : Prop := m * INR (length amp) = fold_right Rplus 0 amp.
(** A response that averages one without being zero anywhere, or is zero somewhere and averages zero. *)
Definition averages_one (amp : list R) : Prop :=
  (forall a, In a amp -> / 2000000 < a) /\ exists m, average amp m /\ Rabs (m - 1) <= / 2000000.
Definition averages_zero (amp : list R) : Prop :=
  (exists a, In a amp /\ a <= / 2000000) /\ exists m, average amp m /\ m <= / 2000000.
Definition amplitude_list (amp : list R) : Prop := forall a, In a amp -> 0 <= a.
(** Equal to within half a unit of that many digits after the first one. *)
Definition same_digits (n : nat) (x y : R) : Prop := Rabs (x - y) <= Rabs x * (/ 2 * / 10 ^ n).
(** Every d-th amplitude. *)
Definition sampled (d : nat) (amp dec : list R) : Prop :=
  (forall i, i < length dec <-> i * d < length amp)%nat /\ forall i, nth i dec 0 = nth (i * d) amp 0.
