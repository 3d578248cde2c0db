(** What the properties of AVG files mean.  Nothing here refers to how a file is written or read. *)
From Coq Require Import Qabs Qreals.
From Verif Require Import PyBase PyText Cplx AvgHeadModel AvgModel.
From Coq Require Import Reals Lra.

(** Two frequencies that differ by more than a five-thousandth. *)
Definition apart (f g : Q) : Prop := (f * (5001 # 5000) < g \/ g * (5001 # 5000) < f)%Q.
Definition all_apart (l : list Q) : Prop := forall p q f g, nth_error l p = Some f -> nth_error l q = Some g -> p <> q -> apart f g.
(** Frequencies to five digits. *)
Definition near_freq (f f' : Q) : Prop := (Qabs (f' - f) <= (5 # 100000) * f)%Q.
Fixpoint rising (l : list Q) : Prop := match l with x :: (y :: _) as t => (x < y)%Q /\ rising t | _ => True end.
(** The frequencies that are read are those of the object, rising. *)
Definition freqs_back (l l' : list Q) : Prop :=
  rising l' /\ length l' = length l /\ forall k f', nth_error l' k = Some f' -> exists p f, nth_error l p = Some f /\ near_freq f f'.

(** The size of a complex number and how far a number read may be from it: 0.0071 percent of its size. *)
Definition size (x y : R) : R := sqrt (x * x + y * y).
Definition near (z : Q * Q) (c : option Cx) : Prop :=
  exists u v, c = Some (u, v) /\ (size (u - Q2R (fst z)) (v - Q2R (snd z)) <= 71 / 1000000 * size (Q2R (fst z)) (Q2R (snd z)))%R.
Definition opposite (z : Q * Q) : Q * Q := (- fst z, - snd z)%Q.
(** The functions that compute magnitude and phase (in milliradians) are accurate: magnitudes to nine digits, phases to a
    millionth of a milliradian. *)
Definition accurate (amp phase : Q -> Q -> Q) : Prop :=
  forall a b, let m := size (Q2R a) (Q2R b) in
    (Rabs (Q2R (amp a b) - m) <= / 1000000000 * m)%R /\
    exists t, Q2R a = (m * cos t)%R /\ Q2R b = (m * sin t)%R /\ (Rabs (Q2R (phase a b) - 1000 * t) <= / 1000000)%R.
