(** What the theorems on spectra talk about: a sample of Fourier coefficients, one of each channel. *)
From Verif Require Import PyBase Cplx.
Local Open Scope R_scope.

Definition sample : Type := nat -> Cx.
Fixpoint csum {A : Type} (f : A -> Cx) (l : list A) : Cx :=
  match l with [] => C0 | x :: r => Cadd (f x) (csum f r) end.
(** The cross power of two quantities: the sum of [a] times the conjugate of [b]. *)
Definition power (xs : list sample) (a b : sample -> Cx) : Cx := csum (fun x => Cmul (a x) (Cconj (b x))) xs.
Definition ch (i : nat) : sample -> Cx := fun x => x i.
(** The square array that a file holds for these samples: powers on the diagonal, real parts of the cross
    powers below it and imaginary parts above it. *)
Definition spectra_of (xs : list sample) (i j : nat) : R :=
  if Nat.ltb i j then snd (power xs (ch j) (ch i)) else fst (power xs (ch i) (ch j)).
(** No cross power of the channels is zero or looks like the marker of missing values. *)
Definition usable (empty : R) (n : nat) (xs : list sample) : Prop :=
  forall i j, (i < n)%nat -> (j < n)%nat -> power xs (ch i) (ch j) <> C0 /\ power xs (ch i) (ch j) <> (empty, 0).
(** The matrix of cross powers of references and inputs is regular. *)
Definition regular (xs : list sample) (r1 r2 h1 h2 : nat) : Prop :=
  Csub (Cmul (power xs (ch r1) (ch h1)) (power xs (ch r2) (ch h2)))
       (Cmul (power xs (ch r1) (ch h2)) (power xs (ch r2) (ch h1))) <> C0.
(** What is left of channel [o] after the prediction with [a] and [b] from channels [h1] and [h2]. *)
Definition residual (o h1 h2 : nat) (a b : Cx) : sample -> Cx :=
  fun x => Csub (x o) (Cadd (Cmul a (x h1)) (Cmul b (x h2))).
