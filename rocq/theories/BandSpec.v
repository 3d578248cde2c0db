(** Independent reading of bands: an interval of frequencies with one or both ends included. *)
From Coq Require Import Reals Qreals.
From Verif Require Import PyBase PyNum BandModel.

(** [x] lies in the band. *)
Local Open Scope nat_scope.
Definition in_band (b : band) (x : Q) : Prop :=
  (match b_closed b with CRight => f_min b < x | _ => f_min b <= x end)%Q /\
  (match b_closed b with CLeft => x < f_max b | _ => x <= f_max b end)%Q.

(** Some frequency lies in the band. *)
Definition nonempty_band (b : band) : Prop := exists x, in_band b x.

(** The frequency axis is nondecreasing. *)
Definition nondecreasing (l : list Q) : Prop :=
  forall (i j : nat) a b, (i <= j)%nat -> nth_error l i = Some a -> nth_error l j = Some b -> (a <= b)%Q.

(** Geometric centre of a row (lower, upper), a real number. *)
Definition center (e : Q * Q) : R := sqrt (Q2R (fst e) * Q2R (snd e)).

(** A list is ordered by a real-valued key. *)
Definition ordered_by {A : Type} (key : A -> R) (l : list A) : Prop :=
  forall (i j : nat) a b, (i <= j)%nat -> nth_error l i = Some a -> nth_error l j = Some b -> (key a <= key b)%R.
Definition ordered_down_by {A : Type} (key : A -> R) (l : list A) : Prop :=
  forall (i j : nat) a b, (i <= j)%nat -> nth_error l i = Some a -> nth_error l j = Some b -> (key b <= key a)%R.

Definition real_key (k : sort_key) : Q * Q -> R :=
  match k with ByLower => fun e => Q2R (fst e) | ByUpper => fun e => Q2R (snd e) | ByCenter => center end.

(** Frequencies are not negative. *)
Definition physical (rows : edges) : Prop := forall e, In e rows -> (0 <= fst e /\ 0 <= snd e)%Q.
