(** Which weights a band should have. *)
From Coq Require Import Reals.
From Verif Require Import PyBase PyText.
Local Open Scope list_scope.
Local Open Scope R_scope.

(** The first of the frequencies that are nearest to [c] *)
Definition nearest (freqs : list R) (c : R) (i : nat) : Prop :=
  exists f, nth_error freqs i = Some f /\ (forall j g, nth_error freqs j = Some g -> Rabs (f - c) <= Rabs (g - c)) /\ (forall j g, (j < i)%nat -> nth_error freqs j = Some g -> Rabs (f - c) < Rabs (g - c)).
(** A dimension of frequencies has a name with "freq" in it. *)
Definition of_frequency (d : text) : Prop := exists a b, d = a ++ txt "freq" ++ b.
(** Frequencies in increasing order *)
Definition increasing (freqs : list R) : Prop := forall i j f g, (i < j)%nat -> nth_error freqs i = Some f -> nth_error freqs j = Some g -> f <= g.
