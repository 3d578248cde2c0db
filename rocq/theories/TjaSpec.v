(** What a TF should hold after a file was read into it. *)
From Coq Require Import QArith.
From Verif Require Import PyBase PyText TfModel TfSpec.
Local Open Scope nat_scope.

Section Spec.
Variable num : nums.
(** The entries of [v] in these rows (for hx and hy) are those of the matrices, one for each period; errors are real. *)
Definition holds (t : tf num) (v : var) (outputs : list chan) (f : nat -> nat -> nat -> val num) : Prop :=
  forall p r c o i, nth_error outputs r = Some o -> nth_error [Hx; Hy] c = Some i ->
  entry num t v p o i = match v with VErr | VModel => real num (f p r c) | _ => f p r c end.
(** A TF as it is made by TF(), with the channel names of the default or of the user. *)
Definition untouched (t : tf num) : Prop := exists q, periods num t = [q] /\ (q == 1)%Q.
(** Electric channels and the vertical field. *)
Definition electric : list chan := [Ex; Ey].
Definition vertical : list chan := [Hz].
End Spec.
