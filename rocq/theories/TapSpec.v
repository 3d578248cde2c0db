(** What coefficients a window should have. *)
From Coq Require Import Reals.
From Verif Require Import PyBase PyText.
Local Open Scope list_scope.
Local Open Scope R_scope.

Fixpoint sum (l : list R) : R := match l with [] => 0 | x :: r => x + sum r end.
(** [t] is [raw], or if it is to be normalized a multiple of it that adds up to one. *)
Definition coefficients (norm : bool) (raw t : list R) : Prop := if norm then sum t = 1 /\ exists c, t = map (fun x => c * x) raw else t = raw.
