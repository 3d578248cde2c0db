(** What the estimates of a normalization frequency from a pass band are to be. *)
From Coq Require Import Reals.
From Verif Require Import PyBase PyText.
Local Open Scope R_scope.

Definition estimates : list text := map txt ["mean"; "median"; "min"; "max"]%string.
(** The number that an estimate is to give for a pass band from [lo] to [hi]. *)
Definition estimate_of (e : text) (lo hi x : R) : Prop :=
  (e = txt "mean" -> x = (lo + hi) / 2) /\ (e = txt "median" -> x = (lo + hi) / 2) /\ (e = txt "min" -> x = lo) /\ (e = txt "max" -> x = hi).
