(** When two transfer functions are the same to their user. *)
From Coq Require Import QArith.
From Verif Require Import PyBase PyText TfModel TfSpec.
Local Open Scope nat_scope.

Section Same.
Variable num : nums.
Variable alike : val num -> val num -> bool.
(** The same channels, the same periods, and the same values of the transfer function: of ex, ey and hz for hx and hy. *)
Definition same_function (t t' : tf num) : Prop :=
  (forall c, name (t_names num t) c = name (t_names num t') c) /\
  Forall2 Qeq (periods num t) (periods num t') /\
  forall p o i, p < List.length (periods num t) -> In o [Ex; Ey; Hz] -> In i [Hx; Hy] -> alike (entry num t VTf p o i) (entry num t' VTf p o i) = true.
End Same.
Definition equivalence {A} (r : A -> A -> bool) : Prop :=
  (forall a, r a a = true) /\ (forall a b, r a b = true -> r b a = true) /\ (forall a b c, r a b = true -> r b c = true -> r a c = true).
(** Whole numbers with nan, for examples. *)
Definition z_alike (a b : option Z) : bool :=
  match a, b with Some x, Some y => Z.eqb x y | None, None => true | _, _ => false end.
