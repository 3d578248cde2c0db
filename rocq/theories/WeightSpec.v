(** What the theorems on weights talk about. *)
From Coq Require Import Reals.
From Verif Require Import PyBase WeightModel.
Open Scope R_scope.

(** A weight: a number between 0 and 1. *)
Definition weight (x : xr) : Prop := exists r, x = XF r /\ 0 <= r <= 1.
(** The order of numbers and infinities; nan is not comparable. *)
Inductive xle : xr -> xr -> Prop :=
| xle_low : forall v, v <> XNan -> xle XN v
| xle_high : forall v, v <> XNan -> xle v XP
| xle_fin : forall x y, x <= y -> xle (XF x) (XF y).
Definition xlt (a b : xr) : Prop := xle a b /\ a <> b.
(** The least weight of a window: a Hamming window does not go down to 0. *)
Definition least (st : taper_style) : R := match st with Hamming => 8 / 100 | _ => 0 end.
(** All the numbers in some values are weights. *)
Definition all_weights (v : values) : Prop :=
  match v with VOne x => weight x | VMany l => Forall weight l end.
(** A number of some values. *)
Definition value_in (x : xr) (v : values) : Prop := match v with VOne y => x = y | VMany l => In x l end.
(** Two results of the same form; one below the other in every place. *)
Inductive same_form : values -> values -> Prop :=
| same_one : forall x y, same_form (VOne x) (VOne y)
| same_many : forall l m, List.length l = List.length m -> same_form (VMany l) (VMany m).
Inductive num_le : xr -> xr -> Prop := num_le_fin : forall x y, x <= y -> num_le (XF x) (XF y).
Inductive values_le : values -> values -> Prop :=
| values_le_one : forall x y, num_le x y -> values_le (VOne x) (VOne y)
| values_le_many : forall l m, Forall2 num_le l m -> values_le (VMany l) (VMany m).
(** The weights an activation gives outside the transition: a sigmoid of half the steepness (the full steepness for tanh), 0.4 and
    0.6, or 0 and 1. *)
Definition act_least (st : activation_style) (s : R) : R :=
  match st with
  | Sigmoid => 1 / (1 + exp (s / 2))
  | HardSigmoid => 4 / 10
  | Tanh => 1 / (1 + exp s)
  | HardTanh => 0
  end.
(** The number at a place of some values (a single number has one place). *)
Definition place (j : nat) (v : values) : option xr :=
  match v with VOne x => match j with O => Some x | _ => None end | VMany l => nth_error l j end.
(** What a style of combination makes of some numbers. *)
Definition combined (c : combination) (rs : list R) (x : R) : Prop :=
  match c with
  | Multiplication => x = fold_right Rmult 1 rs
  | Minimum => In x rs /\ forall y, In y rs -> x <= y
  | Maximum => In x rs /\ forall y, In y rs -> y <= x
  | Mean => x * INR (List.length rs) = fold_right Rplus 0 rs
  end.
(** The class of kernels a word names. *)
Inductive names_class : string -> kclass -> Prop :=
| names_monotonic : names_class "monotonic" CMonotonic
| names_taper : names_class "taper" CTaper
| names_activation : names_class "activation" CActivation.
(** The class a dictionary asks for: the one its style names, or, if its style names none, the one its weight type names. *)
Inductive asks_for (d : kdict) : kclass -> Prop :=
| asks_style : forall s c, kd_style d = Some s -> names_class s c -> asks_for d c
| asks_type : forall t c, (forall s c', kd_style d = Some s -> ~ names_class s c') -> kd_weight_type d = Some t -> names_class t c -> asks_for d c.
(** The kernels made of what is given, in order: a kernel is kept, a dictionary gives a kernel of the class it asks for if that class
    accepts it, and nothing otherwise. *)
Inductive kernels_made (build : kclass -> kdict -> option wkernel) : list kgiven -> list wkernel -> Prop :=
| made_nil : kernels_made build [] []
| made_kernel : forall k l ks, kernels_made build l ks -> kernels_made build (GKernel k :: l) (k :: ks)
| made_dict : forall d c k l ks, asks_for d c -> build c d = Some k -> kernels_made build l ks -> kernels_made build (GKdict d :: l) (k :: ks)
| made_refused : forall d c l ks, asks_for d c -> build c d = None -> kernels_made build l ks -> kernels_made build (GKdict d :: l) ks
| made_unknown : forall d l ks, (forall c, ~ asks_for d c) -> kernels_made build l ks -> kernels_made build (GKdict d :: l) ks.
