(** What merging means: every input contributes its periods within its bounds. *)
From Coq Require Import QArith Sorted Permutation.
From Verif Require Import PyBase PyText TfModel TfSpec.
Local Open Scope nat_scope.

Section Numbers.
Variable num : nums.

(** An input of a merge: a TF and its bounds, which are inclusive. *)
Record input : Type := mkInput { i_tf : tf num; i_lo : option Q; i_hi : option Q }.
Definition within (lo hi : option Q) (q : Q) : Prop :=
  match lo with Some a => (a <= q)%Q | None => True end /\ match hi with Some b => (q <= b)%Q | None => True end.
(** A period of a TF, by its place, and one that is asked for. *)
Definition has_period (t : tf num) (p : nat) (q : Q) : Prop := nth_error (periods num t) p = Some q.
Definition wanted (i : input) (p : nat) (q : Q) : Prop := has_period (i_tf i) p q /\ within (i_lo i) (i_hi i) q.
(** The values of [t'] at period number [p'] are those of [t] at [p]. *)
Definition taken (t' : tf num) (p' : nat) (t : tf num) (p : nat) : Prop :=
  nth_error (periods num t') p' = nth_error (periods num t) p /\
  forall v o i, d_at num (t_data num t') v p' o i = d_at num (t_data num t) v p o i.
(** [t'] holds exactly the wanted rows of the inputs chosen: [src] says where each of its periods is from. *)
Definition holds (t' : tf num) (ins : list input) (chosen : nat -> Prop) : Prop :=
  exists src : list (nat * nat), length src = length (periods num t') /\ NoDup src /\
    (forall p' k p, nth_error src p' = Some (k, p) -> exists i, nth_error ins k = Some i /\ taken t' p' (i_tf i) p) /\
    (forall k p, In (k, p) src <-> chosen k /\ exists i q, nth_error ins k = Some i /\ wanted i p q).
Definition ordered (t : tf num) : Prop := StronglySorted Qle (periods num t).
(** The lowest period an input is asked for. *)
Definition lowest (i : input) (q : Q) : Prop := (exists p, wanted i p q) /\ forall p x, wanted i p x -> (q <= x)%Q.
(** The inputs that no later one begins at the same period with. *)
Definition last_there (ins : list input) (k : nat) : Prop :=
  k < length ins /\ forall j i i' q q', k < j -> nth_error ins k = Some i -> nth_error ins j = Some i' -> lowest i q -> lowest i' q' -> ~ (q == q')%Q.
(** Two inputs do not overlap. *)
Definition before (i i' : input) : Prop := forall p q p' q', wanted i p q -> wanted i' p' q' -> (q <= q')%Q.
Definition apart (i i' : input) : Prop :=
  (forall p q p' q', wanted i p q -> wanted i' p' q' -> (q < q')%Q) \/ (forall p q p' q', wanted i p q -> wanted i' p' q' -> (q' < q)%Q).
End Numbers.

(** The inputs of a call. *)
From Verif Require Import MergeModel.
Definition input_of {num} (i : item num) : option (input num) :=
  match i with
  | ITf _ t => Some (mkInput num t None None)
  | IDict _ t lo hi => Some (mkInput num t lo hi)
  | _ => None
  end.
Definition inputs {num} (self : tf num) (lo hi : option Q) (items : list (item num)) (ins : list (input num)) : Prop :=
  exists r, map input_of items = map Some r /\ ins = mkInput num self lo hi :: r /\
  Forall (fun i => d_labels num (t_data num (i_tf num i)) = d_labels num (t_data num self)) r.
