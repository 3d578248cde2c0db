(** What a user expects of Fourier coefficient metadata. *)
From Verif Require Import PyBase ContainerModel FcModel.
Open Scope Z_scope.

(** Window number [k] (from 0), of [len] samples starting every [step] samples, lies inside [n] samples. *)
Definition window_fits (len step n k : Z) : Prop := 0 <= k * step /\ k * step + len <= n.
(** The first [m] windows fit. *)
Definition windows_fit (len step n m : Z) : Prop := forall k, 0 <= k < m -> window_fits len step n k.

(** The period of a parent covers the period of a child. *)
Definition covers (own child : period) : Prop := p_start own <= p_start child /\ p_end child <= p_end own.

(** The names listed are the names of the objects held. *)
Definition listed {A} (names : list string) (d : list (string * A)) : Prop :=
  forall k, In k names <-> exists v, In (k, v) d.

(** An assignment of [decimation_levels] gives every name once. *)
Definition no_repeats {L} (o : @fc_op L) : Prop := match o with OpAssign names => NoDup names | _ => True end.

(** Whether a level should be present after a history: added or named, and not removed since. *)
Definition present_step {L} (lid : L -> string) (k : string) (before : Prop) (o : @fc_op L) : Prop :=
  match o with
  | OpAdd l => lid l = k \/ before
  | OpRemove j => j <> k /\ before
  | OpAssign names => In k names \/ before
  | OpTouch => before
  end.
Definition present {L} (lid : L -> string) (k : string) (history : list (@fc_op L)) : Prop :=
  fold_left (present_step lid k) history False.
