(** Specification of the containers of a time series.  Of the model only the data types, the calls
    and the two look-ups [has_channel] and [get_channel] of a run appear here. *)
From Coq Require Import Permutation Sorted.
From Verif Require Import PyBase ContainerModel.
Open Scope string_scope.

Definition string_lt (a b : string) : Prop := String.compare a b = Lt.

(** Does this call add a channel named [c]? *)
Definition adds (c : string) (o : run_op) : Prop :=
  match o with
  | AddChannel ch _ => ch_comp ch = c
  | AddName s _ => slower s = c
  | RemoveChannel _ => False
  | MergeRun other _ => has_channel other c = true
  end.

(** Runs a user can have: new ones, changed by any call, also by assigning the lists of recorded
    channels and by [update]. *)
Inductive user_run : run -> Prop :=
| ur_new i : user_run (new_run i)
| ur_add r ch u : user_run r -> user_run (add_channel r ch u)
| ur_name r s u r' : user_run r -> add_name r s u = Ok r' -> user_run r'
| ur_remove r c : user_run r -> user_run (remove_channel r c)
| ur_merge r other b : user_run r -> user_run other -> user_run (merge_run r other b)
| ur_assign r k l r' : user_run r -> assign_recorded r k l = Ok r' -> user_run r'
| ur_update r other r' : user_run r -> user_run other -> update_run r other = Ok r' -> user_run r'.

(** The runs merged in are runs a user can have. *)
Definition good_op (o : run_op) : Prop :=
  match o with MergeRun other _ => user_run other | _ => True end.

Definition recorded (k : kind) (r : run) : list string :=
  match k with Electric => r_electric r | Magnetic => r_magnetic r | Auxiliary => r_auxiliary r end.

(** [p] covers [q]: a time of [q] that was never set (the default) is ignored. *)
Definition covers (p q : period) : Prop :=
  (p_start q <> default_time -> (p_start p <= p_start q)%Z) /\
  (p_end q <> default_time -> (p_end q <= p_end p)%Z).
(** [p] is no smaller than [q], except for an end of [q] that was never set. *)
Definition no_smaller (p q : period) : Prop := covers p q.

(** A child of a container that updates its period covers its own children. *)
Definition updates (o : run_op) : Prop :=
  match o with
  | AddChannel _ u | AddName _ u => u = true
  | RemoveChannel _ => True
  | MergeRun _ b => b = true
  end.

Definition encloses (r : run) : Prop :=
  forall c ch, get_channel r c = Ok (Some ch) -> covers (r_period r) (ch_period ch).

(** First occurrences. *)
Fixpoint first_occurrences (seen l : list string) : list string :=
  match l with
  | [] => []
  | x :: r => if in_dec string_dec x seen then first_occurrences seen r
              else x :: first_occurrences (x :: seen) r
  end.

(** Every channel sits under its own component name, once. *)
Definition keyed (d : dict chan) : Prop :=
  NoDup (dkeys d) /\ forall k ch, In (k, ch) d -> ch_comp ch = k.

(** Stations whose lists agree with their runs: every run sits under its own id, once; [run_list] is
    the ids in order; [channels_recorded] is the sorted union of the runs' channels. *)
Definition run_ok (r : run) : Prop := keyed (r_channels r).
Definition runs_ok (d : dict run) : Prop :=
  NoDup (dkeys d) /\ forall i r, In (i, r) d -> r_id r = i /\ run_ok r.
Definition consistent (s : station) : Prop :=
  runs_ok (s_runs s) /\ s_run_list s = dkeys (s_runs s) /\ s_channels s = estimate s.
