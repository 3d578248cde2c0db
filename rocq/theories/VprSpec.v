(** What is to become of the engines of a configuration. *)
From Verif Require Import PyBase PyNum DatasetModel VprModel.
Local Open Scope list_scope.

(** Level by level the engine for one station stands in the place of that for a remote reference, and the others are as they were. *)
Definition single_station (old new : list engine) : Prop := length new = length old /\
  forall i, (nth_error old i = Some RME_RR -> nth_error new i = Some RME) /\ (forall e, e <> RME_RR -> nth_error old i = Some e -> nth_error new i = Some e).
(** No station in the configuration. *)
Definition no_stations (c : config) : Prop := z_remote (the_stations c) = [] /\ s_id (z_local (the_stations c)) = ""%string.
