(** What the metadata of a transfer function should look like after its setters. *)
From Verif Require Import PyBase ContainerModel TmetaModel.
Local Open Scope string_scope.
Local Open Scope list_scope.

(** Every run sits under its own id, once. *)
Definition ids_ok (d : dict run) : Prop := NoDup (dkeys d) /\ forall i r, In (i, r) d -> r_id r = i.
(** Every run has an object, and the list of runs has no more names than there are runs. *)
Definition station_fine (s : station) : Prop := ids_ok (s_runs s) /\ (List.length (s_run_list s) <= List.length (dkeys (s_runs s)))%nat.
Definition heap_fine (h : heap) : Prop := forall l n, look h l = Ok n -> station_fine (n_body n).
(** The ids of the runs of the station at a place *)
Definition runs_at (h : heap) (l : nat) (ids : list string) : Prop := exists n, look h l = Ok n /\ dkeys (s_runs (n_body n)) = ids.
(** The ids a station's runs have after it was given to a transfer function whose run was [cur] *)
Definition with_current (cur : string) (own : list string) : list string :=
  if string_dec cur "0" then match own with [] => ["0"] | _ => own end
  else cur :: filter (fun i => if string_dec i cur then false else true) own.
(** The key of every station is its id. *)
Definition keyed_by_id (h : heap) (d : stations) : Prop :=
  NoDup (dkeys d) /\ forall i l, In (i, l) d -> exists n, look h l = Ok n /\ n_id n = i.
Definition same_but_periods (h h' : heap) : Prop :=
  List.length h = List.length h' /\
  forall l n', look h' l = Ok n' -> exists n p, look h l = Ok n /\ n' = with_body (mkStation (s_runs (n_body n)) (s_run_list (n_body n)) (s_channels (n_body n)) p) n.
(** Every station has its runs under their ids. *)
Definition heap_ids (h : heap) : Prop := forall l n, look h l = Ok n -> ids_ok (s_runs (n_body n)).
(** Assignments of stations, names and runs; dictionaries name their runs by their ids. *)
Definition own_act (a : act) : Prop :=
  match a with
  | SetSurvey _ => False
  | SetStation (GDict n) => ids_ok (s_runs (n_body n))
  | _ => True
  end.
(** A name as an id: blanks are underscores. *)
Fixpoint id_of_name (s : string) : string :=
  match s with EmptyString => EmptyString | String c r => String (if Ascii.eqb c " " then "_"%char else c) (id_of_name r) end.
