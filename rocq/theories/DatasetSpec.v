(** What the dataset theorems talk about. *)
From Verif Require Import PyBase PyNum MTimeModel DatasetModel.

(** A time a TimePeriod can hold: what reading some value gave. *)
Definition made_time (t : Z) : Prop := exists v, parse_stamp v = Ok t.

(** A run whose content fits in the table: it has a period and each of its channels occurs once. *)
Definition tabular_run (r : prun) : Prop :=
  r_periods r <> [] /\
  NoDup (map ch_id (r_input r) ++ map ch_id (r_output r)) /\
  forall b e, In (b, e) (r_periods r) -> made_time b /\ made_time e.
(** A station whose content fits in the table: it has a run, and its runs have different names. *)
Definition tabular (s : stn) : Prop :=
  s_runs s <> [] /\ NoDup (map r_id (s_runs s)) /\ Forall tabular_run (s_runs s).
(** Stations with different names, the remote ones marked as remote. *)
Definition tabular_stations (z : stations) : Prop :=
  tabular (z_local z) /\ s_remote (z_local z) = false /\
  Forall (fun s => tabular s /\ s_remote s = true) (z_remote z) /\
  NoDup (s_id (z_local z) :: map s_id (z_remote z)).

(** The recorded intervals of a table and of a station. *)
Definition row_intervals (rows : list row) : list (string * Z * Z) :=
  map (fun w => (w_run w, w_start w, w_end w)) rows.
Definition station_intervals (s : stn) : list (string * Z * Z) :=
  flat_map (fun r => map (fun tp => (r_id r, fst tp, snd tp)) (r_periods r)) (s_runs s).
(** [l] lists the elements of [m] once each, in the order of their first occurrence. *)
Inductive firsts : list string -> list string -> Prop :=
| firsts_nil : firsts [] []
| firsts_old : forall m l x, firsts m l -> In x m -> firsts (m ++ [x]) l
| firsts_new : forall m l x, firsts m l -> ~ In x m -> firsts (m ++ [x]) (l ++ [x]).
