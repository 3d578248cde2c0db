(** Model of /repo/mt_metadata/processing/aurora/run.py, station.py and stations.py: the stations of a
    processing configuration and their tabular form. *)
From Verif Require Import PyBase PyNum MTimeModel.
Open Scope string_scope.

(** Channel, aurora/channel.py 13-39. *)
Record chan : Type := mkChan { ch_id : string; ch_scale : Q }.
(** A time period: start and end as nanoseconds (see MTimeModel), common/time_period.py. *)
Definition tper : Type := (Z * Z)%type.
(** Run, run.py 13-75. *)
Record prun : Type := mkRun {
  r_id : string; r_input : list chan; r_output : list chan; r_periods : list tper; r_rate : Q }.
(** Station, station.py 16-69. *)
Record stn : Type := mkStn { s_id : string; s_path : string; s_remote : bool; s_runs : list prun }.

(** Run.channel_scale_factors, run.py 131-138. *)
Definition scale_factors (r : prun) : list (string * Q) :=
  fold_left (fun d c => dset string_dec (ch_id c) (ch_scale c) d) (r_input r ++ r_output r)%list [].
(** Run.set_channel_scale_factors, run.py 140-163. *)
Definition set_scale (d : list (string * Q)) (c : chan) : chan :=
  match dget string_dec (ch_id c) d with Some x => mkChan (ch_id c) x | None => c end.
Definition set_channel_scale_factors (d : list (string * Q)) (r : prun) : prun :=
  mkRun (r_id r) (map (set_scale d) (r_input r)) (map (set_scale d) (r_output r)) (r_periods r) (r_rate r).

(** One row of the table, station.py 164-175. *)
Record row : Type := mkRow {
  w_station : string; w_run : string; w_start : Z; w_end : Z; w_path : string; w_rate : Q;
  w_input : list string; w_output : list string; w_remote : bool; w_scale : list (string * Q) }.

(** Station.to_dataset_dataframe, station.py 140-184.  The times go through their texts and pandas, which
    keeps them (a table whose times are written with and without fractions of a second, which some versions
    of pandas refuse, is not modelled). *)
Definition run_rows (s : stn) (r : prun) : list row :=
  map (fun tp => mkRow (s_id s) (r_id r) (fst tp) (snd tp) (s_path s) (r_rate r)
                       (map ch_id (r_input r)) (map ch_id (r_output r)) (s_remote s) (scale_factors r))
      (r_periods r).
Definition to_dataframe (s : stn) : list row := flat_map (run_rows s) (s_runs s).

(** TimePeriod(start=str(entry.start), end=str(entry.end)): the texts are parsed, time_period.py 49-55 (the
    fields are validated in the order end, start). *)
Definition read_period (w : row) : result tper :=
  bindR (parse_stamp (w_end w)) (fun e => bindR (parse_stamp (w_start w)) (fun b => Ok (b, e))).

(** run_dict, station.py 124-138, and appending to the run found: with several runs of one name the last. *)
Definition find_run (i : string) (l : list prun) : option prun :=
  dget string_dec i (rev (map (fun r => (r_id r, r)) l)).
Fixpoint append_last (i : string) (tp : tper) (l : list prun) : list prun :=
  match l with
  | [] => []
  | r :: l' =>
      if existsb (fun r' => String.eqb (r_id r') i) l' then r :: append_last i tp l'
      else if String.eqb (r_id r) i then mkRun (r_id r) (r_input r) (r_output r) (r_periods r ++ [tp])%list (r_rate r) :: l'
      else r :: l'
  end.

(** Run(...) of a row: the channels from their names with the default factor 1.0, station.py 230-247. *)
Definition new_run (w : row) (tp : tper) : prun :=
  set_channel_scale_factors (w_scale w)
    (mkRun (w_run w) (map (fun i => mkChan i 1) (w_input w)) (map (fun i => mkChan i 1) (w_output w)) [tp] (w_rate w)).

(** One turn of the loop, station.py 221-248. *)
Definition read_row (runs : list prun) (w : row) : result (list prun) :=
  bindR (read_period w) (fun tp =>
    match find_run (w_run w) runs with
    | Some _ => Ok (append_last (w_run w) tp runs)
    | None => Ok (runs ++ [new_run w tp])%list
    end).
Definition read_rows (rows : list row) : result (list prun) :=
  fold_left (fun acc w => bindR acc (fun runs => read_row runs w)) rows (Ok []).

(** Station.from_dataset_dataframe, station.py 186-248. *)
Definition from_dataframe (rows : list row) (s : stn) : result stn :=
  match rows with
  | [] => Ok (mkStn (s_id s) (s_path s) (s_remote s) [])
  | w :: _ => bindR (read_rows rows) (fun runs => Ok (mkStn (w_station w) (w_path w) (w_remote w) runs))
  end.

(** Stations, stations.py 14-41. *)
Record stations : Type := mkStations { z_remote : list stn; z_local : stn }.
Definition blank_station : stn := mkStn "" "" false [].
Definition set_remote (s : stn) : stn := mkStn (s_id s) (s_path s) true (s_runs s).
(** add_remote with a Station, stations.py 98-119. *)
Definition add_remote (s : stn) (z : stations) : stations := mkStations (z_remote z ++ [set_remote s])%list (z_local z).

(** Stations.to_dataset_dataframe, stations.py 166-183. *)
Definition stations_to_dataframe (z : stations) : list row :=
  (to_dataframe (z_local z) ++ flat_map to_dataframe (z_remote z))%list.

(** Series.unique(): the first occurrences, in order. *)
Fixpoint unique (l : list string) : list string :=
  match l with
  | [] => []
  | x :: r => x :: filter (fun y => negb (String.eqb x y)) (unique r)
  end.
Definition rows_of (i : string) (rows : list row) : list row := filter (fun w => String.eqb (w_station w) i) rows.

(** Stations.from_dataset_dataframe, stations.py 137-164. *)
Definition stations_from_dataframe (rows : list row) (z : stations) : result stations :=
  match rows with
  | [] => Ok z
  | _ =>
      match unique (map w_station (filter (fun w => negb (w_remote w)) rows)) with
      | [] => Err IndexError
      | i :: _ =>
          bindR (from_dataframe (rows_of i rows) (z_local z)) (fun local =>
            fold_left (fun acc j => bindR acc (fun z' =>
                         bindR (from_dataframe (rows_of j rows) blank_station) (fun rr => Ok (add_remote rr z'))))
                      (unique (map w_station (filter w_remote rows))) (Ok (mkStations (z_remote z) local)))
      end
  end.

(** remote_dict and get_station, stations.py 121-135 and 185-210. *)
Definition get_station (i : string) (z : stations) : result stn :=
  if String.eqb (s_id (z_local z)) i then Ok (z_local z)
  else match dget string_dec i (rev (map (fun s => (s_id s, s)) (z_remote z))) with
       | Some s => Ok s
       | None => Err KeyError
       end.
