(** Model of the sorting of a directory of XML files into stations, runs and channels:
    /repo/mt_metadata/timeseries/tools/from_many_mt_files.py 76-234 (MT2StationXML).

    A directory is the list of its files "*.xml" in the order in which pathlib finds them; the stem of a file is its name without ".xml".  The pandas frame is
    the list of its rows; [sort_values] is an insertion sort (rows with the same run keep their order, which pandas does not promise).  The contents of the files
    are not modelled. *)
From Verif Require Import PyBase PyText JfileModel.
Local Open Scope list_scope.

Record file : Type := mkFile { f_dir : text; f_stem : text }.
Definition f_name (f : file) : text := f_stem f ++ txt ".xml".
Definition dots (s : text) : nat := count_occ ascii_dec s "."%char.
(** 76-101 *)
Definition is_filter (f : file) : bool := existsb (text_eqb (f_stem f)) [txt "filters"; txt "_filters"].
Definition is_survey (f : file) : bool := existsb (text_eqb (f_stem f)) [txt "survey"; txt "_survey"].
Definition is_station (f : file) : bool :=
  if existsb (text_eqb (f_stem f)) [txt "filters"; txt "_filters"; txt "_survey"; txt "survey"] then false else Nat.eqb (dots (f_stem f)) 0.
Definition is_run (f : file) : bool := Nat.eqb (dots (f_stem f)) 1.
Definition is_channel (f : file) : bool := Nat.ltb 1 (dots (f_stem f)).

(** 107-138 [make_df] *)
Record row : Type := mkRow { w_fn : file; w_station : text; w_run : option text; w_is_station : bool; w_is_run : bool; w_is_channel : bool; w_is_filters : bool; w_is_survey : bool }.
Definition part (n : nat) (s : text) : text := nth n (split_on "." s) [].
Definition make_row (f : file) : row :=
  mkRow f (part 0 (f_stem f)) (if is_run f || is_channel f then Some (part 1 (f_stem f)) else None) (is_station f) (is_run f) (is_channel f) (is_filter f) (is_survey f).
Definition make_df (files : list file) : list row := map make_row files.

(** 140-156; [.values[0]] of no rows is an IndexError. *)
Definition stations (df : list row) : list text := map w_station (filter w_is_station df).
Definition first_fn (l : list row) : result file := match l with r :: _ => Ok (w_fn r) | [] => Err IndexError end.
Definition survey (df : list row) : result file := first_fn (filter w_is_survey df).
Definition filters (df : list row) : result file := first_fn (filter w_is_filters df).

(** 158-170 [_get_runs] *)
Definition same_run (a : option text) (b : text) : bool := match a with Some a => text_eqb a b | None => false end.
Definition run_leb (a b : row) : bool := match w_run a, w_run b with Some a, Some b => text_leb a b | _, _ => true end.
Fixpoint insert_run (x : row) (l : list row) : list row :=
  match l with [] => [x] | y :: r => if run_leb x y then x :: l else y :: insert_run x r end.
Definition get_runs (df : list row) (station : text) : list row :=
  fold_right insert_run [] (filter (fun r => text_eqb (w_station r) station && w_is_run r) df).

(** 172-197 [_get_channels] *)
Definition order : list text := [txt "hx"; txt "hy"; txt "hz"; txt "ex"; txt "ey"].
Definition after_station (station : text) (f : file) : text := lower (skipn (length station) (f_name f)).
Definition get_channels (df : list row) (station run : text) : list file :=
  let rdf := map w_fn (filter (fun r => text_eqb (w_station r) station && same_run (w_run r) run && w_is_channel r) df) in
  flat_map (fun ch => match List.find (fun f => contains ch (after_station station f)) rdf with Some f => [f] | None => [] end) order.

(** 199-234 [sort_by_station]; [wanted] is the list of stations asked for, empty for all. *)
Definition station_files : Type := file * list (file * list file).
Record sorted_files : Type := mkSorted { d_survey : file; d_filters : file; d_stations : list station_files }.
Definition run_entry (df : list row) (station : text) (r : row) : file * list file :=
  (w_fn r, match w_run r with Some run => get_channels df station run | None => [] end).
Definition station_entry (df : list row) (station : text) : result station_files :=
  bindR (first_fn (filter (fun r => text_eqb (w_station r) station && w_is_station r) df)) (fun fn =>
  Ok (fn, map (run_entry df station) (get_runs df station))).
Definition sort_by_station (files : list file) (wanted : list text) : result sorted_files :=
  let df := make_df files in
  bindR (survey df) (fun s =>
  bindR (filters df) (fun f =>
  bindR (mapR (station_entry df) (match wanted with [] => stations df | _ => wanted end)) (fun l =>
  Ok (mkSorted s f l)))).
