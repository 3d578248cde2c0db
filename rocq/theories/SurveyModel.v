(** Model of [Survey] (/repo/mt_metadata/timeseries/survey.py) and [Experiment] (experiment.py).
    A station is what a survey reads of it: id, latitude, longitude (degrees, rationals) and time
    period; its runs are in ContainerModel.v.  Keys are ids, as there. *)
From Verif Require Import PyBase PyNum ContainerModel.
Open Scope string_scope.

Record site : Type := mkSite
  { st_id : string; st_lat : option Q; st_lon : option Q; st_period : period }.
(** [Station(id=i)]: latitude and longitude are 0.0 until set (common/location.py 22-34). *)
Definition new_site (i : string) : site := mkSite i (Some 0%Q) (Some 0%Q) default_period.

(** [southeast_corner] and [northwest_corner], survey.py. *)
Record corners : Type := mkCorners { se_lat : Q; se_lon : Q; nw_lat : Q; nw_lon : Q }.

(** Dates are day numbers since 1970 ([TimePeriodDate], common/time_period.py 61-125). *)
Record survey : Type := mkSurvey
  { sv_stations : dict site; sv_box : corners; sv_start : Z; sv_end : Z }.
Definition day_ns : Z := 86400000000000.
Definition default_day : Z := 3652.
Definition new_survey : survey := mkSurvey [] (mkCorners 0 0 0 0) default_day default_day.

(** Python's [min] / [max] of a list of floats. *)
Definition qmin (x : Q) (l : list Q) : Q := fold_left (fun m y => if Qle_bool m y then m else y) l x.
Definition qmax (x : Q) (l : list Q) : Q := fold_left (fun m y => if Qle_bool y m then m else y) l x.

(** The values that are not [None]. *)
Definition known (l : list (option Q)) : list Q :=
  flat_map (fun o => match o with Some q => [q] | None => [] end) l.

(** survey.py 698-717 [update_bounding_box]. *)
Definition update_box (s : survey) : survey :=
  match sv_stations s with
  | [] => s
  | _ =>
      let lat := known (map st_lat (dvals (sv_stations s))) in
      let lon := known (map st_lon (dvals (sv_stations s))) in
      let b := sv_box s in
      let b := match lat with
               | [] => b
               | x :: r => mkCorners (qmin x r) (se_lon b) (qmax x r) (nw_lon b)
               end in
      let b := match lon with
               | [] => b
               | x :: r => mkCorners (se_lat b) (qmax x r) (nw_lat b) (qmin x r)
               end in
      mkSurvey (sv_stations s) b (sv_start s) (sv_end s)
  end.

(** The date a time falls on ([MDate], [isodate]). *)
Definition date_of (t : Z) : Z := (t / day_ns)%Z.

(** survey.py 719-744 [update_time_period].  A date is compared with a time as its midnight; the
    comparison of a [str] with an [MTime] is the reflected one of mttime.py 648-712. *)
Definition update_dates (s : survey) : survey :=
  let ps := map st_period (dvals (sv_stations s)) in
  let starts := filter (fun t => negb (is_default t)) (map p_start ps) in
  let ends := filter (fun t => negb (is_default t)) (map p_end ps) in
  let a := match starts with
           | [] => sv_start s
           | x :: r => let m := zmin x r in
                       if (sv_start s =? default_day)%Z then date_of m
                       else if (m <? sv_start s * day_ns)%Z then date_of m else sv_start s
           end in
  let b := match ends with
           | [] => sv_end s
           | x :: r => let m := zmax x r in
                       if (sv_end s =? default_day)%Z then date_of m
                       else if negb (m <? sv_end s * day_ns)%Z then date_of m else sv_end s
           end in
  mkSurvey (sv_stations s) (sv_box s) a b.

(** survey.py 746-751 [update_all]. *)
Definition survey_update_all (s : survey) : survey := update_box (update_dates s).

(** [Station.update] (base/metadata.py 574-610): [None], 0.0 and default times are skipped.  What
    happens to the runs is in ContainerModel.v. *)
Definition overwrite_coord (old new : option Q) : option Q :=
  match new with
  | None => old
  | Some q => if Qeq_bool q 0 then old else new
  end.
Definition site_update (old new : site) : site :=
  mkSite (st_id old) (overwrite_coord (st_lat old) (st_lat new)) (overwrite_coord (st_lon old) (st_lon new))
         (overwrite_period (st_period old) (st_period new)).

Definition with_stations (s : survey) (d : dict site) : survey :=
  mkSurvey d (sv_box s) (sv_start s) (sv_end s).

(** survey.py 585-597 [has_station]. *)
Definition has_station (s : survey) (i : string) : bool := smem i (dkeys (sv_stations s)).

(** survey.py 614-639 [add_station]. *)
Definition add_station (s : survey) (x : site) (upd : bool) : survey :=
  let d := match sget (st_id x) (sv_stations s) with
           | Some old => sset (st_id x) (site_update old x) (sv_stations s)
           | None => sset (st_id x) x (sv_stations s)
           end in
  let s' := with_stations s d in
  if upd then update_dates (update_box s') else s'.

(** survey.py 658-673 [remove_station]. *)
Definition remove_station (s : survey) (i : string) (upd : bool) : survey :=
  if has_station s i then
    let s' := with_stations s (sdel i (sv_stations s)) in
    if upd then update_dates (update_box s') else s'
  else s.

(** survey.py 533-563 [merge]. *)
Definition merge_survey (s other : survey) : survey :=
  survey_update_all (with_stations s (dupdate string_dec (sv_stations s) (sv_stations other))).

Inductive survey_op : Type :=
| AddStation (x : site) | RemoveStation (i : string) | MergeSurvey (other : survey).
Definition survey_step (s : survey) (o : survey_op) : survey :=
  match o with
  | AddStation x => add_station s x true
  | RemoveStation i => remove_station s i true
  | MergeSurvey other => merge_survey s other
  end.
Definition survey_steps (s : survey) (ops : list survey_op) : survey := fold_left survey_step ops s.

(* ---------------------------------------------------------------- experiments *)

(** experiment.py 46-60: surveys under their ids. *)
Definition experiment : Type := dict survey.

(** experiment.py 105-116 [merge] ([ListDict.extend], list_dict.py 240-260). *)
Definition merge_experiment (e other : experiment) : experiment := dupdate string_dec e other.

(** [Survey.update] as far as the fields of the model go: stations are not merged (their dictionary
    has no [to_dict] value, list_dict.py) and the corners are taken over unless 0.0. *)
Definition overwrite_q (old new : Q) : Q := if Qeq_bool new 0 then old else new.
Definition survey_update (old new : survey) : survey :=
  mkSurvey (sv_stations old)
           (mkCorners (overwrite_q (se_lat (sv_box old)) (se_lat (sv_box new)))
                      (overwrite_q (se_lon (sv_box old)) (se_lon (sv_box new)))
                      (overwrite_q (nw_lat (sv_box old)) (nw_lat (sv_box new)))
                      (overwrite_q (nw_lon (sv_box old)) (nw_lon (sv_box new))))
           (sv_start new) (sv_end new).

(** experiment.py 193-213 [add_survey] and 232-250 [remove_survey]. *)
Definition add_survey (e : experiment) (i : string) (s : survey) : experiment :=
  match sget i e with
  | Some old => sset i (survey_update old s) e
  | None => sset i s e
  end.
Definition remove_survey (e : experiment) (i : string) : experiment :=
  if smem i (dkeys e) then sdel i e else e.
