(** Model of the containers of a time series: [Run] (/repo/mt_metadata/timeseries/run.py),
    [Station] (station.py) and [Survey] (survey.py).

    Simplifications.  A [ListDict] is an ordered string-keyed dictionary (ListDictModel.v models
    the class itself); the key of a child is its id or component at the time it is appended, and
    children are not renamed afterwards.  A time is the integer number of nanoseconds since 1970
    of an [MTime] in UTC.  All attributes of a channel or run other than the ones named here are
    one string, empty when unset. *)
From Verif Require Import PyBase PyText.
From Verif Require ListDictModel.
Open Scope string_scope.

Notation dict V := (list (string * V)).
Notation sget := (dget string_dec).
Notation sset := (dset string_dec).
Notation sdel := (ddel string_dec).
Notation sorted := ListDictModel.sort_strings.

(** Python's [k in list] for strings. *)
Definition smem (k : string) (l : list string) : bool := memb string_dec k l.

(* ---------------------------------------------------------------- time periods *)

(** common/time_period.py 17-58: [TimePeriod]. *)
Record period : Type := mkPeriod { p_start : Z; p_end : Z }.
(** "1980-01-01T00:00:00+00:00", common/mttime.py [_default_time]. *)
Definition default_time : Z := 315532800000000000.
Definition is_default (t : Z) : bool := (t =? default_time)%Z.
Definition default_period : period := mkPeriod default_time default_time.

(** Python's [min] / [max] of a list. *)
Definition zmin (x : Z) (l : list Z) : Z := fold_left Z.min l x.
Definition zmax (x : Z) (l : list Z) : Z := fold_left Z.max l x.

(** The body of [Run.update_time_period] (run.py 953-976) and of [Station.update_time_period]
    (station.py 433-452), given the children's periods.  [MTime.__gt__] is [not __lt__]
    (mttime.py 712). *)
Definition update_period (own : period) (children : list period) : period :=
  let starts := filter (fun t => negb (is_default t)) (map p_start children) in
  let ends := filter (fun t => negb (is_default t)) (map p_end children) in
  let s := match starts with
           | [] => p_start own
           | x :: r => let m := zmin x r in
                       if is_default (p_start own) then m
                       else if negb (p_start own <? m)%Z then m else p_start own
           end in
  let e := match ends with
           | [] => p_end own
           | x :: r => let m := zmax x r in
                       if is_default (p_end own) then m
                       else if (p_end own <? m)%Z then m else p_end own
           end in
  mkPeriod s e.

(** [MetadataBase.update] (base/metadata.py 574-610) on the two time attributes: a default time
    is skipped, anything else is assigned. *)
Definition overwrite_time (old new : Z) : Z := if is_default new then old else new.
Definition overwrite_period (old new : period) : period :=
  mkPeriod (overwrite_time (p_start old) (p_start new)) (overwrite_time (p_end old) (p_end new)).
Definition overwrite_info (old new : string) : string := if String.eqb new "" then old else new.

(* ---------------------------------------------------------------- channels *)

Inductive kind : Type := Electric | Magnetic | Auxiliary.
Definition kind_eqb (a b : kind) : bool :=
  match a, b with
  | Electric, Electric | Magnetic, Magnetic | Auxiliary, Auxiliary => true
  | _, _ => false
  end.

Record chan : Type := mkChan
  { ch_kind : kind; ch_comp : string; ch_period : period; ch_info : string }.

Definition slower (s : string) : string := string_of_list_ascii (lower (list_ascii_of_string s)).
Definition is_word (c : ascii) : bool := is_alpha c || is_digit c || Ascii.eqb c "_".
Definition starts_in (l : list ascii) (s : string) : bool :=
  match s with EmptyString => false | String c _ => existsb (Ascii.eqb c) l end.

(** Component patterns: electric.py 22, magnetic.py 22, channel.py 90 (on the lower-cased name,
    channel.py 255-262). *)
Definition pattern (k : kind) (s : string) : bool :=
  let cs := list_ascii_of_string s in
  match k with
  | Electric => starts_in ["e"%char] s && forallb is_word cs
  | Magnetic => starts_in ["h"%char; "b"%char; "r"%char] s && forallb is_word cs
  | Auxiliary => existsb is_word cs
  end.

(** [Electric(component=s)] and so on. *)
Definition make (k : kind) (s : string) : result chan :=
  let c := slower s in
  if pattern k c then Ok (mkChan k c default_period "") else Err ValueError.

(** run.py 1056-1066: the class chosen for a component given as a string. *)
Definition kind_of_name (s : string) : kind :=
  if starts_in ["e"%char] (slower s) then Electric
  else if starts_in ["h"%char] (slower s) || starts_in ["b"%char] (slower s)
          || String.eqb (slower s) "magnetic" then Magnetic
  else Auxiliary.
Definition from_name (s : string) : result chan := make (kind_of_name s) s.

(** run.py 1068-1087: the class chosen for a dictionary, from its "type" entry, or from the first
    letter of the component when that is [None]. *)
Definition kind_of_dict (ty : option string) (component : string) : result kind :=
  let choose (t : string) :=
    if starts_in ["e"%char] (slower t) then Electric
    else if starts_in ["b"%char] (slower t) || starts_in ["b"%char] (slower t)
            || String.eqb (slower t) "magnetic" then Magnetic
    else Auxiliary in
  match ty with
  | Some t => Ok (choose t)
  | None => match component with
            | EmptyString => Err IndexError
            | String c _ => Ok (choose (String c EmptyString))
            end
  end.
Definition from_dict (ty : option string) (component : string) : result chan :=
  bindR (kind_of_dict ty component) (fun k => make k component).

(** [Channel.update] (base/metadata.py 574-610): nothing happens for another class. *)
Definition chan_update (old new : chan) : chan :=
  if kind_eqb (ch_kind old) (ch_kind new)
  then mkChan (ch_kind old) (ch_comp old) (overwrite_period (ch_period old) (ch_period new))
              (overwrite_info (ch_info old) (ch_info new))
  else old.

(* ---------------------------------------------------------------- runs *)

Record run : Type := mkRun
  { r_id : string; r_channels : dict chan;
    r_electric : list string; r_magnetic : list string; r_auxiliary : list string;
    r_period : period; r_info : string }.

(** [Run(id=i)] *)
Definition new_run (i : string) : run := mkRun i [] [] [] [] default_period "".

Definition components (r : run) : list string := map ch_comp (dvals (r_channels r)).

(** run.py 78-86 [channels_recorded_all]. *)
Definition recorded_all (r : run) : list string := sorted (components r).

(** run.py 576-608 [has_channel]. *)
Definition has_channel (r : run) (c : string) : bool := smem c (recorded_all r).

(** run.py 649-685 [get_channel]; [self.channels[c]] raises KeyError for an unknown key. *)
Definition get_channel (r : run) (c : string) : result (option chan) :=
  if has_channel r c then
    match sget c (r_channels r) with Some ch => Ok (Some ch) | None => Err KeyError end
  else Ok None.

(** run.py 386-418 [_update_channels_recorded].  The three assignments rerun the validator of run.py
    300-316; it adds nothing because every name is a key of the dictionary. *)
Definition default_component (k : kind) : string :=
  match k with Electric => "e_default" | Magnetic => "h_default" | Auxiliary => "auxiliary_default" end.
Definition recorded_of (k : kind) (d : dict chan) : list string :=
  sorted (map ch_comp (filter (fun ch => kind_eqb (ch_kind ch) k
                                         && negb (String.eqb (ch_comp ch) (default_component k)))
                              (dvals d))).
Definition update_recorded (r : run) : run :=
  mkRun (r_id r) (r_channels r) (recorded_of Electric (r_channels r))
        (recorded_of Magnetic (r_channels r)) (recorded_of Auxiliary (r_channels r))
        (r_period r) (r_info r).

Definition with_channels (r : run) (d : dict chan) : run :=
  mkRun (r_id r) d (r_electric r) (r_magnetic r) (r_auxiliary r) (r_period r) (r_info r).
Definition with_run_period (r : run) (p : period) : run :=
  mkRun (r_id r) (r_channels r) (r_electric r) (r_magnetic r) (r_auxiliary r) p (r_info r).

(** run.py 953-976 [update_time_period]. *)
Definition run_update_period (r : run) : run :=
  match r_channels r with
  | [] => r
  | _ => with_run_period r (update_period (r_period r) (map ch_period (dvals (r_channels r))))
  end.

(** run.py 769-787 [add_channel] with a channel object. *)
Definition add_channel (r : run) (ch : chan) (upd : bool) : run :=
  let d := if has_channel r (ch_comp ch)
           then match sget (ch_comp ch) (r_channels r) with
                | Some old => sset (ch_comp ch) (chan_update old ch) (r_channels r)
                | None => r_channels r   (* KeyError; unreachable while keys are components *)
                end
           else sset (ch_comp ch) ch (r_channels r) in
  let r' := update_recorded (with_channels r d) in
  if upd then run_update_period r' else r'.
(** [add_channel] with a component name. *)
Definition add_name (r : run) (s : string) (upd : bool) : result run :=
  bindR (from_name s) (fun ch => Ok (add_channel r ch upd)).

(** run.py 822-828 [remove_channel]. *)
Definition remove_channel (r : run) (c : string) : run :=
  if has_channel r c then update_recorded (with_channels r (sdel c (r_channels r))) else r.

(** run.py 471-481 [merge]: the channels of [other] replace those under the same key; the time
    period is only updated in place. *)
Definition merge_run (r other : run) (inplace : bool) : run :=
  let r' := update_recorded (with_channels r (dupdate string_dec (r_channels r) (r_channels other))) in
  if inplace then run_update_period r' else r'.

(** run.py 300-316, one of the three loops of the after-assignment validator. *)
Fixpoint add_missing (k : kind) (r : run) (names : list string) : result run :=
  match names with
  | [] => Ok r
  | n :: ns =>
      if smem n (dkeys (r_channels r)) then add_missing k r ns
      else bindR (make k n) (fun ch => add_missing k (add_channel r ch true) ns)
  end.
Definition validate_recorded (r : run) : result run :=
  bindR (add_missing Electric r (r_electric r)) (fun r1 =>
  bindR (add_missing Magnetic r1 (r_magnetic r1)) (fun r2 =>
  add_missing Auxiliary r2 (r_auxiliary r2))).

(** Assignment to [channels_recorded_electric] and so on; the validators are rerun
    (base/metadata.py, [validate_assignment=True]). *)
Definition assign_recorded (r : run) (k : kind) (names : list string) : result run :=
  validate_recorded
    (match k with
     | Electric => mkRun (r_id r) (r_channels r) names (r_magnetic r) (r_auxiliary r) (r_period r) (r_info r)
     | Magnetic => mkRun (r_id r) (r_channels r) (r_electric r) names (r_auxiliary r) (r_period r) (r_info r)
     | Auxiliary => mkRun (r_id r) (r_channels r) (r_electric r) (r_magnetic r) names (r_period r) (r_info r)
     end).

(** run.py 549-574 [update]: unset values are skipped, the others assigned in the order of the
    attribute names (channels_recorded_*, then time_period); then every channel is added. *)
Definition assign_nonempty (r : run) (k : kind) (names : list string) : result run :=
  match names with [] => Ok r | _ => assign_recorded r k names end.
Definition update_run (r other : run) : result run :=
  bindR (assign_nonempty r Auxiliary (r_auxiliary other)) (fun r1 =>
  bindR (assign_nonempty r1 Electric (r_electric other)) (fun r2 =>
  bindR (assign_nonempty r2 Magnetic (r_magnetic other)) (fun r3 =>
  let r4 := mkRun (r_id r3) (r_channels r3) (r_electric r3) (r_magnetic r3) (r_auxiliary r3)
                  (overwrite_period (r_period r3) (r_period other))
                  (overwrite_info (r_info r3) (r_info other)) in
  Ok (fold_left (fun acc ch => add_channel acc ch true) (dvals (r_channels other)) r4)))).

(** One call on a run. *)
Inductive run_op : Type :=
| AddChannel (ch : chan) (upd : bool)
| AddName (s : string) (upd : bool)
| RemoveChannel (c : string)
| MergeRun (other : run) (inplace : bool).
Definition run_step (r : run) (o : run_op) : result run :=
  match o with
  | AddChannel ch u => Ok (add_channel r ch u)
  | AddName s u => add_name r s u
  | RemoveChannel c => Ok (remove_channel r c)
  | MergeRun other b => Ok (merge_run r other b)
  end.
Fixpoint run_steps (r : run) (ops : list run_op) : result run :=
  match ops with
  | [] => Ok r
  | o :: os => bindR (run_step r o) (fun r' => run_steps r' os)
  end.

(* ---------------------------------------------------------------- stations *)

Record station : Type := mkStation
  { s_runs : dict run; s_run_list : list string; s_channels : list string; s_period : period }.
Definition new_station : station := mkStation [] [] [] default_period.

Definition with_runs (s : station) (d : dict run) : station :=
  mkStation d (s_run_list s) (s_channels s) (s_period s).
Definition with_run_list (s : station) (l : list string) : station :=
  mkStation (s_runs s) l (s_channels s) (s_period s).
Definition with_recorded (s : station) (l : list string) : station :=
  mkStation (s_runs s) (s_run_list s) l (s_period s).

(** station.py 429-452 [update_time_period]; [self.__len__()] counts attributes and is positive. *)
Definition station_update_period (s : station) : station :=
  mkStation (s_runs s) (s_run_list s) (s_channels s)
            (update_period (s_period s) (map r_period (dvals (s_runs s)))).

(** Duplicates removed, as [sorted(set(...))] does together with sorting. *)
Fixpoint uniq (l : list string) : list string :=
  match l with
  | [] => []
  | x :: r => if smem x r then uniq r else x :: uniq r
  end.
(** station.py 402-413 [_get_channels_recorded]. *)
Definition estimate (s : station) : list string :=
  sorted (uniq (flat_map (fun r => recorded_all r) (dvals (s_runs s)))).

Definition list_eqb (a b : list string) : bool := if list_eq_dec string_dec a b then true else false.

(** [self.runs.append(Run(id=i))] for the ids that are missing, station.py 269-272. *)
Fixpoint append_runs (d : dict run) (ids : list string) : dict run :=
  match ids with
  | [] => d
  | i :: r => if smem i (dkeys d) then append_runs d r else append_runs (sset i (new_run i) d) r
  end.

(** station.py 277-281: [self.runs[0].add_channel(channel)] for the recorded channels that no run
    has; the list of existing channels was taken before the loop. *)
Fixpoint add_phantoms (r : run) (known names : list string) : result run :=
  match names with
  | [] => Ok r
  | n :: ns => if smem n known then add_phantoms r known ns
               else bindR (add_name r n true) (fun r' => add_phantoms r' known ns)
  end.

(** The after-assignment validator of station.py 261-285.  [update_all] and
    [update_channels_recorded] assign to attributes and so run the validator again. *)
Fixpoint validate_station (fuel : nat) (s : station) : result station :=
  match fuel with
  | O => Err OutOfFuel
  | S f =>
      bindR
        (if list_eqb (s_run_list s) (dkeys (s_runs s)) then Ok s
         else if (length (dkeys (s_runs s)) <? length (s_run_list s))%nat
              then Ok (with_runs s (append_runs (s_runs s) (s_run_list s)))
              else validate_station f (with_run_list (station_update_period s) (dkeys (s_runs s))))
        (fun s1 =>
           let est := estimate s1 in
           if list_eqb (s_channels s1) est then Ok s1
           else if (length est <? length (s_channels s1))%nat then
             match s_runs s1 with
             | [] => Ok s1
             | (i, r0) :: rest =>
                 bindR (add_phantoms r0 est (s_channels s1))
                       (fun r0' => Ok (with_runs s1 ((i, r0') :: rest)))
             end
           else validate_station f (with_recorded s1 est))
  end.
(** Enough for every station: see [validate_enough]. *)
Definition fuel : nat := 5.

(** station.py 422-427 [update_run_list] and 454-461 [update_all]. *)
Definition update_run_list (s : station) : result station :=
  validate_station fuel (with_run_list s (dkeys (s_runs s))).
Definition update_all (s : station) : result station :=
  update_run_list (station_update_period s).

(** station.py 361-373 [has_run]. *)
Definition has_run (s : station) (i : string) : bool := smem i (s_run_list s).

(** station.py 488-501 [get_run]. *)
Definition get_run (s : station) (i : string) : result (option run) :=
  if has_run s i then match sget i (s_runs s) with Some r => Ok (Some r) | None => Err KeyError end
  else Ok None.

(** station.py 463-486 [add_run] with a [Run] that has an id. *)
Definition add_run (s : station) (r : run) (upd : bool) : result station :=
  bindR (if has_run s (r_id r)
         then match sget (r_id r) (s_runs s) with
              | Some old => bindR (update_run old r) (fun n => Ok (sset (r_id r) n (s_runs s)))
              | None => Err KeyError
              end
         else Ok (sset (r_id r) r (s_runs s)))
        (fun d => if upd then update_all (with_runs s d) else Ok (with_runs s d)).

(** station.py 503-517 [remove_run]. *)
Definition remove_run (s : station) (i : string) (upd : bool) : result station :=
  if has_run s i then
    match sget i (s_runs s) with
    | None => Err KeyError
    | Some _ => let s' := with_runs s (sdel i (s_runs s)) in if upd then update_all s' else Ok s'
    end
  else Ok s.

(** station.py 339-348 [merge]. *)
Definition merge_station (s other : station) : result station :=
  update_all (with_runs s (dupdate string_dec (s_runs s) (s_runs other))).

(** Assignment to [run_list] or [channels_recorded] (station.py 237-285). *)
Definition assign_run_list (s : station) (l : list string) : result station :=
  validate_station fuel (with_run_list s l).
Definition assign_channels (s : station) (l : list string) : result station :=
  validate_station fuel (with_recorded s l).

(** [Survey.add_station] on a station that is there already calls [MetadataBase.update] on it
    (base/metadata.py 574-610): the non-empty lists are assigned in alphabetical order of their names
    and the times taken over; the runs themselves have no dictionary value (list_dict.py 334-336) and
    are skipped. *)
Definition station_update (s other : station) : result station :=
  bindR (match s_channels other with [] => Ok s | l => assign_channels s l end) (fun s1 =>
  bindR (match s_run_list other with [] => Ok s1 | l => assign_run_list s1 l end) (fun s2 =>
  Ok (mkStation (s_runs s2) (s_run_list s2) (s_channels s2) (overwrite_period (s_period s2) (s_period other))))).

(** station.py 542-568 [sort_runs_by_time]: a start time is an [MTime], which has no [split]. *)
Definition sort_runs_by_time (s : station) : result (list (string * run)) :=
  match s_runs s with [] => Ok [] | _ => Err AttributeError end.

Inductive station_op : Type :=
| AddRun (r : run) (upd : bool)
| RemoveRun (i : string) (upd : bool)
| MergeStation (other : station).
Definition station_step (s : station) (o : station_op) : result station :=
  match o with
  | AddRun r u => add_run s r u
  | RemoveRun i u => remove_run s i u
  | MergeStation other => merge_station s other
  end.
Fixpoint station_steps (s : station) (ops : list station_op) : result station :=
  match ops with
  | [] => Ok s
  | o :: os => bindR (station_step s o) (fun s' => station_steps s' os)
  end.
