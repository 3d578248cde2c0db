(** Model of the metadata of a transfer function, /repo/mt_metadata/transfer_functions/core.py 227-476, 1588-1629: its survey holds
    stations, of which the first is the station of the transfer function, and the first run of that is its run.

    Stations are objects that surveys and transfer functions share, so they live in a heap and are named by their place in it; the
    runs of a station are values, as in ContainerModel.v, whose stations are the bodies here.  Left out: the other attributes of the
    survey and of the station (C01, C06), what a dictionary is read as (C01: here it is the station that it yields), and the time
    period and corners of the survey (SurveyModel.v).  An id that [update] takes for nothing (base/metadata.py 602-606) is the empty
    one. *)
From Verif Require Import PyBase PyText ContainerModel.
Local Open Scope string_scope.
Local Open Scope list_scope.

(** [n_tf]: whether it is a transfer_functions.tf.Station (tf/station.py 15-28), and not only a timeseries.Station *)
Record node : Type := mkNode { n_id : string; n_tf : bool; n_body : station }.
Definition heap : Type := list node.
Definition with_body (b : station) (n : node) : node := mkNode (n_id n) (n_tf n) b.
Definition with_id (i : string) (n : node) : node := mkNode i (n_tf n) (n_body n).
Fixpoint put (h : heap) (l : nat) (n : node) : heap :=
  match h, l with
  | [], _ => []
  | _ :: r, O => n :: r
  | x :: r, S l' => x :: put r l' n
  end.
(** A reference that points nowhere does not occur in Python *)
Definition look (h : heap) (l : nat) : result node := match nth_error h l with Some n => Ok n | None => Err OutOfFuel end.

(** The stations of a survey, under the keys they were added with *)
Definition stations : Type := dict nat.
(** common/list_dict.py 300-332 [update_keys], and the assignment of stations (survey.py 366-415) *)
Fixpoint rekey_onto (h : heap) (acc : stations) (d : stations) : result stations :=
  match d with
  | [] => Ok acc
  | (_, l) :: r => bindR (look h l) (fun n => rekey_onto h (sset (n_id n) l acc) r)
  end.
Definition rekey (h : heap) (d : stations) : result stations := rekey_onto h [] d.

(** core.py 227-250 [_add_channels] *)
Definition default_channels : list (kind * string) := [(Electric, "ex"); (Electric, "ey"); (Magnetic, "hx"); (Magnetic, "hy"); (Magnetic, "hz")].
Definition add_channels (r : run) : run :=
  fold_left (fun acc kc => add_channel acc (mkChan (fst kc) (snd kc) default_period "") true) default_channels r.
(** core.py 252-266 [_initialize_metadata]: the run is appended to the dictionary, the lists of the station stay empty *)
Definition first_node : node := mkNode "0" true (mkStation [("0", add_channels (new_run "0"))] [] [] default_period).
Definition new_tf (h : heap) : heap * stations := (h ++ [first_node], [("0", List.length h)]).

(** core.py 399-405, 438-444: the first station and the first run; ListDict's [KeyError] (list_dict.py 58-63) *)
Definition station_of (d : stations) : result nat := match d with (_, l) :: _ => Ok l | [] => Err KeyError end.
Definition first_run (n : node) : result run := match s_runs (n_body n) with (_, r) :: _ => Ok r | [] => Err KeyError end.
Definition run_of (h : heap) (d : stations) : result run := bindR (station_of d) (fun l => bindR (look h l) first_run).
(** core.py 1620-1623 *)
Definition has_tf_id (h : heap) (d : stations) : result bool :=
  bindR (station_of d) (fun l => bindR (look h l) (fun n => if n_tf n then Ok true else Err AttributeError)).

(** station.py 300-337 [validate_runs] with the validator that follows it *)
Definition rekey_runs (d : dict run) : dict run := fold_left (fun acc kr => sset (r_id (snd kr)) (snd kr) acc) d [].
Definition assign_runs (s : station) (d : dict run) : result station := validate_station fuel (with_runs s (rekey_runs d)).

(** What the setters may be given: nothing, an object, a dictionary, or anything else *)
Inductive given : Type := GNone | GStation (l : nat) | GDict (n : node) | GOther.

(** core.py 407-436 *)
Definition with_channels_first (d : dict run) : dict run :=
  match d with
  | (k, r) :: rest => match r_channels r with [] => (k, add_channels r) :: rest | _ => d end
  | [] => []
  end.
Definition joined_runs (cur : run) (own : dict run) : dict run :=
  let before := if String.eqb (r_id cur) "0" then [] else [(r_id cur, cur)] in
  match dupdate string_dec before own with
  | [] => [("0", new_run "0")]
  | d => d
  end.
Definition take_station (h : heap) (d : stations) (l : nat) : result (heap * stations) :=
  bindR (run_of h d) (fun cur =>
  bindR (look h l) (fun n =>
  bindR (assign_runs (n_body n) (with_channels_first (joined_runs cur (s_runs (n_body n))))) (fun b =>
  Ok (put h l (with_body (station_update_period b) n), [(n_id n, l)])))).
Definition set_station (h : heap) (d : stations) (g : given) : result (heap * stations) :=
  match g with
  | GNone => Ok (h, d)
  | GStation l => bindR (look h l) (fun n => if n_tf n then take_station h d l else Err TypeError)
  | GDict n => take_station (h ++ [mkNode (n_id n) true (n_body n)]) d (List.length h)
  | GOther => Err TypeError
  end.

(** survey.py 614-639 [add_station]: the keys are brought up to date afterwards *)
Definition add_station (h : heap) (d : stations) (l : nat) : result (heap * stations) :=
  bindR (look h l) (fun n =>
  match sget (n_id n) d with
  | Some t =>
      bindR (look h t) (fun old =>
      bindR (station_update (n_body old) (n_body n)) (fun b =>
      let h' := put h t (mkNode (if String.eqb (n_id n) "" then n_id old else n_id n) (n_tf old) b) in
      bindR (rekey h' d) (fun d' => Ok (h', d'))))
  | None => bindR (rekey h (sset (n_id n) l d)) (fun d' => Ok (h, d'))
  end).
Fixpoint add_stations (h : heap) (d : stations) (ls : list nat) : result (heap * stations) :=
  match ls with
  | [] => Ok (h, d)
  | l :: r =>
      bindR (look h l) (fun n =>
      bindR (add_station (put h l (with_body (station_update_period (n_body n)) n)) d l) (fun hd => add_stations (fst hd) (snd hd) r))
  end.
(** What the survey setter may be given: a survey is the list of its stations *)
Inductive given_survey : Type := SNothing | SSurvey (ls : list nat) | SOtherType.
(** core.py 374-396 *)
Definition drop_placeholder (d : stations) : stations :=
  if ((1 <? List.length (dkeys d))%nat && smem "0" (dkeys d))%bool then sdel "0" d else d.
Definition set_survey (h : heap) (d : stations) (g : given_survey) : result (heap * stations) :=
  match g with
  | SNothing => Ok (h, d)
  | SSurvey ls => bindR (add_stations h d ls) (fun hd => Ok (fst hd, drop_placeholder (snd hd)))
  | SOtherType => Err TypeError
  end.

(** core.py 446-476: the class has no attribute [component], so an object that was not given one refuses every run *)
Definition set_run (component : option string) (r : option run) (h : heap) (d : stations) : result (heap * stations) :=
  match r, component with
  | None, _ => Ok (h, d)
  | Some _, None => Err AttributeError
  | Some _, Some _ => Err NotImplementedError   (* not modelled *)
  end.

(** base/helpers.py 936-950 [validate_name], the pattern of station.py 122, core.py 1593-1602 *)
Definition underscores (s : string) : string := string_of_list_ascii (replace_char " " (txt "_") (list_ascii_of_string s)).
Definition set_name (h : heap) (d : stations) (name : option string) : result (heap * stations) :=
  let i := match name with Some s => underscores s | None => "unknown" end in
  bindR (station_of d) (fun l =>
  bindR (look h l) (fun n =>
  if forallb is_word (list_ascii_of_string i) then
    bindR (validate_station fuel (n_body n)) (fun b =>
    let n' := mkNode i (n_tf n) b in
    bindR (first_run n') (fun _ => Ok (put h l n', d)))
  else Err ValueError)).

(** ** Histories *)
Inductive act : Type := SetSurvey (g : given_survey) | SetStation (g : given) | SetName (name : option string) | SetRun (r : option run).
Definition do_act (a : act) (h : heap) (d : stations) : result (heap * stations) :=
  match a with
  | SetSurvey g => set_survey h d g
  | SetStation g => set_station h d g
  | SetName n => set_name h d n
  | SetRun r => set_run None r h d
  end.
Fixpoint acts (l : list act) (h : heap) (d : stations) : result (heap * stations) :=
  match l with [] => Ok (h, d) | a :: r => bindR (do_act a h d) (fun hd => acts r (fst hd) (snd hd)) end.
