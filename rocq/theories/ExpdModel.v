(** Model of an experiment as a dictionary, /repo/mt_metadata/timeseries/experiment.py 250-310, of the filters of a survey,
    survey.py 419-514, and of how a run finds the class of a channel, run.py 318-349, 978-1099.

    As in ExpxModel.v an object is the dictionary of its fields that its own [to_dict] gives, and the model says which dictionaries the
    objects that are made are given.  What the objects do with the fields is C01 and C06.  Stations, runs and channels are listed as
    they are appended (C01 and C02 say under which keys).  Left out: dictionaries where lists of stations, runs and channels are expected, fields that
    a class refuses (but for the component of a channel), JSON as a text (C106). *)
From Verif Require Import PyBase PyText XmlModel ExpxModel.
Local Open Scope list_scope.

(** ** Channels *)

(** [str.lower].startswith of one letter *)
Definition starts (c : ascii) (s : text) : bool := match lower s with x :: _ => Ascii.eqb x c | [] => false end.
Definition word_char (c : ascii) : bool :=
  let n := nat_of_ascii c in
  orb (andb (Nat.leb 48 n) (Nat.leb n 57)) (orb (andb (Nat.leb 65 n) (Nat.leb n 90)) (orb (andb (Nat.leb 97 n) (Nat.leb n 122)) (Nat.eqb n 95))).
(** The patterns of the component: electric.py 22, magnetic.py 21, channel.py 90 (which is looked for anywhere) *)
Definition component_fits (c : channel_class) (s : text) : bool :=
  match c with
  | Electric => match s with x :: r => andb (existsb (Ascii.eqb x) (txt "eE")) (forallb word_char r) | [] => false end
  | Magnetic => match s with x :: r => andb (existsb (Ascii.eqb x) (txt "hHbBrR")) (forallb word_char r) | [] => false end
  | Auxiliary => existsb word_char s
  end.
(** Making a channel of a class from keywords: channel.py 255-262.  None is the empty text (base/metadata.py 228-254). *)
Definition make_channel (c : channel_class) (d : fields) : result chan :=
  match dget text_dec (txt "component") d with
  | None => Ok (mkChan c d)
  | Some (XText s) => if component_fits c (lower s) then Ok (mkChan c d) else Err ValueError
  | Some XNone => Err ValueError
  | Some _ => Err TypeError
  end.
(** run.py 1055-1065 *)
Definition channel_of_name (s : text) : result chan :=
  let c := if starts "e" s then Electric
           else if orb (orb (starts "h" s) (starts "b" s)) (text_eqb (lower s) (txt "magnetic")) then Magnetic
           else Auxiliary in
  make_channel c [(txt "component", XText s)].
(** run.py 1067-1085; the first letter of the component: 1070-1071 *)
Definition type_of (d : fields) : result text :=
  match dget text_dec (txt "type") d with
  | None => Err KeyError
  | Some XNone =>
      match dget text_dec (txt "component") d with
      | None => Err KeyError
      | Some (XText (c :: _)) => Ok [c]
      | Some (XText []) => Err IndexError
      | Some (XList _) => Err NotImplementedError   (* not modelled *)
      | Some (XDict _) => Err KeyError
      | Some _ => Err TypeError
      end
  | Some (XText s) => Ok s
  | Some _ => Err AttributeError
  end.
Definition channel_of_dict (d : fields) : result chan :=
  bindR (type_of d) (fun t =>
  if starts "e" t then make_channel Electric d
  else if orb (orb (starts "b" t) (starts "b" t)) (text_eqb (lower t) (txt "magnetic")) then make_channel Magnetic d
  else make_channel Auxiliary d).
(** run.py 978-1099 for a text, a dictionary and anything that is not a channel *)
Definition channel_of (v : xval) : result chan :=
  match v with XText s => channel_of_name s | XDict d => channel_of_dict d | _ => Err ValueError end.

(** Lists of parts: an item with a KeyError is noted, and a TypeError is raised at the end; any other error is raised at once
    (run.py 337-347, station.py 318-335, survey.py 395-415) *)
Fixpoint collect {A B : Type} (f : A -> result B) (l : list A) (bad : bool) : result (list B) :=
  match l with
  | [] => if bad then Err TypeError else Ok []
  | x :: r =>
      match f x with
      | Ok y => bindR (collect f r bad) (fun ys => Ok (y :: ys))
      | Err KeyError => collect f r true
      | Err e => Err e
      end
  end.
(** base/metadata.py 1190-1206: one key over a dictionary is the name of the class *)
Definition unwrap (d : fields) : fields := match d with [(_, XDict d')] => d' | _ => d end.
(** A field with a list of parts, out of the fields of an object *)
Definition parts {B : Type} (k : text) (f : xval -> result B) (d : fields) : result (list B) :=
  match dget text_dec k d with
  | None => Ok []
  | Some (XList l) => collect f l false
  | Some (XDict _) => Err NotImplementedError   (* not modelled: it is flattened first *)
  | Some _ => Err TypeError
  end.
(** run.py 318-349, station.py 299-337, survey.py 379-417; an item that is no dictionary is noted like a KeyError *)
Definition run_of (v : xval) : result run :=
  match v with
  | XDict d0 => let d := unwrap d0 in bindR (parts (txt "channels") channel_of d) (fun cs => Ok (mkRun (ddel text_dec (txt "channels") d) cs))
  | _ => Err KeyError
  end.
Definition station_of (v : xval) : result station :=
  match v with
  | XDict d0 => let d := unwrap d0 in bindR (parts (txt "runs") run_of d) (fun rs => Ok (mkStation (ddel text_dec (txt "runs") d) rs))
  | _ => Err KeyError
  end.

(** ** Filters *)

(** What a user may give: a dictionary, a filter, or anything else *)
Inductive given : Type := GDict (d : fields) | GFilter (f : filt) | GOther.
(** survey.py 451-466 *)
Definition class_of_type (t : text) : option filter_class :=
  if text_eqb (lower t) (txt "zpk") then Some PoleZero
  else if text_eqb (lower t) (txt "coefficient") then Some Coefficient
  else if text_eqb (lower t) (txt "time delay") then Some TimeDelay
  else if text_eqb (lower t) (txt "fir") then Some FIR
  else if text_eqb (lower t) (txt "frequency response table") then Some ResponseTable
  else None.
(** survey.py 442-485.  [last] is the variable f: a dictionary of an unknown type is given to the filter that was made before (in Python that
    filter is changed; the model keeps it as it was, since a TypeError is raised in the end). *)
Fixpoint filters_in_list (l : list given) (last : option filter_class) (acc : list (text * filt)) (bad : bool) : result (list (text * filt)) :=
  match l with
  | [] => if bad then Err TypeError else Ok acc
  | GOther :: r => filters_in_list r last acc true
  | GFilter f :: r => filters_in_list r last (dset text_dec (name_of (f_fields f)) f acc) bad
  | GDict d :: r =>
      match dget text_dec (txt "type") d with
      | None => Err KeyError
      | Some (XText t) =>
          match class_of_type t with
          | Some c => filters_in_list r (Some c) (dset text_dec (name_of d) (mkFilt c d) acc) bad
          | None =>
              match last with
              | None => Err UnboundLocalError
              | Some c => filters_in_list r last (dset text_dec (name_of d) (mkFilt c d) acc) true
              end
          end
      | Some _ => Err AttributeError   (* .lower() of None, of a number, a list, a dictionary *)
      end
  end.
(** survey.py 495-512 *)
Fixpoint filters_in_dict (l : list (text * given)) (acc : list (text * filt)) (bad : bool) : result (list (text * filt)) :=
  match l with
  | [] => if bad then Err TypeError else Ok acc
  | (k, GFilter f) :: r => filters_in_dict r (dset text_dec (lower k) f acc) bad
  | _ :: r => filters_in_dict r acc true
  end.
(** survey.py 419-514 without None *)
Inductive filters_value : Type := VList (l : list given) | VDict (d : list (text * given)) | VOther.
Definition set_filters (v : filters_value) : result (list (text * filt)) :=
  match v with VList l => filters_in_list l None [] false | VDict d => filters_in_dict d [] false | VOther => Err TypeError end.
(** A value out of a dictionary *)
Definition given_of (v : xval) : given := match v with XDict d => GDict d | _ => GOther end.
Definition filters_of (d : fields) : result (list (text * filt)) :=
  match dget text_dec (txt "filters") d with
  | None => Ok []
  | Some (XList l) => set_filters (VList (map given_of l))
  | Some (XDict _) => Err NotImplementedError   (* not modelled: it is flattened first (see ExpxModel.give_filters) *)
  | Some _ => Err TypeError
  end.

(** ** Surveys and experiments *)

(** experiment.py 305-309: a survey from its dictionary; what is no dictionary is a MTSchemaError (base/metadata.py 1186-1189), here TFError *)
Definition survey_of (v : xval) : result survey_read :=
  match v with
  | XDict d0 =>
      let d := unwrap d0 in
      bindR (parts (txt "stations") station_of d) (fun ss =>
      bindR (filters_of d) (fun fs => Ok (mkRead (ddel text_dec (txt "filters") (ddel text_dec (txt "stations") d)) fs ss)))
  | _ => Err TFError
  end.
(** experiment.py 288-309 *)
Definition from_dict (v : xval) : result (list survey_read) :=
  match v with
  | XDict d =>
      match dget text_dec (txt "experiment") d with
      | None => Ok []
      | Some (XDict e) => match dget text_dec (txt "surveys") e with Some (XList l) => each survey_of l | Some _ => Err NotImplementedError | None => Err KeyError end
      | Some _ => Err TypeError
      end
  | _ => Err TypeError
  end.
(** experiment.py 250-286 *)
Definition run_dict (r : run) : xval := XDict (dset text_dec (txt "channels") (XList (map (fun c => XDict (c_fields c)) (r_channels r))) (r_fields r)).
Definition station_dict (s : station) : xval := XDict (dset text_dec (txt "runs") (XList (map run_dict (s_runs s))) (s_fields s)).
Definition survey_dict (v : survey) : xval :=
  XDict (dset text_dec (txt "filters") (XList (map (fun f => XDict (f_fields f)) (v_filters v)))
         (dset text_dec (txt "stations") (XList (map station_dict (v_stations v))) (v_fields v))).
Definition to_dict (vs : list survey) : xval := XDict [(txt "experiment", XDict [(txt "surveys", XList (map survey_dict vs))])].
