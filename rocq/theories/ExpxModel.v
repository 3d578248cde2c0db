(** Model of an experiment as XML, /repo/mt_metadata/timeseries/experiment.py 370-514, 548-608.

    Every object (survey, filter, station, run, channel) is what its own [to_dict] gives: a dictionary of its fields.  That is
    written by dict_to_xml and read by element_to_dict, as in XmlModel.v.  The model says which dictionaries the objects that are made when
    the XML is read are given; what the objects do with the fields is C01 and C06, how stations, runs and channels are added is C23 and C27.
    Left out: sorting (C03; here everything is in the order in which it is written), periods and corners that are brought up to date before
    writing (C24, C26), the position of a station that a channel without a position gets, and fields that a class refuses. *)
From Verif Require Import PyBase PyText ValidatorsModel XmlModel LayModel.
Local Open Scope list_scope.

Definition fields : Type := list (text * xval).

(** The classes of filters and channels, by the name of the class *)
Inductive filter_class : Type := PoleZero | Coefficient | TimeDelay | ResponseTable | FIR.
Definition filter_class_name (c : filter_class) : text :=
  match c with
  | PoleZero => txt "PoleZeroFilter" | Coefficient => txt "CoefficientFilter" | TimeDelay => txt "TimeDelayFilter"
  | ResponseTable => txt "FrequencyResponseTableFilter" | FIR => txt "FIRFilter"
  end.
Inductive channel_class : Type := Electric | Magnetic | Auxiliary.
Definition channel_class_name (c : channel_class) : text :=
  match c with Electric => txt "Electric" | Magnetic => txt "Magnetic" | Auxiliary => txt "Auxiliary" end.
(** base/metadata.py 1152-1156: the name over the fields, and so the tag, is [validate_name] of the name of the class *)
Definition tag_name (class_ : text) : text := match validate_attribute class_ with Ok t => t | Err _ => [] end.
Definition filter_tag (c : filter_class) : text := tag_name (filter_class_name c).
Definition channel_tag (c : channel_class) : text := tag_name (channel_class_name c).

Record filt : Type := mkFilt { f_class : filter_class; f_fields : fields }.
Record chan : Type := mkChan { c_class : channel_class; c_fields : fields }.
Record run : Type := mkRun { r_fields : fields; r_channels : list chan }.
Record station : Type := mkStation { s_fields : fields; s_runs : list run }.
Record survey : Type := mkSurvey { v_fields : fields; v_filters : list filt; v_stations : list station }.

(** ** Writing *)

(** base/metadata.py 1331-1362 with helpers.py 791-807, and elements appended to it.  The table of units yields nothing (XmlModel.get_units). *)
Definition element (tag : text) (d : fields) (more : list xml) : xml := Elem tag [] None (map (fun kv => write [] (fst kv) (snd kv)) d ++ more).
(** experiment.py 387-428 *)
Definition filter_xml (f : filt) : xml := element (filter_tag (f_class f)) (f_fields f) [].
Definition channel_xml (c : chan) : xml := element (channel_tag (c_class c)) (c_fields c) [].
Definition run_xml (r : run) : xml := element (txt "run") (r_fields r) (map channel_xml (r_channels r)).
Definition station_xml (s : station) : xml := element (txt "station") (s_fields s) (map run_xml (s_runs s)).
Definition survey_xml (v : survey) : xml :=
  element (txt "survey") (v_fields v) (Elem (txt "filters") [] None (map filter_xml (v_filters v)) :: map station_xml (v_stations v)).
(** experiment.py 383-389, 428: the tag is the name of the class as it is *)
Definition experiment_xml (vs : list survey) : xml := Elem (txt "Experiment") [] None (map survey_xml vs).

(** ** Reading *)

(** What is made: filters under their keys, and the objects with the fields they are given *)
Record survey_read : Type := mkRead { q_fields : fields; q_filters : list (text * filt); q_stations : list station }.

(** [in_dict.pop(element)]: only dictionaries have it (experiment.py 497-514) *)
Definition pop (k : text) (v : xval) : result (xval * xval) :=
  match v with
  | XDict d => match dget text_dec k d with Some x => Ok (x, XDict (ddel text_dec k d)) | None => Err KeyError end
  | XList _ => Err TypeError
  | _ => Err AttributeError
  end.
(** experiment.py 497-514 [_pop_dictionary] *)
Definition pop_list (k : text) (v : xval) : result (list xval * xval) :=
  bindR (pop k v) (fun xr => Ok (match fst xr with XList l => l | x => [x] end, snd xr)).

(** The name of a filter (filter_base.py 53-65); None is the empty name (base/metadata.py 228-254) *)
Definition name_of (d : fields) : text := match dget text_dec (txt "name") d with Some (XText s) => s | _ => [] end.
Definition class_read (tag : text) : option filter_class :=
  if text_eqb tag (txt "pole_zero_filter") then Some PoleZero
  else if text_eqb tag (txt "coefficient_filter") then Some Coefficient
  else if text_eqb tag (txt "time_delay_filter") then Some TimeDelay
  else if text_eqb tag (txt "frequency_response_table_filter") then Some ResponseTable
  else if text_eqb tag (txt "fir_filter") then Some FIR
  else None.
(** [cls( **v)] needs a dictionary; [cls(value)] is a TypeError, since __init__ (base/metadata.py 76) takes keywords only *)
Fixpoint make_filters (c : filter_class) (l : list xval) (acc : list (text * filt)) : result (list (text * filt)) :=
  match l with
  | [] => Ok acc
  | XDict d :: r => make_filters c r (dset text_dec (lower (name_of d)) (mkFilt c d) acc)
  | _ :: _ => Err TypeError
  end.
(** experiment.py 548-608 [_read_filter_dict] *)
Fixpoint read_filters (d : fields) (acc : list (text * filt)) : result (list (text * filt)) :=
  match d with
  | [] => Ok acc
  | (tag, v) :: r =>
      match class_read tag with
      | None => read_filters r acc
      | Some c => bindR (match v with XList l => make_filters c l acc | _ => Err TypeError end) (read_filters r)
      end
  end.

(** The entry "filters" of a dictionary that is given to a survey (base/metadata.py 1162-1216, 146-187): it is flattened, so that what is
    not in a list is an attribute of an attribute of the dictionary of filters, which that does not have.  A list or a text is given to the
    validator (survey.py 419-514). *)
Definition one_given (v : xval) : result bool :=   (* whether it is refused at the end *)
  match v with
  | XDict d => match dget text_dec (txt "type") d with None => Err KeyError | Some _ => Err NotImplementedError (* not modelled *) end
  | _ => Ok true
  end.
Fixpoint each_given (l : list xval) (refused : bool) : result bool :=
  match l with [] => Ok refused | v :: r => bindR (one_given v) (fun b => each_given r (orb b refused)) end.
Definition give_filters (v : xval) : result unit :=
  match v with
  | XNone => Ok tt
  | XText s | XNum s => if is_null s then Ok tt else Err TypeError
  | XList l => bindR (each_given l false) (fun b => if b then Err TypeError else Ok tt)
  | XDict d => if existsb (fun kv => match snd kv with XDict (_ :: _) => true | _ => false end) d then Err AttributeError else Ok tt
  end.

(** experiment.py 476-489 *)
Fixpoint channels_of (c : channel_class) (l : list xval) : result (list chan) :=
  match l with
  | [] => Ok []
  | XDict d :: r => bindR (channels_of c r) (fun cs => Ok (mkChan c d :: cs))
  | _ :: _ => Err TypeError
  end.
Definition pop_channels (c : channel_class) (tag : text) (v : xval) : result (list chan * xval) :=
  match pop_list tag v with
  | Ok (l, v') => bindR (channels_of c l) (fun cs => Ok (cs, v'))
  | Err KeyError => Ok ([], v)
  | Err e => Err e
  end.
Definition fields_of (v : xval) : result fields := match v with XDict d => Ok d | _ => Err TypeError end.
Definition read_run (v : xval) : result run :=
  bindR (pop_channels Electric (txt "electric") v) (fun e =>
  bindR (pop_channels Magnetic (txt "magnetic") (snd e)) (fun m =>
  bindR (pop_channels Auxiliary (txt "auxiliary") (snd m)) (fun a =>
  bindR (fields_of (snd a)) (fun d => Ok (mkRun d (fst e ++ fst m ++ fst a)))))).
(** [each f l]: one after the other, until one raises *)
Fixpoint each {A B : Type} (f : A -> result B) (l : list A) : result (list B) :=
  match l with [] => Ok [] | x :: r => bindR (f x) (fun y => bindR (each f r) (fun ys => Ok (y :: ys))) end.
(** experiment.py 469-490 *)
Definition read_station (v : xval) : result station :=
  bindR (pop_list (txt "run") v) (fun lr =>
  bindR (fields_of (snd lr)) (fun d =>
  bindR (each read_run (fst lr)) (fun rs => Ok (mkStation d rs)))).
(** experiment.py 460-491; [skip_none] is True *)
Definition read_survey (v : xval) : result survey_read :=
  bindR (pop_list (txt "station") v) (fun ls =>
  bindR (match snd ls with XDict d => match dget text_dec (txt "filters") d with Some f => give_filters f | None => Ok tt end | _ => Ok tt end) (fun _ =>
  bindR (pop (txt "filters") (snd ls)) (fun fd =>
  bindR (match fst fd with XNone => Ok [] | XDict d => read_filters d [] | _ => Err AttributeError end) (fun fs =>
  bindR (fields_of (snd fd)) (fun d =>
  bindR (each read_station (fst ls)) (fun ss => Ok (mkRead d fs ss))))))).
(** experiment.py 455-492.  [survey_dict["survey"]]: the surveys have to be called so. *)
Definition read_survey_element (e : xml) : result survey_read :=
  bindR (read e) (fun v => if text_eqb (tag_of e) (txt "survey") then read_survey v else Err KeyError).
Definition read_experiment (e : xml) : result (list survey_read) :=
  match e with Elem _ _ _ cs => each read_survey_element cs end.
