(** Model of the making of an experiment from a directory of XML files:
    /repo/mt_metadata/timeseries/tools/from_many_mt_files.py 250-460 (MT2StationXML); the sorting of the files (107-234) is in ManyModel.v.

    What is in the files is a parameter, the record [reader]: for each file what [read_xml_file] and [from_xml] give, or the exception they raise.  Of a channel
    only its type, component and location are looked at (the location of an electric channel is its [positive] electrode); of a run its id and channels; of a
    station its id, location and lists; of a filter its name.  Everything else is one text.  The time periods and bounding boxes updated in lines 359, 392, 393 are
    not modelled here (they are in ContainerModel.v and SurveyModel.v). *)
From Verif Require Import PyBase PyText PyNum JfileModel ManyModel.
Local Open Scope list_scope.

Record place : Type := mkPlace { lat : Q; lon : Q; elev : Q }.
Record chan : Type := mkChan { c_type : text; c_comp : text; c_place : place; c_rest : text }.
Record run : Type := mkRun { r_id : text; r_chans : list (text * chan); r_rest : text }.
Record station : Type := mkStation { s_id : text; s_place : place; s_runs : list (text * run) }.
Inductive class : Type := PoleZero | Coefficient | TimeDelay | Fir.
Record filt : Type := mkFilt { f_label : text; f_class : class; f_rest : text }.
Record experiment : Type := mkExperiment { x_survey : text; x_stations : list (text * station); x_filters : list (text * filt) }.

(** A station file: id, location, [run_list], and the channels the validator of station.py 276-282 adds to the first run for [channels_recorded]. *)
Record station_content : Type := mkContent { k_id : text; k_place : place; k_list : list text; k_added : list (text * chan) }.
(** A channel file: the flattened dictionary of [from_dict] (base/metadata.py 1192-1210), as dotted names with what the validator of the attribute says to the
    value ([Ok] or the exception), and the channel that results. *)
Record channel_content : Type := mkChannel { h_names : list (text * result unit); h_chan : chan }.
(** An element "filter": the texts of its children "type", and what [from_xml] gives for an object of a class. *)
Record filter_element : Type := mkElement { e_types : list (option text); e_read : class -> result filt }.
Record reader : Type := mkReader
  { rd_survey : file -> result text; rd_station : file -> result station_content; rd_run : file -> result run; rd_channel : file -> result channel_content;
    rd_filters : file -> result (list filter_element) }.

(** The attributes of channels that are objects, and the others: channel.py 42-241, 811-825, electric.py 16-115, magnetic.py 15-58. *)
Inductive kind : Type := Electric | Magnetic.
Definition attributes (k : kind) : list text :=
  [txt "channel_number"; txt "channel_id"; txt "comments"; txt "component"; txt "measurement_azimuth"; txt "measurement_tilt"; txt "sample_rate";
   txt "translated_azimuth"; txt "translated_tilt"; txt "type"; txt "units"; txt "data_quality"; txt "filters"; txt "time_period"; txt "fdsn"]
  ++ match k with
     | Electric => [txt "dipole_length"; txt "positive"; txt "negative"; txt "contact_resistance"; txt "ac"; txt "dc"]
     | Magnetic => [txt "sensor"; txt "location"; txt "h_field_min"; txt "h_field_max"]
     end.
Definition in_names (n : text) (l : list text) : bool := existsb (text_eqb n) l.

(** base/metadata.py 146-187 [update_attribute].  [extra] are the attributes that were added to the object, which takes any ([extra="allow"]); their values are
    texts, numbers, lists or None, and an attribute of those cannot be set. *)
Definition update_attribute (k : kind) (extra : list text) (n : text) (v : result unit) : result (list text) :=
  match split_on "." n with
  | p :: _ :: _ =>
      if in_names p (attributes k) then bindR v (fun _ => Ok extra)
      else Err AttributeError   (* not there (179-182), or an added value whose attribute is set (186) *)
  | _ => bindR v (fun _ => Ok (if in_names n (attributes k) then extra else n :: extra))
  end.
Fixpoint from_names (k : kind) (extra : list text) (l : list (text * result unit)) : result (list text) :=
  match l with [] => Ok extra | (n, v) :: r => bindR (update_attribute k extra n v) (fun e => from_names k e r) end.
(** [ch.filter.name]: the attribute of an object among the attributes; an added value has no [name]. *)
Definition filter_name (k : kind) (extra : list text) : result unit :=
  if in_names (txt "filter") (attributes k) then Ok tt
  else if in_names (txt "filter") extra then Err AttributeError
  else Err AttributeError.

(** 250-287 [_make_channel]; what comes after [ch.filter.name] in line 270 is not modelled, nor are the dipole filters it makes. *)
Definition make_channel (rd : reader) (f : file) : result chan :=
  match nth_error (split_on "." (f_stem f)) 2 with
  | None => Err IndexError
  | Some t =>
      let t := lower t in
      match (if in_names t [txt "electric"] then Some Electric else if in_names t [txt "magnetic"] then Some Magnetic else None) with
      | None => Err UnboundLocalError
      | Some k =>
          bindR (rd_channel rd f) (fun h =>
          bindR (from_names k [] (h_names h)) (fun extra =>
          bindR (filter_name k extra) (fun _ => Ok (h_chan h))))
      end
  end.

(** 289-311 [_make_run]; [r.channels.append] *)
Definition make_run (rd : reader) (x : file * list file) : result run :=
  bindR (rd_run rd (fst x)) (fun r =>
  bindR (mapR (make_channel rd) (snd x)) (fun cs =>
  Ok (mkRun (r_id r) (fold_left (fun d c => dset text_dec (c_comp c) c d) cs (r_chans r)) (r_rest r)))).

(** 339-357: a channel at 0, 0, 0 is placed at the station. *)
Definition at_zero (p : place) : bool := Qeq_bool (lat p) 0 && Qeq_bool (lon p) 0 && Qeq_bool (elev p) 0.
Definition place_chan (p : place) (c : chan) : chan :=
  if at_zero (c_place c) then mkChan (c_type c) (c_comp c) (mkPlace (lat p) (lon p) (elev p)) (c_rest c) else c.
Definition place_run (p : place) (r : run) : run := mkRun (r_id r) (map (fun kc => (fst kc, place_chan p (snd kc))) (r_chans r)) (r_rest r).
(** 333 [station.runs = []]: the assignment runs the validator of station.py 262-285, which appends an empty run for every id of [run_list] and gives the channels
    of [channels_recorded] to the first. *)
Fixpoint append_runs (d : list (text * run)) (ids : list text) : list (text * run) :=
  match ids with
  | [] => d
  | i :: r => append_runs (match dget text_dec i d with Some _ => d | None => dset text_dec i (mkRun i [] []) d end) r
  end.
Definition reset_runs (k : station_content) : list (text * run) :=
  match append_runs [] (k_list k) with
  | [] => []
  | (i, r) :: l => (i, mkRun (r_id r) (k_added k) (r_rest r)) :: l
  end.
(** 313-361 [_make_station] *)
Definition make_station (rd : reader) (x : station_files) : result station :=
  bindR (rd_station rd (fst x)) (fun k =>
  bindR (mapR (fun y => bindR (make_run rd y) (fun r => Ok (place_run (k_place k) r))) (snd x)) (fun rs =>
  Ok (mkStation (k_id k) (k_place k) (fold_left (fun d r => dset text_dec (r_id r) r d) rs (reset_runs k))))).

(** 399-429 [_make_filters_dict] *)
Definition class_of (t : option text) : result class :=
  match t with
  | None => Err ValueError
  | Some t =>
      if in_names t [txt "zpk"] then Ok PoleZero
      else if in_names t [txt "coefficient"] then Ok Coefficient
      else if in_names t [txt "time delay"] then Ok TimeDelay
      else if in_names t [txt "fir"] then Ok Fir
      else Err ValueError
  end.
Definition make_filter (e : filter_element) : result filt :=
  match e_types e with [] => Err IndexError | t :: _ => bindR (class_of t) (e_read e) end.
Definition make_filters (rd : reader) (f : file) : result (list (text * filt)) :=
  bindR (rd_filters rd f) (fun l =>
  bindR (mapR make_filter l) (fun fs => Ok (fold_left (fun d x => dset text_dec (f_label x) x d) fs []))).

(** 363-397 [_make_survey], 431-445 [make_experiment] *)
Definition make_experiment (rd : reader) (files : list file) (wanted : list text) : result experiment :=
  bindR (sort_by_station files wanted) (fun d =>
  bindR (rd_survey rd (d_survey d)) (fun v =>
  bindR (mapR (make_station rd) (d_stations d)) (fun ss =>
  bindR (make_filters rd (d_filters d)) (fun fs =>
  Ok (mkExperiment v (fold_left (fun d s => dset text_dec (s_id s) s d) ss []) fs))))).
(** 447-460 [get_mt_channel]; [respond] stands for [channel_response] *)
Definition get_mt_channel {A : Type} (rd : reader) (respond : chan -> list (text * filt) -> result A) (f g : file) : result (chan * A) :=
  bindR (make_channel rd f) (fun c => bindR (make_filters rd g) (fun d => bindR (respond c d) (fun a => Ok (c, a)))).
