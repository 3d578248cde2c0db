(** What the INFO section of an EDI file is expected to say. *)
From Verif Require Import PyBase PyText PyNum PyRepr EdiMetaSpec HeadSpec InfoModel.
Local Open Scope list_scope.

(** Keys that can be read back: without line ends, separators, marks of sections, quotes and brackets. *)
Definition good_key (k : text) : Prop := k <> [] /\ strip k = k /\ forall c, In c k -> ~ In c [nl; ">"; "<"; "="; ":"; "034"; "'"; "["; "]"]%char.
Definition good_text (s : text) : Prop := forall c, In c s -> ~ In c [nl; ">"; "<"]%char.
(** Keys that are replaced by others, and keys that become processing parameters. *)
Definition renamed : list (string * string) :=
  [("operator", "run.acquired_by.author"); ("project", "survey.project"); ("survey", "survey.id"); ("sitename", "station.geographic_name"); ("year", "survey.time_period.start_date");
   ("adu_serial", "run.data_logger.id"); ("e_azimuth", "run.ex.measurement_azimuth"); ("h_azimuth", "run.hx.measurement_azimuth");
   ("ex_len", "run.ex.dipole_length"); ("ey_len", "run.ey.dipole_length"); ("hx", "run.hx.sensor.id"); ("hy", "run.hy.sensor.id"); ("hz", "run.hz.sensor.id");
   ("ex_resistance", "run.ex.contact_resistance.start"); ("ey_resistance", "run.ey.contact_resistance.start");
   ("hx_resistance", "run.hx.h_field_max.start"); ("hy_resistance", "run.hy.h_field_max.start"); ("hz_resistance", "run.hz.h_field_max.start");
   ("algorithmname", "transfer_function.software.name"); ("processingsoftware", "transfer_function.software.name"); ("processedby", "transfer_function.processed_by.name");
   ("processingtag", "transfer_function.id"); ("signconvention", "transfer_function.sign_convention"); ("runlist", "transfer_function.runs_processed");
   ("remotesite", "transfer_function.remote_references"); ("remoteref", "transfer_function.processing_parameters")]%string.
Definition parameter_names : list string := ["ndec"; "nfft"; "ntype"; "rrtype"; "removelargelines"; "rotmaxe"]%string.
Definition named (k k' : text) : Prop :=
  (exists a b, In (a, b) renamed /\ lower k = txt a /\ k' = txt b) \/
  (~ names (map fst renamed) (lower k) /\ ~ names parameter_names (lower k) /\ k' = lower k).
(** A word of a list. *)
Definition list_word (s : text) : Prop := s <> [] /\ forall c, In c s -> is_space c = false /\ ~ In c [","; ";"; ":"; "<"; ">"]%char.
Definition bracketed (s : text) : Prop := exists w, s = "["%char :: w ++ ["]"%char].
(** [value file v v']: the value [v] is expected back as [v'], from a file or from the lines themselves; a file has no quotes and brackets. *)
Inductive value (file : bool) : ival -> ival -> Prop :=
| value_text s : s <> [] -> good_text s -> (file = false -> ~ bracketed (strip s)) -> value file (IText s) (IText (if file then tidy s else strip s))
| value_number q : value file (INum q) (IText (show_float q))
| value_list l : file = false -> (forall s, In s l -> list_word s) -> value file (ITexts l) (ITexts l)
| value_list_file l : file = true -> (forall s, In s l -> good_text s) -> value file (ITexts l) (IText (tidy (join (txt ", ") l))).
(** What becomes of an entry. *)
Inductive reading : Type := Entry (k : text) (v : ival) | Setting (s : text).
Definition commented (k : text) (v v' : ival) : Prop :=
  match v with ITexts l => (contains (txt "comment") k = true /\ v' = IText (join (txt ",") l)) \/ (contains (txt "comment") k = false /\ v' = v) | _ => v' = v end.
Inductive info_reads (file : bool) : text * ival -> list reading -> Prop :=
| reads_key k v : v = INone \/ v = IText [] -> good_key k -> info_reads file (k, v) [Entry k (IText [])]
| reads_dicts k : info_reads file (k, IDicts) []
| reads_entry k k' v v' v'' : good_key k -> named k k' -> value file v v' -> commented k' v' v'' -> info_reads file (k, v) [Entry k' v'']
| reads_parameter k v s : good_key k -> names parameter_names (lower k) -> value file v (IText s) -> info_reads file (k, v) [Setting (lower k ++ "="%char :: s)].
(** The value found under a key after all of these: the last one; the processing parameters are collected. *)
Definition parameters : text := txt "transfer_function.processing_parameters".
Definition as_list (v : option ival) : list text := match v with Some (ITexts l) => l | Some (IText s) => [s] | _ => [] end.
Definition after (K : text) (v : option ival) (r : reading) : option ival :=
  match r with
  | Entry k x => if text_eqb k K then Some x else v
  | Setting s => if text_eqb K parameters then Some (ITexts (as_list v ++ [s])) else v
  end.
Definition found (l : list reading) (K : text) : option ival := fold_left (after K) l None.
(** Lines without the marks of the formats of two companies. *)
Definition says (w : string) (s : text) : Prop := contains (txt w) (lower s) = true.
Definition calm (s : text) : Prop := ~ says "run information" s /\ ~ says "electrics" s /\ ~ says "magnetics" s /\ ~ (says "empower" s /\ says "v" s).
(** The lines as they are read. *)
Definition as_read (file : bool) (l : list text) : list text := if file then map bare (readlines (concat l)) else l.
Definition no_info (s : text) : Prop := ~ says ">info" (strip s).
Definition after_info (l : list text) : Prop := l = [] \/ exists s r t, l = s :: r /\ no_info s /\ strip s = ">"%char :: t.
(** Keys that mean nothing to the readers of other formats, and texts without two blanks in a row. *)
Definition single_spaced (s : text) : Prop := forall a b c1 c2, s = a ++ c1 :: c2 :: b -> is_space c1 = true -> is_space c2 = false.
Definition empower_words : list string :=
  ["stations"; "electrics"; "magnetics"; "reference"; "editing workbench"; "processingsoftware"; "sitename"; "year"; "process_date"; "declination"; "tag"; "length"; "ac"; "dc";
   "negative res"; "negative_res"; "positive res"; "positive_res"; "sensor type"; "sensor_type"; "detected sensor type"; "azimuth"; "sensor serial"; "sensor_serial"; "cal name"; "cal_name";
   "saturation"; "instrument type"; "station name"; "operator"; "recording id"; "min value"; "max value"]%string.
Definition phoenix_words : list string :=
  ["survey"; "company"; "job"; "hardware"; "mtuprog version"; "xpr weighting"; "stn number"; "mtu-box serial number"; "start-up"; "end-time"]%string.
Definition unknown_to_phoenix (k : text) : Prop := ~ names phoenix_words (lower k) /\ ~ says "voltage" k /\ ~ says "pot resist" k /\ ~ says " sen" k.
(** An entry with a plain key and a plain text. *)
Definition phoenix_entry_ok (kv : text * text) : Prop :=
  let (k, s) := kv in good_key k /\ single_spaced k /\ unknown_to_phoenix k /\ ~ names (map fst renamed) (lower k) /\ ~ names parameter_names (lower k) /\
  s <> [] /\ good_text s /\ single_spaced s /\ strip s = s /\ (forall c, In c s -> dropped c = false).
