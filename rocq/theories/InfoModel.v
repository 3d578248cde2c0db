(** Model of the INFO section of EDI files: /repo/mt_metadata/transfer_functions/io/edi/metadata/information.py. *)
From Verif Require Import PyBase PyText PyNum PyFloat PyRepr EdiMetaModel.
Local Open Scope list_scope.

(** The values in info_dict: None, a text, a list of texts, a list of dictionaries (only its kind matters) or a number.  Keys are texts. *)
Inductive ival : Type := INone | IText (s : text) | ITexts (l : list text) | IDicts | INum (q : Q).
Definition info : Type := list (text * ival).
Definition colon : ascii := ":"%char.
Definition lt_char : ascii := "<"%char.

(** ** Writing *)
(** information.py 618-643 (write_info): the line of one entry. *)
Definition info_line (kv : text * ival) : list text :=
  let (k, v) := kv in
  let keyed s := [txt "    " ++ k ++ equals :: s ++ ["010"%char]] in
  match v with
  | INone | IText [] => [txt "    " ++ k ++ ["010"%char]]
  | IDicts => []
  | ITexts l => keyed ("["%char :: join (txt ", ") l ++ ["]"%char])
  | IText s => keyed (strip s)
  | INum q => keyed (show_float q)
  end.
Definition write_info (d : info) : list text := (txt ">INFO" ++ ["010"%char]) :: flat_map info_line d.

(** ** Reading *)
(** 195-210 (_get_separator): the first of ":" and "=". *)
Definition separator (s : text) : option ascii :=
  match find [colon] s, find [equals] s with
  | Some i, Some j => Some (if (i <? j)%nat then colon else equals)
  | Some _, None => Some colon
  | None, Some _ => Some equals
  | None, None => None
  end.
(** 150-176: the lines of the section, stripped, without the empty ones. *)
Fixpoint section_lines (started : bool) (lines : list text) : list text :=
  match lines with
  | [] => []
  | l :: r =>
      let line := strip l in
      if contains (txt ">info") (lower line) then section_lines true r
      else if (started && prefix_of [gt] line)%bool then []
      else if (started && nonempty line)%bool then line :: section_lines started r
      else section_lines started r
  end.
(** 165-174: marks of the formats of two companies. *)
Definition phoenix_mark (line : text) : bool := contains (txt "run information") (lower line).
Definition empower_mark (line : text) : bool :=
  (negb (phoenix_mark line) &&
   ((contains (txt "empower") (lower line) && contains (txt "v") (lower line)) || contains (txt "electrics") (lower line) || contains (txt "magnetics") (lower line)))%bool.

(** 62-97: names that are replaced. *)
Definition translation : list (text * text) :=
  map (fun p => (txt (fst p), txt (snd p)))
  [("operator", "run.acquired_by.author"); ("adu_serial", "run.data_logger.id"); ("e_azimuth", "run.ex.measurement_azimuth");
   ("ex_len", "run.ex.dipole_length"); ("ey_len", "run.ey.dipole_length"); ("ex_resistance", "run.ex.contact_resistance.start");
   ("ey_resistance", "run.ey.contact_resistance.start"); ("h_azimuth", "run.hx.measurement_azimuth"); ("hx", "run.hx.sensor.id");
   ("hy", "run.hy.sensor.id"); ("hz", "run.hz.sensor.id"); ("hx_resistance", "run.hx.h_field_max.start");
   ("hy_resistance", "run.hy.h_field_max.start"); ("hz_resistance", "run.hz.h_field_max.start");
   ("algorithmname", "transfer_function.software.name"); ("ndec", "processing_parameter"); ("nfft", "processing_parameter");
   ("ntype", "processing_parameter"); ("rrtype", "processing_parameter"); ("removelargelines", "processing_parameter");
   ("rotmaxe", "processing_parameter"); ("project", "survey.project"); ("processedby", "transfer_function.processed_by.name");
   ("processingsoftware", "transfer_function.software.name"); ("processingtag", "transfer_function.id");
   ("signconvention", "transfer_function.sign_convention"); ("sitename", "station.geographic_name"); ("survey", "survey.id");
   ("year", "survey.time_period.start_date"); ("runlist", "transfer_function.runs_processed");
   ("remotesite", "transfer_function.remote_references"); ("remoteref", "transfer_function.processing_parameters")]%string.
Definition parameters_key : text := txt "transfer_function.processing_parameters".
(** str() of a list of texts inside an f-string: texts without quotes and backslashes. *)
Definition show_list (l : list text) : text := "["%char :: join (txt ", ") (map (fun s => "'"%char :: s ++ ["'"%char]) l) ++ ["]"%char].
Definition show_ival (v : ival) : text :=
  match v with INone => txt "None" | IText s => s | ITexts l => show_list l | IDicts => [] | INum q => show_float q end.
(** 232-241: values that are lists. *)
Definition ends_with (c : ascii) (s : text) : bool := match rev s with x :: _ => Ascii.eqb x c | [] => false end.
Definition inner (s : text) : text := removelast (tl s).
Definition read_value (s : text) : ival :=
  if (prefix_of ["["%char] s && ends_with "]" s)%bool then
    ITexts (map strip (split_ws (replace_char colon [" "%char] (replace_char ";" [" "%char] (replace_char "," [" "%char] (inner s))))))
  else IText s.
(** 247-258: a processing parameter. *)
Definition add_parameter (key : text) (v : ival) (d : info) : info :=
  let l := match dget text_dec parameters_key d with
           | None => []
           | Some (ITexts l) => l
           | Some x => [show_ival x]
           end in
  dset text_dec parameters_key (ITexts (l ++ [key ++ equals :: show_ival v])) d.
(** 212-262 (_parse_standard_info): one line. *)
Definition standard_line (d : info) (line : text) : info :=
  if (negb (nonempty line) || has_char lt_char line || has_char gt line)%bool then d
  else match separator line with
       | None => dset text_dec (strip line) (IText []) d
       | Some sep =>
           match split1 sep line with
           | (k, Some v) =>
               let key := lower (strip k) in
               let value := read_value (strip v) in
               match dget text_dec key translation with
               | Some std => if text_eqb std (txt "processing_parameter") then add_parameter key value d else dset text_dec std value d
               | None => dset text_dec key value d
               end
           | (_, None) => d
           end
       end.
(** 189-193 (_comments_to_string) *)
Definition comments_to_string (d : info) : info :=
  map (fun kv => (fst kv, match snd kv with
                          | ITexts l => if contains (txt "comment") (fst kv) then IText (join (txt ",") l) else ITexts l
                          | v => v
                          end)) d.

(** ** The Empower format *)
(** 98-129, and 500-513 for the components *)
Definition empower_names : list (text * text) :=
  map (fun p => (txt (fst p), txt (snd p)))
  [("processingsoftware", "transfer_function.software.name"); ("sitename", "station.geographic_name"); ("year", "survey.time_period.start_date");
   ("process_date", "transfer_function.processed_date"); ("declination", "station.location.declination.value"); ("tag", "component");
   ("length", "dipole_length"); ("ac", "ac.end"); ("dc", "dc.end"); ("negative res", "contact_resistance.start");
   ("negative_res", "contact_resistance.start"); ("positive res", "contact_resistance.end"); ("positive_res", "contact_resistance.end");
   ("sensor type", "sensor.model"); ("sensor_type", "sensor.model"); ("detected sensor type", "sensor.model"); ("azimuth", "measured_azimuth");
   ("sensor serial", "sensor.id"); ("sensor_serial", "sensor.id"); ("cal name", "comments"); ("cal_name", "comments"); ("saturation", "comments");
   ("instrument type", "data_logger.model"); ("station name", "geographic_name"); ("operator", "acquired_by.author"); ("recording id", "id");
   ("min value", "comments"); ("max value", "comments")]%string.
Definition components : list (text * text) :=
  map (fun p => (txt (fst p), txt (snd p)))
  [("ex", "ex"); ("ey", "ey"); ("hx", "hx"); ("hy", "hy"); ("hz", "hz"); ("rx", "rrhx"); ("ry", "rrhy"); ("e1", "ex"); ("e2", "ey"); ("h1", "hx"); ("h2", "hy"); ("h3", "hz")]%string.
(** The state of the parser: section, component and subsection. *)
Record place : Type := mkPlace { section : text; component : option text; subsection : option text }.
Definition sections : list text := [txt "electrics"; txt "magnetics"; txt "reference"].
Definition one_of (l : list text) (s : text) : bool := existsb (text_eqb s) l.
(** 451-535 (_get_empower_std_key); the special case for comments of 523-529 cannot be reached, its keys are in the table. *)
Definition empower_key (p : place) (key : text) : option text :=
  let mapped := dget text_dec key empower_names in
  let remote := text_eqb (section p) (txt "reference") in
  if text_eqb (section p) (txt "general") then mapped
  else match component p with
       | None =>
           match mapped with
           | Some m => Some (if remote then txt "transfer_function.remote_references." ++ m
                             else match subsection p with Some _ => txt "run." ++ m | None => m end)
           | None => None
           end
       | Some c =>
           let std := match dget text_dec c components with Some x => x | None => c end in
           let attribute := match mapped with Some m => m | None => key end in
           Some ((if remote then txt "transfer_function.remote_references." else txt "run.") ++ std ++ "."%char :: attribute)
       end.
(** 366-384: the value without units; characters outside of ASCII are not modelled. *)
Definition empower_value (value : text) : text :=
  let value :=
    match find ["["%char] value with
    | Some i =>
        if (2 <? i)%nat then
          match split_on "," (replace_char "]" [] (replace_char "[" [] value)) with
          | [v] => match split_on " " (strip v) with w :: _ => w | [] => [] end
          | l => join (txt ",") (map strip l)
          end
        else value
    | None => value
    end in
  strip (replace (txt " V") [] (replace (txt " m") [] value)).
Definition has (w : string) (s : text) : bool := contains (txt w) s.
(** 389-436: an entry with a key from the table. *)
Definition empower_entry (p : place) (key std value : text) (d : info) : info :=
  if (has "remote_references." std && (has "acquired_by" std || has "data_logger" std || has "author" std))%bool then d
  else if (has "azimuth" std && negb (has "measured_azimuth" std))%bool then d
  else
    let v := if has "component" std then match component p with Some c => IText c | None => INone end else IText value in
    let std :=
      if (has "hx" std || has "hy" std || has "hz" std)%bool then
        if (has "acquired_by" std || has "data_logger" std)%bool then replace (txt ".hz.") (txt ".") (replace (txt ".hy.") (txt ".") (replace (txt ".hx.") (txt ".") std))
        else if (has "ac" std || has "dc" std)%bool then replace (txt "dc") (txt "comments") (replace (txt "ac") (txt "comments") std)
        else std
      else std in
    if has "comments" std then
      let old := match dget text_dec std d with
                 | None => []
                 | Some (ITexts l) => l
                 | Some (IText []) | Some INone => []
                 | Some x => [show_ival x]
                 end in
      dset text_dec std (ITexts (old ++ [key ++ equals :: show_ival v])) d
    else if has "data_logger.model" std then dset text_dec (txt "run.data_logger.model") v d
    else if (ends_with "d" std && prefix_of (rev (txt ".id")) (rev std) && negb (has "sensor.id" std))%bool then dset text_dec (txt "run.id") v d
    else if has "geographic_name" std then
      dset text_dec (if has "remote_references" std then txt "transfer_function.remote_references.geographic_name" else txt "station.geographic_name") v d
    else if has "author" std then dset text_dec (txt "run.acquired_by.author") v d
    else dset text_dec std v d.
(** 285-449 (_parse_empower_info): one line.  The lines have no indentation, read_info strips them. *)
Definition empower_line (pd : place * info) (line : text) : place * info :=
  let (p, d) := pd in
  let low := lower line in
  if text_eqb low (txt "stations") then (mkPlace low (component p) (subsection p), d)
  else if one_of sections low then (mkPlace low (component p) (Some low), d)
  else
    let in_components := (one_of sections (section p) || match subsection p with Some s => one_of sections s | None => false end)%bool in
    match separator line with
    | None =>
        if (in_components && one_of (map fst components) low)%bool then (mkPlace (section p) (Some low) (subsection p), d)
        else if text_eqb low (txt "editing workbench") then (mkPlace (txt "editing_workbench") (component p) (subsection p), d)
        else (p, d)
    | Some sep =>
        match split1 sep line with
        | (k, Some v) =>
            let key := lower (strip k) in
            let value := empower_value (strip v) in
            match empower_key p key with
            | Some std => (p, empower_entry p key std value d)
            | None =>
                let context :=
                  match component p with
                  | Some c => section p ++ "."%char :: c ++ "."%char :: key
                  | None =>
                      match subsection p with
                      | Some s => if negb (text_eqb s (section p)) then s ++ "."%char :: key
                                  else if negb (text_eqb (section p) (txt "general")) then section p ++ "."%char :: key else key
                      | None => if negb (text_eqb (section p) (txt "general")) then section p ++ "."%char :: key else key
                      end
                  end in
                (p, dset text_dec context (IText value) d)
            end
        | (_, None) => (p, d)
        end
    end.

(** ** The Phoenix format *)
(** 537-582 (_split_phoenix_columns): the words with their positions, re.finditer of \S+. *)
Fixpoint words_at (pos : nat) (cur : text) (s : text) : list (text * nat) :=
  let flush := match cur with [] => [] | _ => [(rev cur, pos - List.length cur)%nat] end in
  match s with
  | [] => flush
  | c :: r => if is_space c then flush ++ words_at (Datatypes.S pos) [] r else words_at (Datatypes.S pos) (c :: cur) r
  end.
Fixpoint gaps (l : list (text * nat)) : list nat :=
  match l with
  | (w, i) :: (((_, j) :: _) as r) => (j - (i + List.length w))%nat :: gaps r
  | _ => []
  end.
Fixpoint index_of (x : nat) (l : list nat) : nat :=
  match l with [] => 0%nat | y :: r => if (y =? x)%nat then 0%nat else Datatypes.S (index_of x r) end.
Definition has_separator (s : text) : bool := (has_char colon s || has_char equals s)%bool.
Definition split_columns (line : text) : list text :=
  if (List.length line <? 10)%nat then [line]
  else
    let parts := words_at 0 [] line in
    if (List.length parts <? 4)%nat then [line]
    else
      let g := gaps parts in
      let mx := fold_right Nat.max 0%nat g in
      if (mx <=? 3)%nat then [line]
      else
        let pos := snd (nth (Datatypes.S (index_of mx g)) parts ([], 0%nat)) in
        let left := strip (firstn pos line) in
        let right := strip (skipn pos line) in
        if (has_separator left && has_separator right)%bool then [left; right] else [line].
(** 38-60 *)
Definition phoenix_names : list (text * text) :=
  map (fun p => (txt (fst p), txt (snd p)))
  [("survey", "survey.id"); ("company", "station.acquired_by.organization"); ("job", "survey.project"); ("hardware", "run.data_logger.model");
   ("mtuprog version", "run.data_logger.firmware.version"); ("xpr weighting", "processing_parameter"); ("hx sen", "run.hx.sensor.id");
   ("hy sen", "run.hy.sensor.id"); ("hz sen", "run.hz.sensor.id"); ("rx sen", "run.rrhx.sensor.id"); ("ry sen", "run.rrhy.sensor.id");
   ("stn number", "station.id"); ("mtu-box serial number", "run.data_logger.id"); ("ex pot resist", "run.ex.contact_resistance.start");
   ("ey pot resist", "run.ey.contact_resistance.start"); ("start-up", "station.time_period.start"); ("end-time", "station.time_period.end")]%string.
(** 584-616 (_apply_phoenix_translation); the entries of the table for "ex voltage" and "ey voltage" are never used. *)
Definition voltage_entry (key : text) (d : result info) (comp : text) : result info :=
  bindR d (fun d =>
  match split_on equals comp with
  | [_] => Ok d
  | [typ; val] => Ok (dset text_dec (txt "run." ++ firstn 2 key ++ "."%char :: lower typ ++ txt ".start") (IText (replace (txt "mV") [] val)) d)
  | _ => Err ValueError
  end).
Definition phoenix_entry (key value : text) (d : info) : result info :=
  bindR (if contains (txt "pot resist") key then match split_ws value with w :: _ => Ok w | [] => Err IndexError end else Ok value) (fun value =>
  if contains (txt "voltage") key then fold_left (voltage_entry key) (split_on "," (replace_char " " [] value)) (Ok d)
  else
    let std := match dget text_dec key phoenix_names with Some s => s | None => txt "phoenix_attribute" end in
    let d := dset text_dec std (IText value) d in
    Ok (if contains (txt " sen") key then
          match split_ws key with
          | c :: _ => dset text_dec (c ++ txt ".sensor.type") (IText (txt "Induction Coil")) (dset text_dec (c ++ txt ".sensor.manufacturer") (IText (txt "Phoenix Geophysics")) d)
          | [] => d
          end
        else d)).
(** 264-283 (_parse_phoenix_info): one column. *)
Definition phoenix_column (d : result info) (column : text) : result info :=
  bindR d (fun d =>
  match separator column with
  | None => Ok d
  | Some sep =>
      match split1 sep column with
      | (k, Some v) =>
          let value := strip v in
          let value := if contains (txt "  ") value then match split_on " " value with w :: _ => strip w | [] => [] end else value in
          phoenix_entry (lower (strip k)) value d
      | (_, None) => Ok d
      end
  end).
Definition phoenix_line (d : result info) (line : text) : result info := fold_left phoenix_column (split_columns line) d.

(** 137-187 (read_info) *)
Definition read_info (lines : list text) : result info :=
  let l := section_lines false lines in
  if existsb empower_mark l then Ok (comments_to_string (snd (fold_left empower_line l (mkPlace (txt "general") None None, []))))
  else if existsb phoenix_mark l then bindR (fold_left phoenix_line l (Ok [])) (fun d => Ok (comments_to_string d))
  else Ok (comments_to_string (fold_left standard_line l [])).
