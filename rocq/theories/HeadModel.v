(** Model of the HEAD section of EDI files: /repo/mt_metadata/transfer_functions/io/edi/metadata/header.py. *)
From Verif Require Import PyBase PyText PyNum PyFloat PyRepr ZmmModel MTimeModel IsoModel UnitsModel EnumModel LocationModel ValidatorsModel EdiMetaModel.
Local Open Scope list_scope.

(** ** Attributes *)
(** The values of attributes as to_dict gives them: None, a text, a list of texts, a number or a time (MTime.to_dict, mttime.py 811-820). *)
Inductive hval : Type := HNone | HText (s : text) | HTexts (l : list text) | HNum (q : Q) | HTime (v : Z).
(** The fields, header.py 28-255, common/location.py 16-141, common/geographic_location.py 12-110 and common/declination.py 15-66, flattened and
    sorted as to_dict gives them.  The comments of the declination are not modelled. *)
Inductive kind : Type := KText | KPosition (a : axis) | KNumber | KTime | KFrame | KVersion | KUnits.
Definition attributes : list (text * kind) :=
  [(txt "acqby", KText); (txt "acqdate", KTime); (txt "coordinate_system", KFrame); (txt "country", KText); (txt "county", KText);
   (txt "dataid", KText); (txt "datum", KText); (txt "declination.epoch", KText); (txt "declination.model", KText);
   (txt "declination.value", KNumber); (txt "elevation", KNumber); (txt "empty", KNumber); (txt "enddate", KTime); (txt "fileby", KText);
   (txt "filedate", KTime); (txt "latitude", KPosition Latitude); (txt "loc", KText); (txt "longitude", KPosition Longitude);
   (txt "parcel", KText); (txt "progdate", KTime); (txt "progname", KText); (txt "progvers", KText); (txt "project", KText);
   (txt "prospect", KText); (txt "quarter", KText); (txt "section", KText); (txt "state", KText); (txt "stdvers", KVersion);
   (txt "survey", KText); (txt "township", KText); (txt "units", KUnits); (txt "x", KNumber); (txt "y", KNumber); (txt "z", KNumber)].
Record header : Type := mkHeader { attrs : list (text * hval); extras : list (text * text); phoenix : bool }.
Definition value_of (h : header) (n : text) : hval := match dget text_dec n (attrs h) with Some v => v | None => HNone end.

(** enumerations.py 118-122 and 182-187; StdEDIversionsEnum takes its own values only. *)
Definition frames : list text := [txt "geographic"; txt "geomagnetic"; txt "station"; txt "sitelayout"].
Definition versions : list text := [txt "SEG 1.0"; txt "1.0"; txt "SEG_1.0"; txt "SEG 1.01"; txt "SEG_1.01"].
(** What pydantic makes of a text assigned to a field.  Names of data are taken as they are: pyproj's check (location.py 128-141) is outside
    of the model, and so are nan and the infinities. *)
Definition check (k : kind) (s : text) : result hval :=
  match k with
  | KText => Ok (HText s)
  | KNumber => match read_float s with Some (Fin q) => Ok (HNum q) | Some NonFinite => Err OverflowError | None => Err ValueError end
  | KPosition a => bindR (validate_position a (GText s)) (fun x => match x with Fin q => Ok (HNum q) | NonFinite => Err OverflowError end)
  | KTime => bindR (parse_iso s) (fun v => Ok (HTime v))
  | KFrame => bindR (validate_enum frames (EText s)) (fun m => Ok (HText m))
  | KVersion => if existsb (text_eqb s) versions then Ok (HText s) else Err ValueError
  | KUnits => if nonempty s then bindR (validate_unit true s) (fun u => Ok (HText u)) else Ok (HText [])
  end.
(** setattr: a name that is not a field, also one with a dot, becomes an extra attribute (extra="allow", base/metadata.py 214-221). *)
Definition own (n : text) : bool := negb (has_char "." n).
Definition set_attr (n s : text) (h : header) : result header :=
  match (if own n then dget text_dec n attributes else None) with
  | Some k => bindR (check k s) (fun v => Ok (mkHeader (dset text_dec n v (attrs h)) (extras h) (phoenix h)))
  | None => Ok (mkHeader (attrs h) (dset text_dec n s (extras h)) (phoenix h))
  end.
Definition set_declination (s : text) (h : header) : result header :=
  bindR (check KNumber s) (fun v => Ok (mkHeader (dset text_dec (txt "declination.value") v (attrs h)) (extras h) (phoenix h))).

(** ** Reading *)
(** header.py 347-358: one line of the section. *)
Definition header_entry (line : text) : list text :=
  if (List.length (strip line) <=? 2)%nat then []
  else match split_on equals (replace_char quote_char [] (strip line)) with
       | [k; v] => [strip k ++ equals :: strip v]
       | _ => []
       end.
(** 338-359 (get_header_list) *)
Fixpoint header_list (inside : bool) (lines : list text) : list text :=
  match lines with
  | [] => []
  | line :: r =>
      if (has_char gt line && contains (txt "head") (lower line))%bool then header_list true r
      else if has_char gt line then (if inside then [] else header_list inside r)
      else (if inside then header_entry line else []) ++ header_list inside r
  end.
(** 396-435: one entry.  [Err IndexError] cannot happen: every entry has a "=". *)
Definition is_key (k : text) (names : list string) : bool := existsb (fun n => text_eqb k (txt n)) names.
Definition read_entry (e : text) (h : header) : result header :=
  match split_on equals e with
  | key :: value :: _ =>
      let key := lower key in
      let h := if (is_key key ["progvers"%string] && contains (txt "mt-editor") (lower value))%bool then mkHeader (attrs h) (extras h) true else h in
      let value :=
        if is_key key ["coordinate_system"%string] then
          (let value := lower value in
           if contains (txt "geomagnetic") value then txt "geomagnetic"
           else if contains (txt "geographic") value then txt "geographic"
           else if contains (txt "station") value then txt "station" else value)
        else if is_key key ["stdvers"%string] then
          (if existsb (text_eqb value) [txt "N/A"; txt "None"; txt "null"] then txt "SEG 1.0" else value)
        else if is_key key ["units"%string] then (if existsb (text_eqb value) [txt "m"; txt "M"] then txt "m" else value)
        else value in
      if is_key key ["declination"%string] then set_declination value h
      else if is_key key ["long"; "lon"; "lonigutde"]%string then set_attr (txt "longitude") value h
      else if is_key key ["lat"; "latitude"]%string then set_attr (txt "latitude") value h
      else if is_key key ["elev"; "elevation"]%string then set_attr (txt "elevation") value h
      else if is_key key ["dataid"%string] then bindR (validate_station_name value) (fun v => set_attr key v h)
      else set_attr key value h
  | _ => Err IndexError
  end.
Fixpoint read_entries (l : list text) (h : header) : result header :=
  match l with [] => Ok h | e :: r => bindR (read_entry e h) (read_entries r) end.
Definition read_header (lines : list text) (h : header) : result header := read_entries (header_list false lines) h.

(** ** Writing *)
(** base/metadata.py 1117-1160: with required, empty values are left out unless the field is required. *)
Definition required_fields : list string :=
  ["acqdate"; "coordinate_system"; "dataid"; "declination.model"; "declination.value"; "empty"; "fileby"; "filedate"; "progdate"; "progname"; "progvers"; "stdvers"; "units"]%string.
Definition default_stamp : text := txt "1980-01-01T00:00:00+00:00".
Definition empty_value (v : hval) : bool :=
  match v with
  | HNone => true
  | HText s => (text_eqb s [] || text_eqb s (txt "1980") || text_eqb s default_stamp)%bool
  | HTexts l => negb (nonempty l)
  | HTime t => text_eqb (isoformat t) default_stamp
  | HNum _ => false
  end.
Definition in_dict (required : bool) (n : text) (v : hval) : bool := (negb required || negb (empty_value v) || is_key n required_fields)%bool.
Definition is_zero (v : hval) : bool := match v with HNum q => Qeq_bool q 0 | _ => false end.
(** 505-529: the line of one attribute, if it has one; [dd] is the latitude and longitude format "dd". *)
Definition header_key (lonkey n : text) : text :=
  if is_key n ["latitude"%string] then txt "lat" else if is_key n ["longitude"%string] then lower lonkey else if is_key n ["elevation"%string] then txt "elev" else n.
Definition value_text (dd : bool) (key : text) (v : hval) : text :=
  match v with
  | HNone => txt "None"
  | HText s => s
  | HTexts l => join (txt ",") l
  | HTime t => isoformat t
  | HNum q =>
      if is_key key ["lat"; "lon"; "long"]%string then (if dd then show_fixed 6 q else float2str q)
      else if is_key key ["elev"%string] then show_fixed 3 q
      else show_float q
  end.
Definition header_line (dd : bool) (lonkey : text) (declination : hval) (n : text) (v : hval) : list text :=
  if is_key n ["x"; "x2"; "y"; "y2"; "z"; "z2"]%string then []
  else if match v with HNone => true | HText s => text_eqb s (txt "None") | _ => false end then []
  else
    let key := header_key lonkey n in
    if (contains (txt "declination") key && is_zero declination)%bool then []
    else ["009"%char :: upper key ++ equals :: value_text dd key v ++ ["010"%char]].
(** 497-502: the file and program attributes are set; 1638316800000000000 is 2021-12-01. *)
Definition stamped (now : Z) (version : text) (h : header) : header :=
  mkHeader (dset text_dec (txt "progdate") (HTime 1638316800000000000) (dset text_dec (txt "progname") (HText (txt "mt_metadata"))
            (dset text_dec (txt "progvers") (HText version) (dset text_dec (txt "filedate") (HTime now) (attrs h))))) (extras h) (phoenix h).
(** 437-531 (write_header) *)
Definition write_header (dd : bool) (lonkey : text) (required : bool) (now : Z) (version : text) (h : header) : list text :=
  let h := stamped now version h in
  (txt ">HEAD" ++ ["010"%char]) ::
  flat_map (fun n => if in_dict required n (value_of h n) then header_line dd lonkey (value_of h (txt "declination.value")) n (value_of h n) else [])
           (map fst attributes) ++ [["010"%char]].
