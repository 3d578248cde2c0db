(** Model of the header of Zonge AVG files: /repo/mt_metadata/transfer_functions/io/zonge/metadata/header.py.

    The fields that are written are modelled with their types; every other attribute that a file sets is only kept
    with its text (its validation is not modelled).  A pydantic ValidationError is a ValueError.  Binary rounding of
    floats is not modelled; what of nan, inf and -inf a number is, neither. *)
From Verif Require Import PyBase PyText PyNum IsoModel PyFloat PySci ValidatorsModel UnitsModel LocationModel EnumModel.

(** The attributes that are written, header.py 216-231 [_header_keys], in this order. *)
Inductive hfield : Type :=
| FType | FArray | FTx | FVersion | FFlip | FSmooth | FToZ | FDplus | FStation | FLength | FHpr | FLat | FLon | FUnit.
Definition hfield_dec (a b : hfield) : {a = b} + {a <> b}.
Proof. decide equality. Defined.
Definition header_keys : list (hfield * text) :=
  [(FType, txt "survey.type"); (FArray, txt "survey.array"); (FTx, txt "tx.type"); (FVersion, txt "m_t_edit.version");
   (FFlip, txt "m_t_edit.auto.phase_flip"); (FSmooth, txt "m_t_edit.phase_slope.smooth"); (FToZ, txt "m_t_edit.phase_slope.to_z_mag");
   (FDplus, txt "m_t_edit.d_plus.use"); (FStation, txt "rx.gdp_stn"); (FLength, txt "rx.length"); (FHpr, txt "rx.h_p_r");
   (FLat, txt "g_p_s.lat"); (FLon, txt "g_p_s.lon"); (FUnit, txt "unit.length")].

(** The value of an attribute: a str (or a member of an enumeration, by its value), a float or a list of floats. *)
Inductive hvalue : Type := HText (s : text) | HNum (x : pynum) | HList (l : list pynum).
(** The header: the attributes that are written, the texts of the others, and [_comp_dict] (the attributes set after
    each $Rx.Cmp line). *)
Record head : Type := mkHead { h_value : hfield -> hvalue; h_other : list (text * text); h_comps : list (text * list (text * text)) }.

(** The members of the enumerations: common/enumerations.py 51-71, zonge/metadata/survey.py 16-17, tx.py 14-16,
    phase_slope.py 14-18. *)
Definition data_types : list text :=
  map txt ["RMT"; "AMT"; "BBMT"; "LPMT"; "ULPMT"; "MT"; "LP"; "BB"; "WB"; "MT_TF"; "BBMT_TF"; "WBMT_TF"; "LPMT_TF"; "CSAMT"; "NSAMT"]%string.
Definition yes_no : list text := map txt ["yes"; "no"]%string.
Definition tx_types : list text := map txt ["natural"; "controlled source"]%string.
Definition arrays : list text := [txt "tensor"].
Definition smooths : list text := map txt ["robust"; "normal"; "None"; "minimal"]%string.
(** zonge/metadata/rx.py 13-20. *)
Definition cmps : list text := map txt ["zxx"; "zyy"; "zyx"; "zxy"; "txy"; "tyx"; ""]%string.

(** A new header: the defaults of survey.py 29 and 43, tx.py 22, mt_edit.py 18, auto.py 18, phase_slope.py 25 and 39,
    d_plus.py 18, rx.py 27, 41 and 55, gps.py 19 and 33, unit.py 18. *)
Definition default_value (f : hfield) : hvalue :=
  match f with
  | FType => HText (txt "NSAMT") | FArray => HText (txt "tensor") | FTx => HText (txt "natural") | FVersion => HText []
  | FFlip => HText (txt "yes") | FSmooth => HText (txt "None") | FToZ => HText (txt "no") | FDplus => HText (txt "no")
  | FStation => HText [] | FLength => HNum (Fin 0) | FHpr => HList [] | FLat => HNum (Fin 0) | FLon => HNum (Fin 0) | FUnit => HText (txt "m")
  end.
Definition new_head : head := mkHead default_value [] [].

(** ** Writing *)
Definition show_num (d : nat) (x : pynum) : text := match x with Fin q => show_fixed d q | NonFinite => txt "nan" end.
(** header.py 526-533. *)
Definition value_text (v : hvalue) : text :=
  match v with
  | HText s => s
  | HNum x => show_num 7 x
  | HList l => join (txt ",") (map (show_num 1) l)
  end.
(** header.py 535-540. *)
Definition key_text (k : text) : text :=
  replace (txt "MTEdit.") (txt "MTEdit:") (replace_char " " [] (title (replace_char "_" [" "%char] k))).
(** header.py 511-544 [write_header]; the value of g_p_s is that of gps. *)
Definition write_header (h : head) : list text :=
  [] :: map (fun fk => txt "$" ++ key_text (snd fk) ++ txt "=" ++ capitalize (value_text (h_value h (fst fk)))) header_keys.

(** ** Reading *)
(** What is assigned: a str or a list of floats. *)
Inductive given_value : Type := GStr (s : text) | GList (l : list pynum).
Definition ends_with (p s : text) : bool := prefix_of (rev p) (rev s).
(** common/enumerations.py 25-48: a member, ignoring case; a plain enumeration (str, Enum) takes its values only. *)
Definition loose_enum (members : list text) (s : text) : result text :=
  match List.find (fun m => text_eqb (lower s) (lower m)) members with Some m => Ok m | None => Err ValueError end.
Definition strict_enum (members : list text) (s : text) : result text :=
  match List.find (fun m => text_eqb s m) members with Some m => Ok m | None => Err ValueError end.
Definition to_number (s : text) : result pynum := match read_float s with Some x => Ok x | None => Err ValueError end.
(** zonge/metadata/unit.py 60-90. *)
Definition length_unit (s : text) : result text :=
  if text_eqb s [] then Ok [] else match get_unit_object true s with Ok u => Ok (u_name u) | Err _ => Err KeyError end.
(** The validation of the value of each attribute: survey.py, tx.py, auto.py, phase_slope.py, d_plus.py, mt_edit.py, rx.py,
    gps.py 77-85 and unit.py 60-90. *)
Definition validate_field (f : hfield) (v : given_value) : result hvalue :=
  match f, v with
  | FHpr, GList l => Ok (HList l)
  | _, GList _ => Err ValueError
  | FType, GStr s => bindR (loose_enum data_types s) (fun m => Ok (HText m))
  | FArray, GStr s => bindR (strict_enum arrays s) (fun m => Ok (HText m))
  | FTx, GStr s => bindR (loose_enum tx_types s) (fun m => Ok (HText m))
  | FFlip, GStr s | FToZ, GStr s | FDplus, GStr s => bindR (loose_enum yes_no s) (fun m => Ok (HText m))
  | FSmooth, GStr s => bindR (strict_enum smooths s) (fun m => Ok (HText m))
  | FVersion, GStr s | FStation, GStr s => Ok (HText s)
  | FLength, GStr s => bindR (to_number s) (fun x => Ok (HNum x))
  | FHpr, GStr _ => Err ValueError
  | FLat, GStr s => bindR (validate_position Latitude (GText s)) (fun x => Ok (HNum x))
  | FLon, GStr s => bindR (validate_position Longitude (GText s)) (fun x => Ok (HNum x))
  | FUnit, GStr s => bindR (length_unit s) (fun u => Ok (HText u))
  end.
Definition set_field (h : head) (f : hfield) (v : hvalue) : head :=
  mkHead (fun g => if hfield_dec g f then v else h_value h g) (h_other h) (h_comps h).
(** The groups of a header (header.py 30-211) and those of m_t_edit. *)
Definition groups : list text :=
  map txt ["survey"; "tx"; "rx"; "m_t_edit"; "m_t_f_t24"; "gps"; "gdp"; "ch"; "stn"; "line"; "unit"; "job"]%string.
Definition edit_groups : list text := map txt ["auto"; "phase_slope"; "d_plus"]%string.
Definition memb (s : text) (l : list text) : bool := existsb (text_eqb s) l.
Definition raw_text (v : given_value) : text := match v with GStr s => s | GList l => join (txt ",") (map (show_num 1) l) end.
Definition set_other (h : head) (k : text) (v : given_value) : head := mkHead (h_value h) (h_other h ++ [(k, raw_text v)]) (h_comps h).
Definition field_of (k : text) : option hfield :=
  option_map fst (List.find (fun fk => text_eqb k (replace (txt "g_p_s") (txt "gps") (snd fk))) header_keys).
(** metadata.py 146-187 [update_attribute] of a header: a known attribute is validated, any other attribute of a known
    group (extra="allow") is set, an unknown group raises.  Names without a group are only kept. *)
Definition update_attribute (h : head) (k : text) (v : given_value) : result head :=
  match field_of k with
  | Some f => bindR (validate_field f v) (fun x => Ok (set_field h f x))
  | None =>
      match split_on "." k with
      | [k0] => if memb k0 groups then Err ValueError else Ok (set_other h k v)
      | [g; _] => if memb g groups then Ok (set_other h k v) else Err AttributeError
      | [g; g2; _] => if text_eqb g (txt "m_t_edit") && memb g2 edit_groups then Ok (set_other h k v) else Err AttributeError
      | _ => Err AttributeError
      end
  end.
(** An attribute after a $Rx.Cmp line (header.py 281-284): of the receiver (rx.py) or the channel (ch.py).  The last
    component in the list is the one set last. *)
Definition comp_value (g a : text) (v : given_value) : result text :=
  if text_eqb g (txt "rx") then
    if text_eqb a (txt "cmp") then match v with GStr s => strict_enum cmps s | GList _ => Err ValueError end
    else if text_eqb a (txt "length") then match v with GStr s => bindR (to_number s) (fun _ => Ok s) | GList _ => Err ValueError end
    else if text_eqb a (txt "h_p_r") then match v with GList _ => Ok (raw_text v) | GStr _ => Err ValueError end
    else Ok (raw_text v)
  else Ok (raw_text v).
Fixpoint put_comp (c k v : text) (l : list (text * list (text * text))) : list (text * list (text * text)) :=
  match l with
  | [] => []
  | (c', kv) :: r => if text_eqb c c' then (c', kv ++ [(k, v)]) :: r else (c', kv) :: put_comp c k v r
  end.
Definition update_comp (h : head) (c k : text) (v : given_value) : result head :=
  match split_on "." k with
  | [g; a] =>
      if memb g [txt "rx"; txt "ch"] then
        bindR (comp_value g a v) (fun s => Ok (mkHead (h_value h) (h_other h) (put_comp c k s (h_comps h))))
      else Err KeyError
  | _ => Err ValueError
  end.
(** header.py 282: a new entry, at its first place in the dictionary. *)
Fixpoint fresh_comp (c : text) (l : list (text * list (text * text))) : list (text * list (text * text)) :=
  match l with
  | [] => [(c, [])]
  | (c', kv) :: r => if text_eqb c c' then (c, []) :: r else (c', kv) :: fresh_comp c r
  end.
Fixpoint map_result {A B : Type} (f : A -> result B) (l : list A) : result (list B) :=
  match l with
  | [] => Ok []
  | x :: r => bindR (f x) (fun y => bindR (map_result f r) (fun t => Ok (y :: t)))
  end.
(** header.py 253-257. *)
Definition read_key (k : text) : result text :=
  bindR (map_result validate_attribute (split_on "." (replace_char ":" ["."%char] k))) (fun l => Ok (join (txt ".") l)).
(** header.py 258-278. *)
Definition read_value (k v : text) : result given_value :=
  let v := strip v in
  let v := if ends_with (txt ".proj") k || ends_with (txt ".type") k || ends_with (txt ".datum") k then v else lower v in
  if has_char "," v && ends_with (txt ".h_p_r") k
  then bindR (map_result (fun s => to_number (strip s)) (split_on "," v)) (fun l => Ok (GList l))
  else if contains (txt "length") k
       then match split_ws v with [] => Err IndexError | w :: _ => Ok (GStr w) end
       else Ok (GStr v).
Definition is_header_line (s : text) : bool :=
  match find (txt "=") s with Some (S _) => prefix_of (txt "$") s | _ => false end.
(** header.py 251-294: one line.  The state is the header, the current component and the data lines. *)
Definition read_line (st : head * option text * list text) (s : text) : result (head * option text * list text) :=
  let '(h, comp, data) := st in
  if is_header_line s then
    match split_on "=" (tl s) with
    | [k; v] =>
        bindR (read_key k) (fun k =>
        bindR (read_value k v) (fun v =>
        let '(h, comp, data) :=
          if contains (txt "rx.cmp") k
          then (mkHead (h_value h) (h_other h) (fresh_comp (raw_text v) (h_comps h)), Some (raw_text v), data ++ [s])
          else (h, comp, data) in
        bindR (match comp with
               | Some c => update_comp h c k v
               | None => update_attribute h (replace (txt "g_d_p") (txt "gdp") (replace (txt "g_p_s") (txt "gps") k)) v
               end) (fun h => Ok (h, comp, data))))
    | _ => Err ValueError
    end
  else Ok (h, comp, if 2 <? length s then data ++ [s] else data).
Fixpoint read_lines (st : head * option text * list text) (lines : list text) : result (head * option text * list text) :=
  match lines with
  | [] => Ok st
  | s :: r => bindR (read_line st s) (fun st => read_lines st r)
  end.
(** header.py 233-296 [read_header]. *)
Definition read_header (h : head) (lines : list text) : result (head * list text) :=
  bindR (read_lines (h, None, []) lines) (fun st => let '(h, _, data) := st in Ok (h, data)).
(** Text of a file and the lines of a file ([fid.readlines()]; universal newlines are not modelled). *)
Fixpoint readlines (s : text) : list text :=
  match s with
  | [] => []
  | c :: r =>
      if Ascii.eqb c newline then [c] :: readlines r
      else match readlines r with [] => [[c]] | l :: ls => (c :: l) :: ls end
  end.
