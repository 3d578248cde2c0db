(** Model of the key=value lines of EDI files and of their DEFINEMEAS section:
    /repo/mt_metadata/transfer_functions/io/tools.py 21-64 and /repo/mt_metadata/transfer_functions/io/edi/metadata/
    define_measurement.py, hmeasurement.py and emeasurement.py. *)
From Verif Require Import PyBase PyText PyNum PyFloat PyRepr ZmmModel.
Local Open Scope list_scope.

(** ** The lines of the file *)
(** tools.py 140-169 (_validate_edi_lines) for a file of several lines: quotes and brackets are dropped. *)
Definition quote_char : ascii := "034"%char.
Definition edi_line (s : text) : text :=
  replace_char "]" [] (replace_char "[" [] (replace_char "'" [] (replace_char quote_char [] s))).

(** ** Lines of key=value words *)
Definition gt : ascii := ">"%char.
Definition equals : ascii := "="%char.
(** tools.py 36-37: the text from the first blank on; str.find gives -1 when there is none, so the slice is the last character. *)
Definition drop_tag (s : text) : text :=
  if has_char gt s then
    match find (txt " ") s with Some i => skipn i s | None => skipn (List.length s - 1) s end
  else s.
(** tools.py 40-41; a comment at the very start is not removed. *)
Definition drop_comment (s : text) : text :=
  match find (txt "//") s with Some (S i) => firstn (S i) s | _ => s end.
(** tools.py 44-51. *)
Definition equal_words (s : text) : list text :=
  flat_map (fun p => map strip (split_ws (strip p))) (split_on equals (strip s)).
(** tools.py 59-62: "{0}={1}" of consecutive words, for a list of even length. *)
Fixpoint pair_words (l : list text) : list text :=
  match l with a :: b :: r => (a ++ equals :: b) :: pair_words r | _ => [] end.
(** tools.py 21-64 (_validate_str_with_equals). *)
Definition equal_lines (s : text) : list text :=
  let l := equal_words (drop_comment (drop_tag (strip s))) in
  if Nat.odd (List.length l) then l else pair_words l.

(** ** Measurements *)
(** The fields of HMeasurement and EMeasurement; numbers are decimal. *)
Record hmeas : Type := mkH { h_id : Q; h_chtype : text; h_x : Q; h_y : Q; h_z : Q; h_azm : Q; h_dip : Q; h_acqchan : text }.
Record emeas : Type := mkE { e_id : Q; e_chtype : text; e_x : Q; e_y : Q; e_z : Q; e_x2 : Q; e_y2 : Q; e_z2 : Q; e_azm : Q;
                             e_acqchan : text }.
Inductive meas : Type := MH (h : hmeas) | ME (e : emeas).
Definition meas_id (m : meas) : Q := match m with MH h => h_id h | ME e => e_id e end.

(** hmeasurement.py 122-133, 172-190 and emeasurement.py 152-165, 242-260 (write_meas_line): the format "<" of a float is its str, "<.2f" is
    two decimals, "<" of a text is the text. *)
Definition field (k v : text) : text := k ++ equals :: v.
Definition h_fields (h : hmeas) : list (text * text) :=
  [(txt "ID", show_float (h_id h)); (txt "CHTYPE", h_chtype h); (txt "X", show_fixed 2 (h_x h)); (txt "Y", show_fixed 2 (h_y h));
   (txt "Z", show_fixed 2 (h_z h)); (txt "AZM", show_fixed 2 (h_azm h)); (txt "DIP", show_fixed 2 (h_dip h)); (txt "ACQCHAN", h_acqchan h)].
Definition e_fields (e : emeas) : list (text * text) :=
  [(txt "ID", show_float (e_id e)); (txt "CHTYPE", e_chtype e); (txt "X", show_fixed 2 (e_x e)); (txt "Y", show_fixed 2 (e_y e));
   (txt "Z", show_fixed 2 (e_z e)); (txt "X2", show_fixed 2 (e_x2 e)); (txt "Y2", show_fixed 2 (e_y2 e)); (txt "Z2", show_fixed 2 (e_z2 e));
   (txt "AZM", show_fixed 2 (e_azm e)); (txt "ACQCHAN", e_acqchan e)].
Definition fields_line (tag : text) (l : list (text * text)) : text :=
  join (txt " ") (tag :: map (fun kv => field (fst kv) (snd kv)) l) ++ ["010"%char].
Definition write_meas_line (m : meas) : text :=
  match m with
  | MH h => fields_line (txt ">HMEAS") (h_fields h)
  | ME e => fields_line (txt ">EMEAS") (e_fields e)
  end.

(** The patterns of chtype, hmeasurement.py 33 and emeasurement.py 41: ^(RR|rr|[hHbB])[a-zA-Z0-9_]+$ and ^(RR|rr|[eE])[a-zA-Z0-9_]+$. *)
Definition id_char (c : ascii) : bool := (is_alpha c || is_digit c || Ascii.eqb c "_")%bool.
Definition some_id (s : text) : bool := (nonempty s && forallb id_char s)%bool.
Definition chtype_ok (first : list ascii) (s : text) : bool :=
  match s with
  | [] => false
  | c :: r => ((existsb (Ascii.eqb c) first && some_id r)
               || match r with
                  | d :: r' => ((Ascii.eqb c "R" && Ascii.eqb d "R") || (Ascii.eqb c "r" && Ascii.eqb d "r")) && some_id r'
                  | [] => false
                  end)%bool
  end.
(** A field that is a float, read from text; absent fields have the default 0. *)
Definition get_float (k : text) (d : list (text * text)) : result Q :=
  match dget text_dec k d with
  | None => Ok 0%Q
  | Some s => match read_float s with Some (Fin q) => Ok q | _ => Err ValueError end
  end.
Definition get_text (k : text) (d : list (text * text)) : text := match dget text_dec k d with Some s => s | None => [] end.
(** HMeasurement( **line ), hmeasurement.py 18-149.  Infinities and nan, which pydantic accepts, are outside of the model; extra keys are
    kept by the class but not written and are left out. *)
Definition make_h (d : list (text * text)) : result hmeas :=
  bindR (get_float (txt "id") d) (fun i =>
  if chtype_ok ["h"; "H"; "b"; "B"]%char (get_text (txt "chtype") d) then
  bindR (get_float (txt "x") d) (fun x => bindR (get_float (txt "y") d) (fun y => bindR (get_float (txt "z") d) (fun z =>
  bindR (get_float (txt "azm") d) (fun azm => bindR (get_float (txt "dip") d) (fun dip =>
  Ok (mkH i (get_text (txt "chtype") d) x y z azm dip (get_text (txt "acqchan") d)))))))
  else Err ValueError).

Section Azimuth.
(** The azimuth of a dipole, emeasurement.py 216-223, as a function of x, y, x2 and y2: the arctangent is not modelled. *)
Variable azimuth : Q -> Q -> Q -> Q -> Q.
Definition e_azimuth (e : emeas) : Q := azimuth (e_x e) (e_y e) (e_x2 e) (e_y2 e).
Definition set_azm (a : Q) (e : emeas) : emeas :=
  mkE (e_id e) (e_chtype e) (e_x e) (e_y e) (e_z e) (e_x2 e) (e_y2 e) (e_z2 e) a (e_acqchan e).
(** emeasurement.py 184-194 (update_azimuth_from_coords): run after every validation. *)
Definition update_azm (e : emeas) : emeas :=
  if existsb (fun v => negb (Qeq_bool v 0)) [e_x e; e_y e; e_x2 e; e_y2 e] then
    if Qeq_bool (e_azm e) 0 then set_azm (e_azimuth e) e else e
  else e.
(** EMeasurement( **line ), emeasurement.py 20-194. *)
Definition make_e (d : list (text * text)) : result emeas :=
  bindR (get_float (txt "id") d) (fun i =>
  if chtype_ok ["e"; "E"]%char (get_text (txt "chtype") d) then
  bindR (get_float (txt "x") d) (fun x => bindR (get_float (txt "y") d) (fun y => bindR (get_float (txt "z") d) (fun z =>
  bindR (get_float (txt "x2") d) (fun x2 => bindR (get_float (txt "y2") d) (fun y2 => bindR (get_float (txt "z2") d) (fun z2 =>
  bindR (get_float (txt "azm") d) (fun azm =>
  Ok (update_azm (mkE i (get_text (txt "chtype") d) x y z x2 y2 z2 azm (get_text (txt "acqchan") d))))))))))
  else Err ValueError).

(** ** The DEFINEMEAS section *)
(** An item of _measurement_list: a stripped line or the dictionary of a measurement. *)
Inductive mitem : Type := ILine (s : text) | IDict (d : list (text * text)).
(** define_measurement.py 320-326 and 334-340: the dictionary of the words of a line, key.lower() and the text between the first two "=". *)
Fixpoint add_words (l : list text) (d : list (text * text)) : result (list (text * text)) :=
  match l with
  | [] => Ok d
  | w :: r => match split_on equals w with
              | k :: v :: _ => add_words r (dset text_dec (lower k) v d)
              | _ => Err IndexError
              end
  end.
(** define_measurement.py 293-343 (get_measurement_lists); [found] is meas_find, [acc] the list in reverse.  Before the first measurement
    the last item is a line, after it a dictionary. *)
Definition add_line (count : bool) (acc : list mitem) (line : text) : result (list mitem) :=
  if (2 <? List.length line)%nat then
    if count then
      match equal_lines line, acc with
      | [], _ => Ok acc
      | ws, IDict d :: r => bindR (add_words ws d) (fun d => Ok (IDict d :: r))
      | _, _ => Err TypeError
      end
    else Ok (ILine line :: acc)
  else Ok acc.
Fixpoint measurement_items (lines : list text) (found count : bool) (acc : list mitem) : result (list mitem) :=
  match lines with
  | [] => Ok acc
  | line :: r =>
      if (contains (txt ">=") line && contains (txt "definemeas") (lower line))%bool then measurement_items r true count acc
      else if contains (txt ">=") line then (if found then Ok acc else measurement_items r found count acc)
      else if (found && negb (has_char gt line))%bool then
        bindR (add_line count acc (strip line)) (measurement_items r found count)
      else if found then
        if (match find (txt "!") line with Some (S _) => true | _ => false end) then measurement_items r found count acc
        else if contains (txt "meas") (lower line) then
          bindR (add_words (equal_lines line) []) (fun d => measurement_items r found true (IDict d :: acc))
        else Ok acc
      else measurement_items r found count acc
  end.
Definition get_measurement_lists (lines : list text) : result (list mitem) :=
  bindR (measurement_items lines false false []) (fun l => Ok (rev l)).

(** The measurements of the object, and the local variable value of read_measurement, which keeps what the line before put there: a
    measurement or, after the lines of the section, a text or number ([VOther]). *)
Inductive pyval : Type := VUnset | VOther | VMeas (m : meas).
Definition mdict : Type := list (text * pyval).
Definition set_chtype (c : text) (m : meas) : result meas :=
  match m with
  | MH h => if chtype_ok ["h"; "H"; "b"; "B"]%char c
            then Ok (MH (mkH (h_id h) c (h_x h) (h_y h) (h_z h) (h_azm h) (h_dip h) (h_acqchan h))) else Err ValueError
  | ME e => if chtype_ok ["e"; "E"]%char c
            then Ok (ME (update_azm (mkE (e_id e) c (e_x e) (e_y e) (e_z e) (e_x2 e) (e_y2 e) (e_z2 e) (e_azm e) (e_acqchan e))))
            else Err ValueError
  end.
(** define_measurement.py 397-409: the measurement made from a dictionary. *)
Definition make_value (chtype : text) (d : list (text * text)) (value : pyval) : result pyval :=
  if has_char "h" chtype then bindR (make_h d) (fun h => Ok (VMeas (MH h)))
  else if has_char "e" chtype then
    bindR (make_e d) (fun e =>
      Ok (VMeas (ME (if Qeq_bool (e_azm e) 0 then update_azm (set_azm (e_azimuth e) e) else e))))
  else Ok value.
(** define_measurement.py 396-421: one dictionary of the list. *)
Definition read_dict (d : list (text * text)) (st : pyval * mdict) : result (pyval * mdict) :=
  match dget text_dec (txt "chtype") d with
  | None => Err KeyError
  | Some c =>
      let chtype := lower c in
      bindR (make_value chtype d (fst st)) (fun value =>
      match dget text_dec chtype (snd st) with
      | Some old =>
          match old, value with
          | VMeas m, VMeas m' =>
              if text_eqb (write_meas_line m) (write_meas_line m') then Ok (value, snd st)
              else bindR (set_chtype (upper (txt "rr" ++ chtype)) m') (fun m' =>
                   Ok (VMeas m', dset text_dec (txt "rr" ++ chtype) (VMeas m') (snd st)))
          | VMeas _, VUnset => Err UnboundLocalError
          | _, _ => Err AttributeError
          end
      | None => match value with
                | VUnset => Err UnboundLocalError
                | _ => Ok (value, dset text_dec chtype value (snd st))
                end
      end)
  end.

(** ** The lines of the section *)
(** define_measurement.py 365-394: the attribute and the value of a line; [key in "reflatitude"] asks for a part of the text. *)
Inductive mattr : Type := AText (k : text) (v : text) | AInt (k : text) (v : Z).
Definition line_value (line : text) : result mattr :=
  match split_on equals line with
  | k :: v :: _ =>
      let key := lower k in let value := strip v in
      let n := match read_int value with Some z => z | None => 0%Z end in
      if contains key (txt "reflatitude") then Ok (AText (txt "reflat") value)
      else if contains key (txt "reflongitude") then Ok (AText (txt "reflon") value)
      else if contains key (txt "refelevation") then Ok (AText (txt "refelev") value)
      else if contains key (txt "maxchannels") then Ok (AInt (txt "maxchan") n)
      else if contains key (txt "maxmeasurements") then Ok (AInt (txt "maxmeas") n)
      else if contains key (txt "maxruns") then Ok (AInt (txt "maxrun") n)
      else Ok (AText key value)
  | _ => Err IndexError
  end.
(** define_measurement.py 345-421 (read_measurement): what is assigned to the attributes, in order, and the measurements.  The validation of
    the attributes is modelled elsewhere. *)
Fixpoint read_items (l : list mitem) (attrs : list mattr) (st : pyval * mdict)
    : result (list mattr * mdict) :=
  match l with
  | [] => Ok (attrs, snd st)
  | ILine s :: r => bindR (line_value s) (fun a => read_items r (attrs ++ [a]) (VOther, snd st))
  | IDict d :: r => bindR (read_dict d st) (read_items r attrs)
  end.
Definition read_measurement (lines : list text) : result (list mattr * mdict) :=
  bindR (get_measurement_lists lines) (fun l => read_items l [] (VUnset, [])).
End Azimuth.

(** ** Writing the section *)
(** define_measurement.py 423-438 (_sort_measurements): the keys with their ids, sorted by id, the id 0 replaced by a running number. *)
Fixpoint number_ids (count : Z) (l : list (text * meas)) : list (text * Q) :=
  match l with
  | [] => []
  | (k, m) :: r => if Qeq_bool (meas_id m) 0 then (k, inject_Z count) :: number_ids (count + 1) r
                   else (k, meas_id m) :: number_ids count r
  end.
Fixpoint insert_by (kv : text * Q) (l : list (text * Q)) : list (text * Q) :=
  match l with
  | [] => [kv]
  | kv' :: r => if Qle_bool (snd kv') (snd kv) then kv' :: insert_by kv r else kv :: l
  end.
Definition sort_ids (l : list (text * Q)) : list (text * Q) := fold_left (fun acc kv => insert_by kv acc) l [].
Definition sort_measurements (l : list (text * meas)) : list (text * Q) := sort_ids (number_ids 1 l).
(** define_measurement.py 493-503: an id 0 and an acqchan "0" are replaced before writing. *)
Definition number_meas (q : Q) (m : meas) : meas :=
  let i := if Qeq_bool (meas_id m) 0 then q else meas_id m in
  let a c := if text_eqb c (txt "0") then show_float q else c in
  match m with
  | MH h => MH (mkH i (h_chtype h) (h_x h) (h_y h) (h_z h) (h_azm h) (h_dip h) (a (h_acqchan h)))
  | ME e => ME (mkE i (e_chtype e) (e_x e) (e_y e) (e_z e) (e_x2 e) (e_y2 e) (e_z2 e) (e_azm e) (a (e_acqchan e)))
  end.
Definition numbered (l : list (text * meas)) : list meas :=
  flat_map (fun kq => match dget text_dec (fst kq) l with Some m => [number_meas (snd kq) m] | None => [] end) (sort_measurements l).
(** define_measurement.py 440-505 (write_measurement): the lines of the section, from the texts of its keys; an attribute that is None is
    not written.  The texts of the positions are modelled with the locations. *)
Definition write_measurement (keys : list (text * option text)) (l : list (text * meas)) : list text :=
  ("010"%char :: txt ">=DEFINEMEAS" ++ ["010"%char])
  :: flat_map (fun kv => match snd kv with
                         | Some v => [txt "    " ++ field (upper (fst kv)) v ++ ["010"%char]]
                         | None => []
                         end) keys
  ++ [["010"%char]] ++ map write_meas_line (numbered l).
