(** Model of the data section of an EDI file: mt_metadata/transfer_functions/io/edi/metadata/data_section.py 54-369.

    Simplified: a file is its lines; the keys of the section that are no field are extra attributes and are not modelled; a whole number
    with underscores in it is not one, and a text such as 5.0 is not a whole number for the numeric fields. *)
From Verif Require Import PyBase PyText PyNum PyFloat PyRepr PyFacts JfileModel ZmmModel.
Local Open Scope nat_scope.

(** The fields (54-206); the channels that have a value, by name. *)
Record dsect : Type := mkD { d_nfreq : Z; d_sectid : text; d_nchan : Z; d_maxblocks : Z; d_ids : list (text * text) }.
Definition new_dsect : dsect := mkD 0 [] 0 999 [].
(** 211-225 _kw_list[4:-2] and [-2:] *)
Definition main_names : list text := map txt ["ex"; "ey"; "hx"; "hy"; "hz"]%string.
Definition remote_names : list text := map txt ["rrhx"; "rrhy"]%string.
Definition channel_names : list text := (main_names ++ remote_names)%list.
Definition id_of (d : dsect) (k : text) : option text := dget text_dec k (d_ids d).
Inductive dtype : Type := DZ | DSpectra.

(** ** Writing, 310-352 *)
Definition field_line (k v : text) : text := (txt "    " ++ upper k ++ txt "=" ++ v)%list.
(** [sorted(..., key=lambda x: x[1])] *)
Fixpoint insert_id (x : text * text) (l : list (text * text)) : list (text * text) :=
  match l with [] => [x] | y :: r => if text_leb (snd x) (snd y) then x :: l else y :: insert_id x r end.
Definition sort_ids (l : list (text * text)) : list (text * text) := fold_right insert_id [] l.
Definition with_ids (d : dsect) (names : list text) : list (text * text) :=
  flat_map (fun k => match id_of d k with Some v => [(k, v)] | None => [] end) names.
Definition write_data (out : dtype) (d : dsect) : list text :=
  ([[]; match out with DZ => txt ">=MTSECT" | DSpectra => txt ">SPECTRASECT" end] ++
   [field_line (txt "nfreq") (show_int (d_nfreq d)); field_line (txt "sectid") (d_sectid d);
    field_line (txt "nchan") (show_int (d_nchan d)); field_line (txt "maxblocks") (show_int (d_maxblocks d))] ++
   map (fun kv => field_line (fst kv) (snd kv))
     (filter (fun kv => negb (text_eqb (snd kv) (txt "0"))) (sort_ids (with_ids d main_names) ++ sort_ids (with_ids d remote_names))) ++ [[]])%list.

(** ** Reading *)
Definition is_head (line : text) : bool := (contains (txt ">=") line && contains (txt "sect") (lower line))%bool.
(** 245-269 [get_data]: the lines, the number of the line at which the data begin and the type of the data. *)
Fixpoint get_data (found : bool) (i num : nat) (ty : dtype) (lines : list text) : list text * nat * dtype :=
  match lines with
  | [] => ([], num, ty)
  | line :: r =>
      if is_head line then
        get_data true (S i) i (if contains (txt "spect") (lower line) then DSpectra else if contains (txt "mt") (lower line) then DZ else ty) r
      else if (contains (txt ">") line && found)%bool then ([], i, ty)
      else let '(l, n, t) := get_data found (S i) num ty r in
           ((if (found && (2 <? List.length (strip line)))%bool then strip line :: l else l), n, t)
  end.
(** 284-293: the value of a key; [setattr], with the types of the fields. *)
Definition set_key (d : dsect) (key value : text) : result dsect :=
  let whole f := match read_int value with Some z => Ok (f z) | None => Err ValueError end in
  let '(mkD f s n m ids) := d in
  if text_eqb key (txt "sectid") then Ok (mkD f (replace_char " " (txt "_") value) n m ids)
  else if text_eqb key (txt "nfreq") then whole (fun z => mkD z s n m ids)
  else if text_eqb key (txt "nchan") then whole (fun z => mkD f s z m ids)
  else if text_eqb key (txt "maxblocks") then whole (fun z => mkD f s n z ids)
  else if existsb (text_eqb key) channel_names then
    Ok (mkD f s n m (dset text_dec key (match read_int value with Some z => show_int z | None => value end) ids))
  else Ok d.
Definition unquote (s : text) : text := replace_char """" [] s.
(** 281-303: the loop, with the flag for the list of channels. *)
Fixpoint read_lines (d : dsect) (channels : bool) (cids : list text) (lines : list text) : result (dsect * list text) :=
  match lines with
  | [] => Ok (d, cids)
  | line :: r =>
      match split_on "=" line with
      | k :: v :: _ => bindR (set_key d (lower k) (unquote (strip v))) (fun d' => read_lines d' channels cids r)
      | _ =>
          if contains (txt "//") line then read_lines d true cids r
          else if channels then read_lines d channels (cids ++ (if 10 <? List.length line then split_ws (strip line) else [line]))%list r
          else read_lines d channels cids r
      end
  end.
(** 271-308 [read_data] into the object [d], whose number of the line is [num] and type [ty]. *)
Definition read_data (d : dsect) (num : nat) (ty : dtype) (lines : list text) : result (dsect * list text * nat * dtype) :=
  let '(l, n, t) := get_data false 0 num ty lines in
  bindR (read_lines d false [] l) (fun dc =>
  let cids := match snd dc with [] => map snd (with_ids (fst dc) channel_names) | l => l end in
  Ok (fst dc, cids, n, t)).

(** ** Matching, 354-369 [match_channels]: the channels of the measurements, by type, with their numbers. *)
Definition bare_id (s : text) : text := last (split_str (txt "ch") (lower s)) [].
Definition set_id (d : dsect) (k v : text) : dsect :=
  if existsb (text_eqb k) channel_names then mkD (d_nfreq d) (d_sectid d) (d_nchan d) (d_maxblocks d) (dset text_dec k v (d_ids d)) else d.
Definition match_one (cid : text) (d : dsect) (kv : text * Q) : dsect :=
  match read_float (bare_id cid) with
  | Some (Fin q) => if Qeq_bool q (snd kv) then set_id d (lower (fst kv)) (show_float (snd kv)) else d
  | _ => d
  end.
Definition match_channels (d : dsect) (cids : list text) (chs : list (text * Q)) : dsect :=
  fold_left (fun d cid => fold_left (match_one cid) chs d) cids d.
