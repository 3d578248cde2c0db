(** Model of the translation between StationXML and the metadata:
    /repo/mt_metadata/timeseries/stationxml/utils.py 41-229, xml_station_mt_station.py 333-382, xml_equipment_mt_run.py 135-185
    and xml_channel_mt_channel.py 334-467. *)
From Verif Require Import PyBase PyText PyNum PyFloat PyRepr EnumModel ZmmModel.
Local Open Scope list_scope.

(** ** Dictionaries of names *)
(** A value of a translation dictionary: None, a name or a list of names. *)
Inductive tval : Type := TNone | TName (s : text) | TList (l : list text).
(** utils.py 54-68 (flip_dict). *)
Definition flip_entry (d : list (text * text)) (kv : option text * tval) : list (text * text) :=
  match snd kv with
  | TNone => d
  | TName s => if text_eqb s (txt "special") then d
               else match fst kv with None => d | Some k => dset text_dec s k d end
  | TList l => match fst kv with None => d | Some k => fold_left (fun d v => dset text_dec v k d) l d end
  end.
Definition flip_dict (d : list (option text * tval)) : list (text * text) := fold_left flip_entry d [].
(** xml_network_mt_survey.py 142: the licence read for a status; update_attribute validates it. *)
Definition read_release (ids : list text) (status : text) : result text :=
  match dget text_dec status (flip_dict (map (fun kv => (fst kv, TName (snd kv))) (release_dict ids))) with
  | Some name => validate_license ids (EText name)
  | None => Err KeyError
  end.

(** ** Comments *)
Definition count_char (c : ascii) (s : text) : nat := List.length (filter (Ascii.eqb c) s).
(** [s.split(p, 1)] for a text [p]. *)
Definition split1_str (p s : text) : text * option text :=
  match find p s with Some n => (firstn n s, Some (skipn (n + List.length p) s)) | None => (s, None) end.
Definition cdict : Type := list (text * option text).
Definition ends_comma (s : text) : bool := match rev s with c :: _ => Ascii.eqb c "," | [] => false end.
(** utils.py 89-143 (parse).  [fuel] is the number of calls still allowed: 21 minus the depth.  The unpacking of line 106 fails if
    "comments:" is only before "author:". *)
Fixpoint parse (fuel : nat) (s : text) (filled : cdict) : result cdict :=
  match fuel with
  | O => Ok filled
  | S fuel' =>
      if (contains (txt "author:") s && contains (txt "comments:") s)%bool then
        let rest := match snd (split1_str (txt "author:") s) with Some r => r | None => [] end in
        match split1_str (txt "comments:") rest with
        | (a, Some c) => let a := strip a in
                         Ok [(txt "author", Some (if ends_comma a then removelast a else a)); (txt "comments", Some (strip c))]
        | (_, None) => Err ValueError
        end
      else
        match split1 ":" s with
        | (k, None) => Ok (dset text_dec k None filled)
        | (k, Some other) =>
            match split1 ":" other, split1 "," other with
            | (a, Some _), (b, Some rest) =>
                if (List.length a <? List.length b)%nat then
                  if (1 <? count_char ":" other)%nat then
                    parse fuel' (strip rest) (dset text_dec k (Some (replace_char ":" (txt "--") (strip b))) filled)
                  else Ok (dset text_dec k (Some (strip (replace_char ":" (txt "--") other))) filled)
                else parse fuel' (strip rest) (dset text_dec k (Some (strip b)) filled)
            | (a, Some _), (_, None) =>
                if (0 <? List.length a)%nat then Ok (dset text_dec k (Some (strip a)) filled)
                else Ok (dset text_dec k (Some (strip other)) filled)
            | (_, None), _ => Ok (dset text_dec k (Some (strip other)) filled)
            end
        end
  end.
(** utils.py 78-81, 145-151 (read_xml_comment). *)
Inductive cvalue : Type := CText (s : text) | CDict (d : cdict).
Definition comment_key (subject : option text) : text :=
  match subject with Some s => lower (replace_char " " (txt "_") (strip s)) | None => txt "mt" end.
Definition comment_value (v : text) : result cvalue :=
  if has_char ":" v then bindR (parse 21 v []) (fun d => Ok (CDict d)) else Ok (CText v).
Definition read_comment (subject : option text) (v : text) : result (text * cvalue) :=
  bindR (comment_value v) (fun c => Ok (comment_key subject, c)).
(** utils.py 207-219 (make_mt_comments, a dictionary of names): the values that are set, by the last part of their names. *)
Definition pair_text (kv : text * text) : text := fst kv ++ txt ": " ++ snd kv.
Definition pairs_text (kvs : list (text * text)) : text := join (txt ", ") (map pair_text kvs).
Definition last_part (s : text) : text := last (split_on "." s) [].
Definition dict_comment (get : text -> option text) (parts : list text) : text :=
  pairs_text (flat_map (fun p => match get p with Some v => if nonempty v then [(last_part p, v)] else [] | None => [] end) parts).

(** xml_station_mt_station.py 352-380 (_add_run_comments): the assignments to runs, given the ids of the runs of the station. *)
Inductive run_update : Type := RComment (text_ : text) | RSet (attr : text) (value : option text).
Definition show_opt (v : option text) : text := match v with Some s => s | None => txt "None" end.
Definition run_comment (ids : list text) (key : text) (v : cvalue) : result (list (text * run_update)) :=
  match split1 ":" key with
  | (_, None) => Err IndexError
  | (_, Some r) =>
      let '(id, attr) := match split1 "." r with (a, Some b) => (a, Some b) | (a, None) => (r, None) end in
      if existsb (text_eqb id) ids then
        match v with
        | CText _ => Ok []
        | CDict d => Ok (map (fun kv => (id, match attr with
              | Some a => if nonempty a then
                            if text_eqb a (txt "comments") then RComment (fst kv ++ txt ": " ++ show_opt (snd kv))
                            else RSet (a ++ txt "." ++ fst kv) (snd kv)
                          else RSet (fst kv) (snd kv)
              | None => RSet (fst kv) (snd kv)
              end)) d)
        end
      else Ok []
  end.

(** ** Electrodes and dipoles *)
(** xml_channel_mt_channel.py 309-312 and 336-371. *)
Definition electrode_text (pid nid : text) : text := txt "positive: " ++ pid ++ txt ", negative: " ++ nid.
Definition nth_part (c : ascii) (n : nat) (s : text) : result text := match nth_error (split_on c s) n with Some w => Ok w | None => Err IndexError end.
Definition electrode_ids (s : text) : result (text * text) :=
  if has_char "," s then
    match split_on "," s with
    | [a; b] => if has_char ":" s
                then bindR (nth_part ":" 1 a) (fun x => bindR (nth_part ":" 1 b) (fun y => Ok (strip x, strip y)))
                else Ok (strip a, strip b)
    | _ => Err ValueError
    end
  else Ok (s, s).
(** xml_channel_mt_channel.py 298 and 373-386; a description without words fails. *)
Definition dipole_text (q : Q) : text := show_float q ++ txt " meters".
Definition dipole_length (s : text) : result pynum :=
  match split_ws s with [] => Err IndexError | w :: _ => Ok (match read_float w with Some x => x | None => Fin 0 end) end.

(** ** Equipment descriptions *)
(** xml_equipment_mt_run.py 161-185 (_make_description); names without "data_logger.". *)
Definition make_description (get : text -> option text) (names : list text) : text :=
  pairs_text (flat_map (fun p => match get p with Some v => if nonempty v then [(p, v)] else [] | None => [] end) names).
(** xml_equipment_mt_run.py 135-155 (_parse_description): the attributes that are set, in order. *)
Definition unset_words : list text := [[]; txt "None"; txt "null"].
Fixpoint parse_parts (parts : list text) : result (list (text * text)) :=
  match parts with
  | [] => Ok []
  | p :: r =>
      match split_on ":" p with
      | [k; v] => bindR (parse_parts r) (fun d =>
                    if existsb (text_eqb (strip v)) unset_words then Ok d else Ok ((txt "data_logger." ++ strip k, strip v) :: d))
      | _ => Err ValueError
      end
  end.
Definition parse_description (s : text) : result (list (text * text)) := parse_parts (split_on "," s).

(** xml_equipment_mt_run.py 122-123 and 94-95: the id of the run. *)
Definition run_resource (id : text) : text := txt "mt.run.id:" ++ id.
Definition read_run_id (s : text) : result text := nth_part ":" 1 s.

(** ** Run ids of a channel *)
(** xml_channel_mt_channel.py 443-467 (_make_xml_comments): subjects and values of the comments. *)
Fixpoint channel_items (items : list text) : result (list (text * text)) :=
  match items with
  | [] => Ok []
  | i :: r =>
      bindR (if has_char ":" i then match split_on ":" i with [k; v] => Ok [(k, v)] | _ => Err ValueError end
             else if (has_char "[" i && has_char "]" i)%bool then
               Ok (flat_map (fun w => let w := strip w in if nonempty w then [(txt "mt.run.id", w)] else [])
                            (split_on "," (filter (fun c => negb (Ascii.eqb c "[") && negb (Ascii.eqb c "]"))%bool i)))
             else Ok []) (fun a => bindR (channel_items r) (fun b => Ok (a ++ b)))
  end.
Definition channel_comments (value : option text) : result (list (text * text)) :=
  match value with None => Ok [] | Some s => channel_items (split_str (txt "run_ids:") s) end.
(** xml_channel_mt_channel.py 408-441 (_parse_xml_comments) for comments without ":", which are texts: the runs and the comment of
    a channel that had none. *)
Fixpoint read_runs (cs : list (text * text)) (runs : list text) (value : text) : list text * text :=
  match cs with
  | [] => (runs, value)
  | (k, v) :: r =>
      if text_eqb (comment_key (Some k)) (txt "mt.run.id") then read_runs r (runs ++ [v]) value
      else read_runs r runs (value ++ txt ", " ++ comment_key (Some k) ++ txt ": " ++ v)
  end.
Definition channel_runs (cs : list (text * text)) : list text * text :=
  let '(runs, value) := read_runs cs [] [] in
  let ids := txt "run_ids: [" ++ join (txt ",") runs ++ txt "]" in
  (runs, if nonempty value then value ++ txt ", " ++ ids else ids).
