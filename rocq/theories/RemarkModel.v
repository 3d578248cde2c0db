(** Model of the comments of stations and surveys held by an EMTF XML object (mt_metadata/transfer_functions/io/emtfxml/emtfxml.py):
    [_parse_comments] and its helpers (527-818), and the comments that the getters of [survey_metadata] (841-853) and of
    [station_metadata] (920-937) compose.

    The attributes of the object are kept as the texts that [str] gives, under their dotted names; an attribute that is [None] or
    empty is absent or empty.  [Comment] objects take a value with a bar apart (CommentModel.v): here a value with a bar goes to
    [other].  Warnings in the log are not modelled. *)
From Verif Require Import PyBase PyText PyFloat ZmmModel.
Local Open Scope nat_scope.
Local Open Scope list_scope.

(** A dipole, a magnetometer or a channel of the site layout: a name and the other attributes *)
Record part : Type := mkPart { n_name : option text; n_attrs : list (text * text) }.
(** The first run of the field notes *)
Record notes : Type := mkNotes { n_run : list (text * text); n_mags : list part; n_dips : list part }.
(** [e_free] is [site.comments.value] *)
Record emtf : Type := mkEmtf { e_description : option text; e_attrs : list (text * text); e_free : option text;
                               e_notes : option notes; e_in : list part; e_out : list part }.

(** 921-931: what the comment of a station is made of, besides the description *)
Definition station_keys : list text :=
  [txt "primary_data.filename"; txt "attachment.description"; txt "attachment.filename";
   txt "site.data_quality_notes.comments.author"; txt "site.data_quality_notes.comments.value";
   txt "site.data_quality_warnings.flag"; txt "site.data_quality_warnings.comments.author";
   txt "site.data_quality_warnings.comments.value"].
(** 843-850: what the comment of a survey is made of *)
Definition survey_keys : list text :=
  [txt "copyright.acknowledgement"; txt "copyright.conditions_of_use"; txt "copyright.release_status";
   txt "copyright.selected_publications"; txt "copyright.additional_info"].
(** common/enumerations.py 190-196 *)
Definition release_values : list text :=
  [txt "Unrestricted Release"; txt "Restricted Release"; txt "Paper Citation Required"; txt "Academic Use Only";
   txt "Conditions Apply"; txt "Data Citation Required"].

Section Remark.
(** [other key value attrs]: [update_attribute] with an attribute not spelled out in [update]; [None] when it raises.
    [run_update], [part_update]: [update_attribute] of a run and [setattr] of a dipole, a magnetometer or a layout channel. *)
Variables (other : text -> text -> list (text * text) -> option (list (text * text)))
          (run_update : text -> text -> list (text * text) -> option (list (text * text)))
          (part_update : text -> text -> part -> result part).

(** [getattr(self, obj).update_attribute(attr_key, value)] (base/metadata.py 146-186); data_quality_warnings.py 15: the flag is an
    integer; copyright.py 46: an enumeration *)
Definition update (key v : text) (a : list (text * text)) : option (list (text * text)) :=
  if text_eqb key (txt "site.data_quality_warnings.flag") then
    match read_int v with Some z => Some (dset text_dec key (show_int z) a) | None => None end
  else if text_eqb key (txt "copyright.release_status") then
    if existsb (text_eqb v) release_values then Some (dset text_dec key v a) else other key v a
  else if existsb (text_eqb key) (station_keys ++ survey_keys) then
    if has_char "|" v then other key v a else Some (dset text_dec key v a)
  else other key v a.

(** ** 527-548 *)
Definition logger_key (key : text) : result text :=
  match split1 "." (replace (txt "datalogger") (txt "instrument") key) with
  | (_, Some k) => Ok k
  | (_, None) => Err IndexError
  end.

(** ** 550-579; [float(value)] when the key has [rating] in it *)
Definition quality_key (key v : text) : result text :=
  match split1 "." key with
  | (_, None) => Err IndexError
  | (_, Some k) =>
      let k1 := replace (txt "dataquality") (txt "data_quality_notes") (txt "site." ++ k) in
      let k2 := if contains (txt "comments") k1 then replace (txt "comments") (txt "comments.value") k1 else k1 in
      let k3 := if contains (txt "author") k2 then replace (txt "author") (txt "comments.author") k2 else k2 in
      if contains (txt "rating") k3 then
        match read_float v with Some _ => Ok k3 | None => Err ValueError end
      else Ok k3
  end.

Fixpoint index_of (f : option text -> bool) (l : list (option text)) : option nat :=
  match l with [] => None | x :: r => if f x then Some 0 else option_map S (index_of f r) end.
Definition is_name (c : text) (o : option text) : bool := match o with Some n => text_eqb n c | None => false end.
Definition is_none (o : option text) : bool := match o with None => true | Some _ => false end.
Fixpoint change_nth (n : nat) (f : part -> result part) (l : list part) : result (list part) :=
  match n, l with
  | _, [] => Err IndexError
  | O, x :: r => bindR (f x) (fun y => Ok (y :: r))
  | S n', x :: r => bindR (change_nth n' f r) (fun r' => Ok (x :: r'))
  end.
(** [l[-1]] *)
Definition change_last (f : part -> result part) (l : list part) : result (list part) := change_nth (length l - 1) f l.

(** 598-604, 662-668: the component and the attribute that a key names *)
Definition component (key word default : text) : result (text * text) :=
  match split1 "." key with
  | (_, None) => Err IndexError
  | (_, Some k) =>
      match split_on "." (replace word [] k) with
      | a :: b :: _ => Ok (a, b)
      | [a] => Ok (default, a)
      | [] => Ok (default, [])
      end
  end.
(** 613-622: the position of the component among the names; the names are in lower case and the component is not (620) *)
Definition lookup (names : list (option text)) (comp : text) : result (option nat) :=
  let low := map (option_map lower) names in
  if existsb (is_name (lower comp)) low then
    match index_of (is_name comp) low with Some i => Ok (Some i) | None => Err ValueError end
  else match index_of is_none low with Some i => Ok (Some i) | None => Ok None end.
(** 636-645: an attribute of an output channel; the first one if none has the name *)
Definition put_out (comp attr v : text) (outs : list part) : result (list part) :=
  change_nth (match index_of (is_name comp) (map n_name outs) with Some i => i | None => 0 end) (part_update attr v) outs.

Definition with_notes (n : notes) (e : emtf) : emtf :=
  mkEmtf (e_description e) (e_attrs e) (e_free e) (Some n) (e_in e) (e_out e).
Definition with_places (i o : list part) (e : emtf) : emtf :=
  mkEmtf (e_description e) (e_attrs e) (e_free e) (e_notes e) i o.

(** ** 581-646; the new dipole is appended to the magnetometers (625) *)
Definition electric (key v : text) (n : notes) (e : emtf) : result emtf :=
  bindR (component key (txt "electrode_") (txt "ex")) (fun ca =>
  let '(comp, attr) := ca in
  let put (name : text) : result emtf :=
    bindR (lookup (map n_name (n_dips n)) comp) (fun i =>
      match i with
      | Some i => bindR (change_nth i (part_update name v) (n_dips n)) (fun d => Ok (with_notes (mkNotes (n_run n) (n_mags n) d) e))
      | None => bindR (change_last (part_update name v) (n_dips n)) (fun d =>
                  Ok (with_notes (mkNotes (n_run n) (n_mags n ++ [mkPart (Some comp) []]) d) e))
      end) in
  if text_eqb attr (txt "chtype") then put (txt "name")
  else if text_eqb attr (txt "manufacturer") then put (txt "manufacturer")
  else if text_eqb attr (txt "azm") then put (txt "azimuth")
  else if existsb (text_eqb attr) [txt "x"; txt "x2"; txt "y"; txt "y2"; txt "z"; txt "z2"] then
    let outs := match e_out e with [] => [mkPart (Some comp) []] | l => l end in
    bindR (put_out comp attr v outs) (fun o => Ok (with_places (e_in e) o e))
  else Ok e).

(** ** 648-723; hx and hy are looked for among the output channels (699-707) *)
Definition magnetic (key v : text) (n : notes) (e : emtf) : result emtf :=
  bindR (component key (txt "magnetometer_") (txt "hx")) (fun ca =>
  let '(comp, attr) := ca in
  let put (name : text) : result emtf :=
    bindR (lookup (map n_name (n_mags n)) comp) (fun i =>
      match i with
      | Some i => bindR (change_nth i (part_update name v) (n_mags n)) (fun m => Ok (with_notes (mkNotes (n_run n) m (n_dips n)) e))
      | None => bindR (change_last (part_update name v) (n_mags n ++ [mkPart (Some comp) []])) (fun m =>
                  Ok (with_notes (mkNotes (n_run n) m (n_dips n)) e))
      end) in
  if text_eqb attr (txt "chtype") then put (txt "name")
  else if text_eqb attr (txt "manufacturer") then put (txt "manufacturer")
  else if text_eqb attr (txt "azm") then put (txt "azimuth")
  else if text_eqb attr (txt "type") then put (txt "type")
  else if text_eqb attr (txt "acqchan") then put (txt "id")
  else if existsb (text_eqb attr) [txt "x"; txt "y"; txt "z"] then
    if existsb (text_eqb comp) [txt "hx"; txt "hy"] then
      let ins := match e_out e with [] => e_in e ++ [mkPart (Some comp) []] | _ => e_in e end in
      bindR (put_out comp attr v (e_out e)) (fun o => Ok (with_places ins o e))
    else if text_eqb comp (txt "hz") then
      let outs := match e_out e with [] => [mkPart (Some comp) []] | l => l end in
      bindR (put_out comp attr v outs) (fun o => Ok (with_places (e_in e) o e))
    else Ok e
  else Ok e).

(** ** 725-765 *)
Definition processing_key (key : text) : option text :=
  let k := replace (txt "software") (txt "processing_software") (replace (txt "processing") (txt "processing_info") key) in
  let k1 := if contains (txt "author.name") k then replace (txt "author.name") (txt "author") k else k in
  if existsb (fun i => contains i k1) [txt "author.email"; txt "author.organization"; txt "processing_software.version"] then None else Some k1.

(** ** 793-813: a key and a value that no helper has used up.  [split1 "." key] leaves the object and the attribute; the whole key is
    given to [update].  [getattr(self, obj)] is part of [other]. *)
Definition assign (key v : text) (e : emtf) (free : list text) : emtf * list text :=
  if has_char "." key then
    match update key v (e_attrs e) with
    | Some a => (mkEmtf (e_description e) a (e_free e) (e_notes e) (e_in e) (e_out e), free)
    | None => (e, free)
    end
  else if text_eqb key (txt "description") then
    (mkEmtf (Some v) (e_attrs e) (e_free e) (e_notes e) (e_in e) (e_out e), free)
  else (e, free ++ [key ++ txt ":" ++ v]).

Definition empty_notes : notes := mkNotes [] [] [].
(** 774-776 *)
Definition need_run (key : text) (e : emtf) : emtf :=
  if contains (txt "fieldnotes") key then match e_notes e with None => with_notes empty_notes e | Some _ => e end else e.

(** 772-815: one part of the comment *)
Definition take_part (p : text) (st : emtf * list text) : result (emtf * list text) :=
  let '(e0, free) := st in
  match split1 ":" p with
  | (_, None) => Ok (e0, free ++ [p])
  | (k0, Some v0) =>
      let key := strip k0 in
      let v := strip v0 in
      let e := need_run key e0 in
      let notes_of := match e_notes e with Some n => n | None => empty_notes end in
      if contains (txt "datalogger") key then
        bindR (logger_key key) (fun k =>
          match e_notes e with
          | Some n => match run_update k v (n_run n) with
                      | Some r => Ok (with_notes (mkNotes r (n_mags n) (n_dips n)) e, free)
                      | None => Ok (assign k v e free)
                      end
          | None => Ok (assign k v e free)
          end)
      else if (contains (txt "fieldnotes") key && contains (txt "dataquality") key)%bool then
        bindR (quality_key key v) (fun k => Ok (assign k v e free))
      else if (contains (txt "fieldnotes") key && contains (txt "electrode_") key)%bool then
        bindR (electric key v notes_of e) (fun e' => Ok (e', free))
      else if (contains (txt "fieldnotes") key && contains (txt "magnetometer_") key)%bool then
        bindR (magnetic key v notes_of e) (fun e' => Ok (e', free))
      else if contains (txt "processing") key then
        match processing_key key with Some k => Ok (assign k v e free) | None => Ok (e, free) end
      else Ok (assign key v e free)
  end.

Fixpoint take_all (parts : list text) (st : emtf * list text) : result (emtf * list text) :=
  match parts with
  | [] => Ok st
  | p :: r => bindR (take_part p st) (take_all r)
  end.

(** 769-770 *)
Definition newline : ascii := ascii_of_nat 10.
Definition unfold_lines (s : text) : text :=
  if (has_char newline s && has_char "=" s)%bool then replace_char "=" (txt ":") (replace_char newline (txt ";") s) else s.

(** ** 756-818 [_parse_comments] *)
Definition parse_comments (c : option text) (e : emtf) : result emtf :=
  match c with
  | None => Ok e
  | Some s =>
      bindR (take_all (split_on ";" (unfold_lines s)) (e, [])) (fun st =>
        let '(e', free) := st in
        Ok (mkEmtf (e_description e') (e_attrs e') (Some (join (txt "; ") free)) (e_notes e') (e_in e') (e_out e')))
  end.

(** ** The getters *)
Definition attr (k : text) (e : emtf) : text := match dget text_dec k (e_attrs e) with Some v => v | None => [] end.
Definition piece (kv : text * text) : list text := match snd kv with [] => [] | _ => [fst kv ++ txt ":" ++ snd kv] end.
(** 920-937 *)
Definition station_comment (e : emtf) : text :=
  join (txt "; ") (flat_map piece ((txt "description", match e_description e with Some d => d | None => [] end) ::
                                   map (fun k => (k, attr k e)) station_keys)).
(** 841-853 *)
Definition survey_comment (e : emtf) : text := join (txt "; ") (flat_map piece (map (fun k => (k, attr k e)) survey_keys)).
End Remark.
