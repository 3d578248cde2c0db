(** Model of the standards dictionaries: /repo/mt_metadata/base/schema.py 34-390 (BaseDict) and the validation of their entries,
    /repo/mt_metadata/utils/validators.py 99-141 and 427-757.  MTValidatorError and MTSchemaError are [ValueError]. *)
From Verif Require Import PyBase PyText PyNum PyFloat PyRepr ZmmModel JfileModel ValidatorsModel EdiMetaModel EdiMetaSpec.
Local Open Scope list_scope.

(** ** Values *)
Inductive cell : Type := CNone | CBool (b : bool) | CInt (z : Z) | CFloat (q : Q) | CText (s : text) | CList (l : list cell).
(** repr; the one of a text is modelled for texts without quotes, backslashes and control characters. *)
Fixpoint repr (c : cell) : text :=
  match c with
  | CNone => txt "None"
  | CBool b => txt (if b then "True" else "False")
  | CInt z => show_int z
  | CFloat q => show_float q
  | CText s => "'"%char :: s ++ ["'"%char]
  | CList l => "["%char :: join (txt ", ") (map repr l) ++ ["]"%char]
  end.
(** str and "{0}".format *)
Definition str (c : cell) : text := match c with CText s => s | _ => repr c end.
Definition is_list (c : cell) : bool := match c with CList _ => true | _ => false end.

(** An entry of the standards: a dictionary with exactly the keys of REQUIRED_KEYS without "attribute"
    (/repo/mt_metadata/__init__.py 72-83).  The type is given by its name. *)
Record entry : Type := mkV { v_type : cell; v_required : cell; v_units : cell; v_style : cell; v_description : cell; v_options : cell;
                             v_alias : cell; v_example : cell; v_default : cell }.
Definition required_keys : list text :=
  map txt ["attribute"; "type"; "required"; "units"; "style"; "description"; "options"; "alias"; "example"; "default"]%string.

(** validators.py 278-305 *)
Definition check_required (c : cell) : result cell :=
  match c with
  | CBool b => Ok (CBool b)
  | CText s => bindR (validate_required s) (fun b => Ok (CBool b))
  | _ => Err ValueError
  end.
(** 308-362 *)
Definition check_type (c : cell) : result cell :=
  match c with CText s => bindR (validate_type s) (fun t => Ok (CText t)) | _ => Err ValueError end.
(** 365-391 *)
Definition check_units (c : cell) : result cell :=
  match c with
  | CNone => Ok CNone
  | CText s => bindR (validate_units (Some s)) (fun u => Ok (match u with Some u => CText u | None => CNone end))
  | _ => Err ValueError
  end.
(** 394-424 *)
Definition check_style (c : cell) : result cell :=
  match c with
  | CNone => Ok (CText (txt "name"))
  | CText s => bindR (validate_style (Some s)) (fun t => Ok (CText t))
  | _ => Err ValueError
  end.
(** 427-446 *)
Definition check_description (c : cell) : result cell := match c with CText s => Ok (CText s) | _ => Err ValueError end.
(** 445-509: options and alias are treated in the same way. *)
Definition check_options (c : cell) : result cell :=
  match c with
  | CText s => Ok (CList (map CText (validate_options s)))
  | CList l => Ok (CList (map (fun x => CText (str x)) l))
  | CBool _ | CInt _ | CFloat _ => Ok (CList [CText (str c)])
  | CNone => Err ValueError
  end.
(** 512-528 *)
Definition check_example (c : cell) : cell := CText (str c).

(** 626-638: a text that is a list. *)
Definition list_of_text (s : text) : list text :=
  let delimiter := if has_char "," s then ","%char else if has_char " " (strip s) then " "%char else if has_char ";" s then ";"%char else " "%char in
  map strip (split_on delimiter (remove_brackets s)).
Definition float_of (c : cell) : result Q :=
  match c with
  | CText s => match read_float s with Some (Fin q) => Ok q | Some NonFinite => Err OverflowError | None => Err ValueError end
  | CInt z => Ok (inject_Z z)
  | CBool b => Ok (if b then 1 else 0)%Q
  | CFloat q => Ok q
  | _ => Err TypeError
  end.
Definition truncate (q : Q) : Z := Z.quot (Qnum q) (Zpos (Qden q)).
Definition is_true (c : cell) : bool :=
  match c with
  | CBool b => b
  | CInt z => (z =? 1)%Z
  | CFloat q => Qeq_bool q 1
  | CText s => existsb (text_eqb s) [txt "true"; txt "True"; txt "TRUE"; txt "1"]
  | _ => false
  end.
Definition is_false (c : cell) : bool :=
  match c with
  | CBool b => negb b
  | CInt z => (z =? 0)%Z
  | CFloat q => Qeq_bool q 0
  | CText s => existsb (text_eqb s) [txt "false"; txt "False"; txt "FALSE"; txt "0"]
  | _ => false
  end.
(** 579-720 (validate_value_type); the types are the results of validate_type.  Infinities and nan are outside of the model, and a list of
    lists cannot be converted.  A text that should be a list or dictionary falls through to the end of the function, which returns None. *)
Definition convert (c : cell) (t : text) : result cell :=
  let is (s : string) := text_eqb t (txt s) in
  if is "object"%string then Ok c else
  match c with
  | CNone => Ok CNone
  | CText s =>
      if is "string"%string then Ok c
      else if is "integer"%string then
        (if existsb (text_eqb (lower s)) [txt "none"; txt "nan"; []] then Ok CNone
         else match read_int s with Some z => Ok (CInt z) | None => Err ValueError end)
      else if is "float"%string then bindR (float_of c) (fun q => Ok (CFloat q))
      else if is "boolean"%string then
        (if existsb (text_eqb (lower s)) [txt "false"; txt "0"] then Ok (CBool false)
         else if existsb (text_eqb (lower s)) [txt "true"; txt "1"] then Ok (CBool true) else Err ValueError)
      else Ok CNone
  | CBool b =>
      if (is "boolean" || is "integer")%string%bool then Ok c
      else if is "float"%string then Ok (CFloat (if b then 1 else 0))
      else if is "string"%string then Ok (CText (txt (if b then "1" else "0")))
      else Ok (CInt (if b then 1 else 0))
  | CInt z =>
      if is "float"%string then Ok (CFloat (inject_Z z))
      else if is "string"%string then Ok (CText (show_int z))
      else Ok (CInt z)
  | CFloat q =>
      if is "integer"%string then Ok (CInt (truncate q))
      else if is "string"%string then Ok (CText (show_float q))
      else Ok (CFloat q)
  | CList l =>
      if is "string"%string then Ok (CList (map (fun x => CText (replace_char quote_char [] (replace_char "'" [] (str x)))) l))
      else if is "integer"%string then bindR (mapR float_of l) (fun l => Ok (CList (map (fun q => CInt (truncate q)) l)))
      else if is "float"%string then bindR (mapR float_of l) (fun l => Ok (CList (map CFloat l)))
      else if is "boolean"%string then
        Ok (CList (flat_map (fun x => if is_true x then [CBool true] else if is_false x then [CBool false] else []) l))
      else Ok c
  end.
Definition no_value (c : cell) : bool :=
  match c with
  | CNone => true
  | CText s => existsb (text_eqb s) [txt "None"; txt "none"; txt "unknown"]
  | _ => false
  end.
Definition validate_value_type (c : cell) (t style : text) : result cell :=
  if no_value c then Ok CNone
  else if text_eqb t (txt "h5py_reference") then Ok c
  else bindR (validate_type t) (fun t =>
    if text_eqb t (txt "h5py_reference") then Err KeyError
    else match c with
         | CText s => if contains (txt "list") style then convert (CList (map CText (list_of_text s))) t else convert c t
         | _ => convert c t
         end).
(** 531-576 (validate_default), for validated type, required, style and options.  Where no branch sets the value, returning it raises
    UnboundLocalError. *)
Definition date_default : text := txt "1980-01-01T00:00:00+00:00".
Definition has_date (style : text) : bool := (contains (txt "date") style || contains (txt "time") style)%bool.
Definition validate_default (required : bool) (t style : text) (options : list cell) (d : cell) : result cell :=
  if required then
    match d with
    | CNone =>
        if contains (txt "list") style then Ok (CList [])
        else if has_date style then Ok (CText date_default)
        else if contains (txt "controlled") style then
          (if existsb (fun o => match o with CText s => text_eqb s (txt "other") | _ => false end) options then Ok CNone
           else match options with o :: _ => Ok o | [] => Err IndexError end)
        else if (text_eqb t (txt "integer") || text_eqb t (txt "float"))%bool then Ok (CInt 0)
        else if text_eqb t (txt "string") then Ok (CText (txt "none"))
        else if text_eqb t (txt "bool") then Ok (CBool false)
        else if text_eqb t (txt "h5py_reference") then Ok CNone
        else Err UnboundLocalError
    | _ => validate_value_type d t style
    end
  else if has_date style then Ok (CText date_default) else Ok CNone.
(** 723-757 (validate_value_dict): the entry is changed in place; here the changed entry is the result. *)
Definition validate_entry (v : entry) : result entry :=
  bindR (check_type (v_type v)) (fun t => bindR (check_required (v_required v)) (fun r =>
  bindR (check_units (v_units v)) (fun u => bindR (check_style (v_style v)) (fun s =>
  bindR (check_description (v_description v)) (fun d => bindR (check_options (v_options v)) (fun o =>
  bindR (check_options (v_alias v)) (fun a =>
  let e := check_example (v_example v) in
  match t, r, s, o with
  | CText t0, CBool r0, CText s0, CList o0 =>
      bindR (validate_default r0 t0 s0 o0 (v_default v)) (fun x => Ok (mkV t r u s d o a e x))
  | _, _, _, _ => Err TypeError
  end))))))).

(** ** The dictionary *)
Definition standards : Type := list (text * entry).
(** schema.py 66-67 *)
Definition setitem (k : text) (v : entry) (d : standards) : result standards :=
  bindR (validate_entry v) (fun v => Ok (dset text_dec k v d)).
(** 69-88: a missing key gives a default, a dictionary of eight keys (no "alias"). *)
Inductive item : Type := Entry (v : entry) | DefaultSchema.
Definition getitem (k : text) (d : standards) : result item :=
  match dget text_dec k d with Some v => Ok (Entry v) | None => Ok DefaultSchema end.
(** 90-95 *)
Definition delitem (k : text) (d : standards) : standards := ddel text_dec k d.
(** What MutableMapping makes of these (Python's collections/abc.py): in, get, pop, setdefault and update. *)
Definition contains_key (k : text) (d : standards) : bool := match getitem k d with Err KeyError => false | _ => true end.
Definition get (k : text) (default : item) (d : standards) : result item :=
  match getitem k d with Err KeyError => Ok default | x => x end.
Definition pop (k : text) (d : standards) : result (item * standards) := bindR (getitem k d) (fun v => Ok (v, delitem k d)).
(** update: one assignment after the other; what was assigned before an exception stays. *)
Fixpoint update (kvs : list (text * entry)) (d : standards) : standards * option exn :=
  match kvs with
  | [] => (d, None)
  | (k, v) :: r => match setitem k v d with Ok d' => update r d' | Err e => (d, Some e) end
  end.
(** 118-123: an empty list raises IndexError, which is not caught. *)
Definition name (d : standards) : result text := match dkeys d with k :: _ => Ok k | [] => Err IndexError end.
(** 125-160 (add_dict); an empty or absent name or list of keys is [] *)
Definition add_dict (add : list (text * entry)) (prefix : text) (keys : list text) (d : standards) : standards * option exn :=
  let add := if nonempty keys then filter (fun kv => memb text_dec (fst kv) keys) add else add in
  let add := if nonempty prefix then map (fun kv => (prefix ++ "."%char :: fst kv, snd kv)) add else add in
  update add d.
(** 165-243 (to_latex): what it does to the stored entries, 213-215. *)
Definition latex_entry (v : entry) : entry :=
  match v_options v, v_description v with
  | CList (o :: l), CText s =>
      mkV (v_type v) (v_required v) (v_units v) (v_style v) (CText (s ++ txt ".  Options: " ++ str (CList (o :: l)))) (v_options v)
          (v_alias v) (v_example v) (v_default v)
  | _, _ => v
  end.
Definition to_latex (d : standards) : standards := map (fun kv => (fst kv, latex_entry (snd kv))) d.

(** ** Comma separated files *)
(** 313-326: the text of a value. *)
Definition csv_cell (c : cell) : text :=
  match c with
  | CList [] => txt "None"
  | CList l => replace_char "'" [] (replace_char "," (txt "|") (quote_char :: str (CList l) ++ [quote_char]))
  | _ => str c
  end.
Definition csv_row (k : text) (v : entry) : text :=
  join (txt ",") (k :: map csv_cell [v_type v; v_required v; v_units v; v_style v; v_description v; v_options v; v_alias v; v_example v; v_default v]).
(** 291-331 (to_csv): the text of the file. *)
Definition to_csv (d : standards) : text :=
  join [nl] (join (txt ",") required_keys
             :: flat_map (fun k => match dget text_dec k d with Some v => [csv_row k v] | None => [] end) (sort_texts (dkeys d))).
(** str.split(sep, n) *)
Fixpoint split_max (n : nat) (c : ascii) (s : text) : list text :=
  match n with
  | O => [s]
  | S n => match split1 c s with (a, Some b) => a :: split_max n c b | (a, None) => [a] end
  end.
Definition entry_of (row : list (text * text)) : result entry :=
  let get k := dget text_dec (txt k) row in
  match get "type"%string, get "required"%string, get "units"%string, get "style"%string, get "description"%string, get "options"%string,
        get "alias"%string, get "example"%string, get "default"%string with
  | Some t, Some r, Some u, Some s, Some d, Some o, Some a, Some e, Some x =>
      Ok (mkV (CText t) (CText r) (CText u) (CText s) (CText d) (CText o) (CText a) (CText e) (CText x))
  | _, _, _, _, _, _, _, _, _ => Err ValueError
  end.
(** 270-286: one line. *)
Definition read_row (header : list text) (line : text) : result (text * entry) :=
  let row := combine header (map strip (split_max (List.length header - 1) "," (strip line))) in
  match dget text_dec (txt "attribute") row with
  | None => Err KeyError
  | Some k => bindR (validate_attribute k) (fun k => bindR (bindR (entry_of row) validate_entry) (fun v => Ok (k, v)))
  end.
(** 245-289 (from_csv): the entries are validated, and again when they are stored. *)
Definition same_keys (l l' : list text) : bool := if list_eq_dec text_dec (sort_texts l) (sort_texts l') then true else false.
Definition from_csv (file : text) (d : standards) : result (standards * option exn) :=
  match readlines file with
  | [] => Err IndexError
  | first :: lines =>
      let header := map (fun s => lower (strip s)) (split_on "," (strip first)) in
      if same_keys header required_keys then
        bindR (mapR (read_row header) (filter (fun l => negb (List.length l <? 2)%nat) lines)) (fun kvs =>
        Ok (update (dupdate text_dec [] kvs) d))
      else Err ValueError
  end.
