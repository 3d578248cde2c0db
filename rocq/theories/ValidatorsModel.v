(** Model of the string validators in /repo/mt_metadata/utils/validators.py and of the tag-name
    conversion in /repo/mt_metadata/transfer_functions/io/emtfxml/metadata/helpers.py. *)
From Verif Require Import PyBase PyText.

Definition newline : ascii := ascii_of_N 10.

(** [re.findall(".[^A-Z]*", name)], validators.py 267: each match is one character other than a
    newline followed by all characters up to the next capital.  Only newlines at the very start
    can fail to be matched by the dot; they are skipped. *)
Fixpoint drop_newlines (s : text) : text :=
  match s with
  | [] => []
  | c :: r => if Ascii.eqb c newline then drop_newlines r else s
  end.
(** The rest of the current match, and the matches after it. *)
Fixpoint chunk_tail (s : text) : text * list text :=
  match s with
  | [] => ([], [])
  | c :: r => let (cur, more) := chunk_tail r in
              if is_upper c then ([], (c :: cur) :: more) else (c :: cur, more)
  end.
Definition findall_words (s : text) : list text :=
  match drop_newlines s with
  | [] => []
  | c :: r => let (cur, more) := chunk_tail r in (c :: cur) :: more
  end.

(** [re.match("^[0-9]", name)], validators.py 259. *)
Definition starts_with_digit (s : text) : bool :=
  match s with c :: _ => is_digit c | [] => false end.

(** validators.py 229-275 [validate_attribute] (and 144-190 [validate_name], which has the same
    body).  MTValidatorError is [ValueError]. *)
Definition validate_attribute (name : text) : result text :=
  if starts_with_digit name then Err ValueError
  else
    let name1 := if has_char "/" name then replace_char "/" (txt ".") name else name in
    if existsb is_upper name1
    then Ok (lower (replace (txt "._") (txt ".") (join (txt "_") (findall_words name1))))
    else Ok name1.

(** validators.py 193-226 [validate_station_name] for a string argument. *)
Definition station_char (c : ascii) : bool := is_alpha c || is_digit c || Ascii.eqb c "_".
Definition validate_station_name (name : text) : result text :=
  let s := strip name in
  let s := replace_char " " (txt "_") s in
  let s := replace_char "-" (txt "_") s in
  let s := replace_char "." (txt "_") s in
  (* re.match(r"^[a-zA-Z0-9_]+$"): "$" also matches before a final newline *)
  let body := match rev s with
              | c :: r => if Ascii.eqb c newline then rev r else s
              | [] => s
              end in
  if nonempty body && forallb station_char body then Ok s else Err ValueError.

(** validators.py 278-305 [validate_required] for a string argument. *)
Definition validate_required (value : text) : result bool :=
  if text_eqb (lower value) (txt "false") then Ok false
  else if text_eqb (lower value) (txt "true") then Ok true
  else Err ValueError.

(** validators.py 308-362 [validate_type] for a string argument. *)
Definition validate_type (value : text) : result text :=
  let value := replace (txt ">") [] (replace (txt "<class") [] value) in
  let has (p : string) := contains (txt p) (lower value) in
  if has "int"%string then Ok (txt "integer")
  else if has "float"%string then Ok (txt "float")
  else if has "str"%string then Ok (txt "string")
  else if has "bool"%string then Ok (txt "boolean")
  else if has "list"%string || has "array"%string then Ok (txt "list")
  else if has "dict"%string then Ok (txt "dict")
  else if has "object"%string then Ok (txt "object")
  else if has "h5py_reference"%string then Ok value
  else Err ValueError.

(** validators.py 365-391 [validate_units]. *)
Definition validate_units (value : option text) : result (option text) :=
  match value with
  | None => Ok None
  | Some v => if existsb (text_eqb (lower v)) [txt "none"; txt "empty"; []] then Ok None
              else Ok (Some (lower v))
  end.

(** /repo/mt_metadata/__init__.py 57-70. *)
Definition accepted_styles : list text :=
  map txt ["name"; "url"; "email"; "number"; "date"; "free form"; "time"; "date time";
           "name list"; "number list"; "controlled vocabulary"; "alpha numeric"]%string.

(** validators.py 394-424 [validate_style]. *)
Definition validate_style (value : option text) : result text :=
  match value with
  | None => Ok (txt "name")
  | Some v => if existsb (text_eqb (lower v)) accepted_styles then Ok (lower v) else Err ValueError
  end.

(** validators.py 445-475 [validate_options] and 478-509 [validate_alias] for a string. *)
Definition remove_brackets (s : text) : text := replace_char "]" [] (replace_char "[" [] s).
Definition validate_options (options : text) : list text :=
  map strip (filter (fun name => negb (existsb (text_eqb (lower name)) [txt "none"; []]))
                    (split_on "|" (strip (remove_brackets options)))).

(** emtfxml/metadata/helpers.py 28-50 [_capwords]. *)
Definition capwords (value : text) : text :=
  if has_char "_" value then replace_char " " [] (title (replace_char "_" (txt " ") value))
  else if existsb is_upper value then value
  else title value.
