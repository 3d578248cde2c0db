(** Model of the conversion of metadata dictionaries to XML elements and back:
    /repo/mt_metadata/base/helpers.py 731-873.

    An element is modelled by its tag, attributes, text and children; the text of XML (escapes, encoding) is not.  The function
    that reads removes "units" and "type" from the attributes of the element it reads; that effect is not modelled. *)
From Verif Require Import PyBase PyText.
Local Open Scope list_scope.

(** Values of a dictionary; a number or bool is modelled by its text [str(item)]. *)
Inductive xval : Type :=
| XNone
| XText (s : text)
| XNum (s : text)
| XList (l : list xval)
| XDict (d : list (text * xval)).
Inductive xml : Type := Elem (tag : text) (attrib : list (text * text)) (text_ : option text) (children : list xml).
Definition tag_of (e : xml) : text := let '(Elem t _ _ _) := e in t.

(** helpers.py 731-741 (get_units): the table is asked for "json_schema_extra", not for the name. *)
Definition units_table : Type := list (text * list (text * option text)).
Definition get_units (attr_dict : units_table) : option text :=
  match dget text_dec (txt "json_schema_extra") attr_dict with
  | None => None
  | Some d => match dget text_dec (txt "units") d with
              | None | Some None => None
              | Some (Some u) => if (text_eqb u (txt "None") || text_eqb u (txt "none"))%bool then None else Some u
              end
  end.
(** 781-784: the attributes of a written element. *)
Definition unit_attrib (attr_dict : units_table) : list (text * text) :=
  match get_units attr_dict with
  | Some u => if nonempty u then [(txt "units", u)] else []
  | None => []
  end.
(** helpers.py 755-788 (recursive_split_xml): the element with the tag for a value. *)
Fixpoint write (ad : units_table) (tag : text) (v : xval) : xml :=
  match v with
  | XNone => Elem tag (unit_attrib ad) None []
  | XText s => Elem tag (unit_attrib ad) (Some s) []
  | XNum s => Elem tag (unit_attrib ad) (Some s) []
  | XList l => Elem tag (unit_attrib ad) None (map (write ad (txt "item")) l)
  | XDict d => Elem tag (unit_attrib ad) None (map (fun kv => write ad (fst kv) (snd kv)) d)
  end.
(** helpers.py 791-807 (dict_to_xml): no units for the root. *)
Definition dict_to_xml (ad : units_table) (class_ : text) (d : list (text * xval)) : xml :=
  Elem class_ [] None (map (fun kv => write ad (fst kv) (snd kv)) d).

(** 822-829: the values of the children by tag, in the order in which the tags first occur. *)
Definition group (kvs : list (text * xval)) : list (text * list xval) :=
  fold_left (fun d kv => dset text_dec (fst kv) (match dget text_dec (fst kv) d with Some l => l ++ [snd kv] | None => [snd kv] end) d) kvs [].
Definition one_or_list (l : list xval) : xval := match l with [v] => v | _ => XList l end.
Definition child_value (kvs : list (text * xval)) : xval :=
  let d := map (fun kl => (fst kl, one_or_list (snd kl))) (group kvs) in
  match dget text_dec (txt "item") d with Some v => v | None => XDict d end.
(** [meta_dict[element.tag][k] = v] *)
Definition set_in (k v : text) (x : xval) : result xval :=
  match x with XDict d => Ok (XDict (dset text_dec k (XText v) d)) | _ => Err TypeError end.
Definition type_words : list text := [txt "float"; txt "string"; txt "integer"; txt "boolean"; txt "list"; txt "tuple"].
(** 834-857: the loop over the attributes, with the number of attributes. *)
Fixpoint set_attribs (n : nat) (a : list (text * text)) (x : xval) : result xval :=
  match a with
  | [] => Ok x
  | (k, v) :: r =>
      if (text_eqb k (txt "units") && (n <=? 2)%nat)%bool then set_attribs n r x
      else if (text_eqb k (txt "type") && (n <=? 1)%nat && existsb (text_eqb v) type_words)%bool then set_attribs n r x
      else bindR (set_in k v x) (set_attribs n r)
  end.
(** 836-861: the attributes that stay. *)
Definition kept_attribs (a : list (text * text)) : list (text * text) :=
  let n := List.length a in
  let has k := existsb (fun kv => text_eqb (fst kv) k) a in
  let pop_units := (has (txt "units") && (n <=? 2)%nat)%bool in
  let pop_type := ((has (txt "units") && has (txt "type")) ||
                   existsb (fun kv => text_eqb (fst kv) (txt "type") && (n <=? 1)%nat && existsb (text_eqb (snd kv)) type_words)%bool a)%bool in
  filter (fun kv => negb ((pop_units && text_eqb (fst kv) (txt "units")) || (pop_type && text_eqb (fst kv) (txt "type"))))%bool a.
(** 862-871: the text. *)
Definition set_text (t : option text) (has_children : bool) (a : list (text * text)) (x : xval) : result xval :=
  match t with
  | Some (c :: s) =>
      let w := strip (c :: s) in
      if (has_children || nonempty a)%bool then
        if nonempty w then (if nonempty a then set_in (txt "value") w x else Ok (XText w)) else Ok x
      else Ok (XText w)
  | _ => Ok x
  end.
(** helpers.py 810-873 (element_to_dict): the value under the tag. *)
Fixpoint read (e : xml) : result xval :=
  match e with
  | Elem _ a t cs =>
      bindR ((fix each (cs : list xml) : result (list (text * xval)) :=
                match cs with
                | [] => Ok []
                | c :: r => bindR (read c) (fun v => bindR (each r) (fun kvs => Ok ((tag_of c, v) :: kvs)))
                end) cs)
        (fun kvs =>
           let x := match cs with [] => (if nonempty a then XDict [] else XNone) | _ => child_value kvs end in
           bindR (set_attribs (List.length a) a x) (set_text t (nonempty cs) (kept_attribs a)))
  end.
