(** Model of the sections of an EMTF XML file that are written field by field: to_xml in
    /repo/mt_metadata/transfer_functions/io/emtfxml/metadata/helpers.py 209-265 (with _write_single 93-121), the list of runs of a site
    (metadata/site.py 280-304), attachments (metadata/attachment.py 43-92), and the elements of the remote site that are written
    (metadata/remote_info.py 57, 96-101; emtfxml.py 366-416).

    Trees are modelled, not the text of XML (LayModel has what the text does to characters).  Texts are ASCII. *)
From Verif Require Import PyBase PyText ValidatorsModel XmlModel EmtfModel LayModel.
Local Open Scope nat_scope.

(** The value of a field: None; anything that is written as a text ([str] of it); an object with to_xml, which gives one element or a list
    of them; a list of texts; a list of objects with to_xml; a list of anything else, with its length. *)
Inductive fval : Type :=
| VNone | VShown (s : text) | VNested (l : list xml) | VTexts (l : list text) | VObjects (l : list xml) | VOthers (n : nat).
(** helpers.py 93-121: no text for a null value *)
Definition single (attr s : text) : xml := Elem (capwords attr) [] (if is_null s then None else Some s) [].
(** 231-260 *)
Definition write_field (attr : text) (v : fval) : list xml :=
  match v with
  | VNone => []
  | VShown s => [single attr s]
  | VNested l => l
  | VTexts [] => []
  | VTexts l => [single attr (join (txt " ") l)]
  | VObjects l => l
  | VOthers _ => []
  end.
(** 226-265: [fields] are the attributes in the given order with their values *)
Definition section_xml (class_ : text) (fields : list (text * fval)) : xml :=
  Elem class_ [] None (flat_map (fun av => write_field (fst av) (snd av)) fields).

(** ** site.py 280-304 [validate_run_list], of what is in the dictionary of a file.  [str.strip("[]")] takes all brackets from both ends. *)
Definition bracket (c : ascii) : bool := (Ascii.eqb c "[" || Ascii.eqb c "]")%bool.
Fixpoint drop_brackets (s : text) : text := match s with c :: r => if bracket c then drop_brackets r else s | [] => [] end.
Definition strip_brackets (s : text) : text := rev (drop_brackets (rev (drop_brackets s))).
Definition run_list (v : xval) : result (option (list text)) :=
  match v with
  | XNone => Ok None
  | XText s | XNum s =>
      let s' := if (has_char "[" s && has_char "]" s)%bool then strip_brackets s else s in
      if has_char "," s' then Ok (Some (split_on "," s'))
      else if has_char " " s' then Ok (Some (split_on " " s'))
      else match s' with [] => Ok (Some []) | _ => Ok (Some [s']) end
  | XList l => bindR ((fix each l := match l with
                       | [] => Ok []
                       | XText s :: r => bindR (each r) (fun r' => Ok (s :: r'))
                       | _ :: _ => Err ValueError
                       end) l) (fun l' => Ok (Some l'))
  | XDict _ => Err ValueError
  end.
(** emtfxml.py 344-345: None becomes an empty list when a file is read *)
Definition run_list_read (v : xval) : result (list text) :=
  bindR (run_list v) (fun o => Ok (match o with Some l => l | None => [] end)).

(** ** attachment.py.  An attachment has a file name and a description, and those of a file with several in [_attachments]. *)
Record att : Type := mkAtt { a_file : text; a_desc : text; a_more : list (text * text) }.
Definition new_att : att := mkAtt [] [] [].
Definition att_xml (p : text * text) : xml :=
  section_xml (txt "Attachment") [(txt "filename", VShown (fst p)); (txt "description", VShown (snd p))].
(** 61-92 *)
Definition att_elements (a : att) : list xml :=
  match a_more a with [] => [att_xml (a_file a, a_desc a)] | l => map att_xml l end.
(** base/metadata.py 1212-1216, and 252-300: None becomes an empty text.  Other keys are other attributes. *)
Definition att_text (v : xval) : result text :=
  match v with XNone => Ok [] | XText s | XNum s => Ok s | _ => Err ValueError end.
Definition set_att (a : att) (k : text) (v : xval) : result att :=
  if text_eqb k (txt "filename") then bindR (att_text v) (fun s => Ok (mkAtt s (a_desc a) (a_more a)))
  else if text_eqb k (txt "description") then bindR (att_text v) (fun s => Ok (mkAtt (a_file a) s (a_more a)))
  else Ok a.
Fixpoint set_att_all (a : att) (d : list (text * xval)) : result att :=
  match d with [] => Ok a | (k, v) :: r => bindR (set_att a k v) (fun a' => set_att_all a' r) end.
(** 43-59 [read_dict], of what is under "attachment" in the dictionary of the file.  Simplified: an entry of a list that has itself a key
    "attachment" is taken like the others. *)
Fixpoint read_items (l : list xval) : result (list (text * text)) :=
  match l with
  | [] => Ok []
  | XDict d :: r => bindR (set_att_all new_att d) (fun b => bindR (read_items r) (fun bs => Ok ((a_file b, a_desc b) :: bs)))
  | _ :: _ => Err AttributeError
  end.
Definition read_attachment (a : att) (v : xval) : result att :=
  match v with
  | XNone => Ok a
  | XList l => bindR (read_items l) (fun bs => Ok (mkAtt (a_file a) (a_desc a) (a_more a ++ bs)))
  | XDict d => set_att_all a d
  | _ => Ok a
  end.
(** What a file with these elements, in which no other has their tag, gives: base/helpers.py 810-873 collects the values of one tag, and
    emtfxml.py 323-327 converts their keys. *)
Fixpoint read_all (es : list xml) : result (list xval) :=
  match es with [] => Ok [] | e :: r => bindR (read (remove_null e)) (fun v => bindR (read_all r) (fun vs => Ok (v :: vs))) end.
Definition read_elements (a : att) (es : list xml) : result att :=
  bindR (read_all es) (fun vs =>
  bindR (match one_or_list vs with XDict _ | XList _ => conv (one_or_list vs) | v => Ok v end) (read_attachment a)).

(** ** The remote site, emtfxml.py 380-402.  [_order] belongs to the object and what is removed from it stays removed. *)
Inductive part : Type := PSite | PNotes.
Definition part_dec (a b : part) : {a = b} + {a <> b}. Proof. decide equality. Defined.
Definition first_order : list part := [PSite; PNotes].
(** [list.remove], ValueError caught *)
Fixpoint remove_first (p : part) (l : list part) : list part :=
  match l with [] => [] | x :: r => if part_dec p x then r else x :: remove_first p r end.
Definition no_id (s : option text) : bool :=
  match s with None => true | Some s => existsb (text_eqb s) [[]; txt "None"; txt "none"] end.
(** What is written (in this order), which is also the order after the call. *)
Definition write_remote (order : list part) (skip_field_notes : bool) (id : option text) : list part :=
  let o := if skip_field_notes then remove_first PNotes order else order in
  if no_id id then remove_first PSite o else o.
(** Several calls of write on one object, the option and the name of the remote site at each of them. *)
Fixpoint write_again (order : list part) (calls : list (bool * option text)) : list (list part) :=
  match calls with
  | [] => []
  | (skip, id) :: r => let o := write_remote order skip id in o :: write_again o r
  end.
Definition writes (calls : list (bool * option text)) : list (list part) := write_again first_order calls.
