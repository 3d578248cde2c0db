(** Model of comments given as dictionaries and written to XML: /repo/mt_metadata/common/comment.py 74-88, 159-254.

    [read] stands for [MTime(time_stamp=value)] (mttime.py 302-410), of any value: the time, or [None] when it raises.  Values of a
    dictionary are those of XmlModel: [XNum s] is a number whose text is [s].  What an object holds after an exception is not modelled. *)
From Verif Require Import PyBase PyText MTimeModel ContainerModel XmlModel CommentModel.
Local Open Scope list_scope.

Section Dict.
Variable read : xval -> option Z.
Definition read_text (s : text) : option Z := read (XText s).

(** The field [author: str | None] (27-37), with coerce_numbers_to_str (base/metadata.py 220). *)
Definition author_field (v : xval) : result (option text) :=
  match v with
  | XNone => Ok None
  | XText s | XNum s => Ok (Some s)
  | XList _ | XDict _ => Err ValueError
  end.
(** 83-86: the texts of a list. *)
Fixpoint texts_of (l : list xval) : list text :=
  match l with
  | [] => []
  | XText s :: r => strip s :: texts_of r
  | _ :: r => texts_of r
  end.
(** 74-91 [validate_value]. *)
Definition value_field (v : xval) : result (option text) :=
  match v with
  | XText s => Ok (Some s)
  | XList l => Ok (Some (join (txt ",") (texts_of l)))
  | XNone => Ok None
  | XNum _ | XDict _ => Err TypeError
  end.

(** Assignments: the validator of the field (66-72 for the time), then [set_variables] on the object. *)
Definition assign_stamp (v : xval) (m : comment) : result comment :=
  match read v with
  | Some t => set_variables read_text (mkComment (author m) t (value m))
  | None => Err ValueError
  end.
Definition assign_author (v : xval) (m : comment) : result comment :=
  bindR (author_field v) (fun a => set_variables read_text (mkComment a (stamp m) (value m))).
Definition assign_value (v : xval) (m : comment) : result comment :=
  bindR (value_field v) (fun w => set_variables read_text (mkComment (author m) (stamp m) w)).

(** [d.get(k, None)] *)
Definition get (k : text) (d : list (text * xval)) : xval := match dget text_dec k d with Some v => v | None => XNone end.
(** 178-180, 186-188. *)
Definition take (d : list (text * xval)) (m : comment) : result comment :=
  bindR (assign_stamp (get (txt "time_stamp") d) m) (fun m1 =>
  bindR (assign_author (get (txt "author") d) m1) (assign_value (get (txt "value") d))).
(** 159-197 [from_dict]. *)
Definition from_dict (v : xval) (m : comment) : result comment :=
  match v with
  | XText s => assign_value (XText s) m
  | XDict [] => Ok m
  | XDict [(_, XDict d)] => take d m
  | XDict [(_, XText s)] => assign_value (XText s) m
  | XDict [_] => Ok m
  | XDict d => take d m
  | _ => Err TypeError
  end.

(** 214-227: [self.x = key["k"]], unless there is no such key. *)
Definition if_there (k : text) (assign : xval -> comment -> result comment) (d : list (text * xval)) (m : comment) : result comment :=
  match dget text_dec k d with Some v => assign v m | None => Ok m end.
(** 199-229 [read_dict]. *)
Definition read_dict (input : list (text * xval)) (m : comment) : result comment :=
  match dget text_dec (txt "comments") input with
  | None => Err KeyError
  | Some (XText s) => assign_value (XText s) m
  | Some (XDict d) =>
      bindR (if_there (txt "value") assign_value d m) (fun m1 =>
      bindR (if_there (txt "author") assign_author d m1) (if_there (txt "date") assign_stamp d))
  | Some _ => Err TypeError
  end.

(** 231-254 [to_xml]: the element, and the comment afterwards (an author or value of [None] is replaced in the object). *)
Definition or_empty (t : option text) : text := match t with None => [] | Some s => s end.
Definition to_xml (m : comment) : result (xml * comment) :=
  bindR (match author m with None => assign_author (XText []) m | Some _ => Ok m end) (fun m1 =>
  bindR (match value m1 with None => assign_value (XText []) m1 | Some _ => Ok m1 end) (fun m2 =>
  Ok (Elem (txt "Comments") [(txt "author", or_empty (author m1))] (Some (or_empty (value m2))) [], m2))).
End Dict.

(** A reader of times for the examples: texts as in [iso_reader], and nothing (mttime.py 350) as the default time. *)
Definition iso_value (v : xval) : option Z :=
  match v with XNone => Some default_time | XText s => iso_reader s | _ => None end.
