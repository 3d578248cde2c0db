(** Model of /repo/mt_metadata/common/comment.py.

    [read] stands for [MTime(time_stamp=text)] (mttime.py 302-410): the time a text is read as, or
    [None] when it raises.  It understands more than the ISO texts of IsoModel.v (dateutil), so the
    functions take it as an argument, together with [show], the text of a time. *)
From Verif Require Import PyBase PyText MTimeModel IsoModel ContainerModel.
Open Scope list_scope.

Record comment : Type := mkComment { author : option text; stamp : Z; value : option text }.

Section Comment.
Variables (read : text -> option Z) (show : Z -> text).

(** 90-108 [set_variables], which pydantic runs after every construction and assignment. *)
Definition set_variables (m : comment) : result comment :=
  match value m with
  | None => Ok m
  | Some v =>
      if has_char "|" v then
        match map strip (split_on "|" v) with
        | [p0; p1; p2] =>
            match read p0 with
            | Some t => Ok (mkComment (Some p1) t (Some p2))
            | None => Err ValueError
            end
        | [p0; p1] =>
            match read p0 with
            | Some t => Ok (mkComment (author m) t (Some p1))
            | None => Ok (mkComment (Some p0) (stamp m) (Some p1))
            end
        | parts => Ok (mkComment (author m) (stamp m) (Some (last parts [])))
        end
      else Ok m
  end.

(** [Comment(value=s)]. *)
Definition from_text (s : text) : result comment := set_variables (mkComment None default_time (Some s)).

(** 83-88 [validate_value] of a list: the texts, stripped, joined with commas. *)
Definition from_list (l : list text) : result comment := from_text (join (txt ",") (map strip l)).

(** [author in [None, ""]]. *)
Definition no_author (m : comment) : bool := match author m with None => true | Some a => text_eqb a [] end.
Definition author_text (m : comment) : text := match author m with None => [] | Some a => a end.

(** 139-157 [as_string]. *)
Definition as_string (m : comment) : text :=
  match value m with
  | None => []
  | Some v =>
      if is_default (stamp m) then
        if no_author m then v else txt " " ++ author_text m ++ txt " | " ++ v
      else if no_author m then show (stamp m) ++ txt " | " ++ v
      else show (stamp m) ++ txt " | " ++ author_text m ++ txt " | " ++ v
  end.

(** Assignments: the field validators, then [set_variables] on the whole object. *)
Definition set_stamp (s : option text) (m : comment) : result comment :=
  match s with
  | None => set_variables (mkComment (author m) default_time (value m))
  | Some p =>
      match read p with
      | Some t => set_variables (mkComment (author m) t (value m))
      | None => Err ValueError
      end
  end.
Definition set_author (a : option text) (m : comment) : result comment := set_variables (mkComment a (stamp m) (value m)).
Definition set_value (v : option text) (m : comment) : result comment := set_variables (mkComment (author m) (stamp m) v).

(** 176-180 [from_dict] of a dictionary with more than one key; a key that is absent reads as [None]. *)
Definition from_dict (m : comment) (t a v : option text) : result comment :=
  bindR (set_stamp t m) (fun m1 => bindR (set_author a m1) (set_value v)).

(** 113-137 [__eq__]: whether the result counts as true in an [if].  Against [None] the result is a new
    [Comment], and such an object counts as true. *)
Definition opt_text_eqb (a b : option text) : bool :=
  match a, b with None, None => true | Some x, Some y => text_eqb x y | _, _ => false end.
Definition equals (m : comment) (o : option comment) : bool :=
  match o with
  | None => true
  | Some m' => opt_text_eqb (author m) (author m') && (stamp m =? stamp m')%Z && opt_text_eqb (value m) (value m')
  end.
(** Against a text. *)
Definition equals_text (m : comment) (s : text) : result bool := bindR (from_text s) (fun m' => Ok (equals m (Some m'))).
End Comment.

(** A reader that knows the words for "no time" (mttime.py 350) and the ISO texts. *)
Definition iso_reader (s : text) : option Z :=
  if existsb (text_eqb s) [[]; txt "none"; txt "None"; txt "NONE"; txt "Na"] then Some default_time
  else match parse_iso s with Ok v => Some v | Err _ => None end.
