(** Model of a metadata object and of [MetadataBase.update], [__eq__], [to_dict] and [from_dict]
    (/repo/mt_metadata/base/metadata.py).

    An object is given by the values of its attributes under their dotted names, which is what
    [get_attribute_list] (716-725) enumerates; walking the object graph is DictFlatModel.v.  A
    [Comment] (common/comment.py) is one attribute here with three parts.  Floats are rationals
    without NaN; times are nanoseconds since 1970, and stand for their ISO text in a dictionary
    ([MTime.to_dict], common/mttime.py 811-820).  Validators that tie several attributes of one class
    together are in the models of those classes, not here. *)
From Coq Require Export Qabs.
From Verif Require Import PyBase PyText PyNum ContainerModel.
Open Scope string_scope.

Inductive value : Type :=
| VNone | VStr (s : string) | VNum (q : Q) | VBool (b : bool) | VTime (t : Z)
| VList (l : list string) | VArr (l : list Q).

(** The annotation of a field.  [TStr] and [TNum] have a default other than [None]. *)
Inductive ftype : Type := TStr | TOptStr | TNum | TOptNum | TBool | TTime | TList | TArr.
Record field : Type := mkField { f_type : ftype; f_required : bool; f_default : value }.
Record class : Type := mkClass
  { c_name : string; c_fields : dict field; c_comments : list string }.

(** common/comment.py 25-67. *)
Record comment : Type := mkComment { c_author : option string; c_stamp : Z; c_value : option string }.
Definition new_comment : comment := mkComment None default_time None.

Record obj : Type := mkObj { o_attrs : dict value; o_notes : dict comment }.
Definition new_obj (c : class) : obj :=
  mkObj (map (fun kf => (fst kf, f_default (snd kf))) (c_fields c))
        (map (fun n => (n, new_comment)) (c_comments c)).

(** What assignment does to a value: [validate_none_on_assignment] (metadata.py 265-308), then
    pydantic.  Conversions between kinds of value other than from [None] are not modelled. *)
Definition coerce (t : ftype) (v : value) : result value :=
  match t, v with
  | TStr, VNone => Ok (VStr "")
  | TStr, VStr _ | TOptStr, VNone | TOptStr, VStr _ => Ok v
  | TNum, VNone => Ok (VNum 0)
  | TNum, VNum _ | TOptNum, VNone | TOptNum, VNum _ => Ok v
  | TBool, VBool _ | TTime, VTime _ | TList, VList _ | TArr, VArr _ => Ok v
  | TTime, VNone => Ok (VTime default_time)
  | _, _ => Err ValueError
  end.

(* ---------------------------------------------------------------- dictionaries *)

(** The keys of the flat dictionary of an object: an attribute, a comment as text, or one of the
    parts "comments.author", "comments.time_stamp" and "comments.value". *)
Inductive key : Type :=
| KAttr (n : string) | KComment (n : string)
| KAuthor (n : string) | KStamp (n : string) | KValue (n : string).
Definition key_dec (a b : key) : {a = b} + {a <> b}.
Proof. decide equality; apply string_dec. Defined.

Definition opt_str (o : option string) : value := match o with None => VNone | Some s => VStr s end.

(** metadata.py 1006-1024 [is_simple_comment]. *)
Definition simple_comment (m : comment) : bool :=
  match c_value m with
  | None => false
  | Some _ => (match c_author m with None => true | Some a => String.eqb a "" end) && is_default (c_stamp m)
  end.

(** "value in [None, 1980-01-01T00:00:00+00:00, 1980, [], '']", metadata.py 1033-1039 and 1129. *)
Definition default_text : string := "1980-01-01T00:00:00+00:00".
Definition dropped (v : value) : bool :=
  match v with
  | VNone => true
  | VStr s => smem s [default_text; "1980"; ""]
  | VTime t => is_default t
  | VList l => match l with [] => true | _ => false end
  | VNum _ | VBool _ | VArr _ => false
  end.

(** helpers.py 1185-1203 and 1206-1218. *)
Definition coordinate_name (n : string) : bool :=
  smem n ["negative.x"; "negative.y"; "negative.z"; "positive.x2"; "positive.y2"; "positive.z2";
          "location.x"; "location.y"; "location.z"].
Definition none_to_empty_name (n : string) : bool :=
  smem n ["data_logger.firmware.author"; "provenance.software.author"; "provenance.software.version"; "url"].

(** metadata.py 1118-1147: whether and how an attribute enters the dictionary. *)
Definition emit (req : bool) (n : string) (f_req : bool) (v : value) : option value :=
  if negb req then Some v else
  match v with
  | VArr l =>
      if smem n ["zeros"; "poles"] then Some v
      else if forallb (fun q => negb (Qeq_bool q 0)) l then Some v else None
  | _ =>
      if negb (dropped v) || f_req || coordinate_name n || none_to_empty_name n then
        Some (match v with
              | VNone => if coordinate_name n then VNum 0 else if none_to_empty_name n then VStr "" else VNone
              | _ => v
              end)
      else None
  end.

Definition entry {A} (k : key) (o : option A) : list (key * A) :=
  match o with Some v => [(k, v)] | None => [] end.

(** metadata.py 992-1101: a comment.  Author and time stamp come before the value in the sorted list
    of attributes, so they are in the dictionary in both cases; the final sort puts the text first. *)
Definition comment_entries (req : bool) (n : string) (m : comment) : list (key * value) :=
  let parts := (entry (KAuthor n) (emit req "" false (opt_str (c_author m)))
                ++ entry (KStamp n) (emit req "" false (VTime (c_stamp m))))%list in
  if simple_comment m
  then ((if req && dropped (opt_str (c_value m)) then [] else [(KComment n, opt_str (c_value m))]) ++ parts)%list
  else (parts ++ entry (KValue n) (emit req "" false (opt_str (c_value m))))%list.

(** metadata.py 956-1160 [to_dict(single=True, required=req)]. *)
Definition to_dict (c : class) (req : bool) (o : obj) : list (key * value) :=
  (flat_map (fun nv =>
      entry (KAttr (fst nv))
            (emit req (fst nv) (match sget (fst nv) (c_fields c) with Some f => f_required f | None => false end) (snd nv)))
      (o_attrs o)
   ++ flat_map (fun nm => comment_entries req (fst nm) (snd nm)) (o_notes o))%list.

(** metadata.py 146-187 [update_attribute].  Text assigned to a comment makes a new [Comment]
    (for instance timeseries/station.py 229-234); the texts of comments never hold a bar
    (CommentModel.v), so [Comment.set_variables] leaves them alone. *)
Definition assign (c : class) (o : obj) (k : key) (v : value) : result obj :=
  match k with
  | KAttr n =>
      match sget n (c_fields c) with
      | None => Err AttributeError
      | Some f => bindR (coerce (f_type f) v) (fun w => Ok (mkObj (sset n w (o_attrs o)) (o_notes o)))
      end
  | KComment n =>
      match v with
      | VStr s => Ok (mkObj (o_attrs o) (sset n (mkComment None default_time (Some s)) (o_notes o)))
      | _ => Err ValueError
      end
  | KAuthor n =>
      match sget n (o_notes o), v with
      | None, _ => Err AttributeError
      | Some m, VNone => Ok (mkObj (o_attrs o) (sset n (mkComment None (c_stamp m) (c_value m)) (o_notes o)))
      | Some m, VStr s => Ok (mkObj (o_attrs o) (sset n (mkComment (Some s) (c_stamp m) (c_value m)) (o_notes o)))
      | Some _, _ => Err ValueError
      end
  | KStamp n =>
      match sget n (o_notes o), v with
      | None, _ => Err AttributeError
      | Some m, VTime t => Ok (mkObj (o_attrs o) (sset n (mkComment (c_author m) t (c_value m)) (o_notes o)))
      | Some _, _ => Err ValueError
      end
  | KValue n =>
      match sget n (o_notes o), v with
      | None, _ => Err AttributeError
      | Some m, VNone => Ok (mkObj (o_attrs o) (sset n (mkComment (c_author m) (c_stamp m) None) (o_notes o)))
      | Some m, VStr s => Ok (mkObj (o_attrs o) (sset n (mkComment (c_author m) (c_stamp m) (Some s)) (o_notes o)))
      | Some _, _ => Err ValueError
      end
  end.
Fixpoint assign_all (c : class) (o : obj) (l : list (key * value)) : result obj :=
  match l with
  | [] => Ok o
  | (k, v) :: r => bindR (assign c o k v) (fun o' => assign_all c o' r)
  end.

(** mt_metadata/__init__.py 93-104 [NULL_VALUES]. *)
Definition null_words : list string :=
  [""; "null"; "None"; "NONE"; "NULL"; "Null"; "none"; "1980-01-01T00:00:00"; default_text].
Definition is_null (v : value) : bool :=
  match v with
  | VNone => true
  | VStr s => smem s null_words
  | VTime t => is_default t
  | _ => false
  end.

(** metadata.py 600-610: what [update] does not take over. *)
Definition not_copied (v : value) : bool :=
  match v with
  | VArr l => match l with [] => true | _ => false end
  | VNum q => Qeq_bool q 0
  | VBool b => negb b
  | VList l => match l with [] => true | _ => false end
  | _ => is_null v
  end.

(** metadata.py 574-610 [update] without [match]; [other] is an object of the class [c']. *)
Definition update (c : class) (o : obj) (c' : class) (other : obj) : result obj :=
  if String.eqb (c_name c) (c_name c') then
    assign_all c o (filter (fun kv => negb (not_copied (snd kv))) (to_dict c' true other))
  else Ok o.

(** metadata.py 1162-1216 [from_dict] on a flat dictionary. *)
Definition from_dict (c : class) (o : obj) (skip_none : bool) (l : list (key * value)) : result obj :=
  assign_all c o (filter (fun kv => negb (skip_none && is_null (snd kv))) l).

(* ---------------------------------------------------------------- equality *)

(** Python's [==] on two values. *)
Definition value_eqb (v w : value) : bool :=
  match v, w with
  | VNone, VNone => true
  | VStr a, VStr b => String.eqb a b
  | VNum a, VNum b => Qeq_bool a b
  | VBool a, VBool b => Bool.eqb a b
  | VTime a, VTime b => (a =? b)%Z
  | VList a, VList b => if list_eq_dec string_dec a b then true else false
  | _, _ => false
  end.

(** [numpy.isclose] with its default tolerances. *)
Definition isclose (a b : Q) : bool :=
  Qle_bool (Qabs (a - b)) ((1 # 100000000) + (1 # 100000) * Qabs b).
Definition num_of (b : bool) : Q := if b then 1 else 0.

Fixpoint same_list (a b : list Q) : bool :=
  match a, b with
  | [], [] => true
  | x :: a', y :: b' => Qeq_bool x y && same_list a' b'
  | _, _ => false
  end.

(** [key.endswith(".x")] and so on, metadata.py 455-458. *)
Definition ends_with (suffix s : string) : bool :=
  String.eqb (String.substring (String.length s - String.length suffix) (String.length suffix) s) suffix.
Definition ends_in_coordinate (n : string) : bool :=
  existsb (fun x => ends_with x n) [".x"; ".y"; ".z"; ".x2"; ".y2"; ".z2"].

(** metadata.py 438-489: the comparison of the values under one key. *)
Definition same_entry (n : string) (v w : value) : result bool :=
  match v with
  | VArr a => match w with VArr b => Ok (same_list a b) | _ => Err AttributeError end
  | VNum a =>
      match w with
      | VNone => Ok (ends_in_coordinate n && Qeq_bool a 0)
      | VNum b => Ok (isclose a b)
      | VBool b => Ok (isclose a (num_of b))
      | _ => Err TypeError
      end
  | VBool a =>
      match w with
      | VNone => Ok (ends_in_coordinate n && negb a)
      | VNum b => Ok (isclose (num_of a) b)
      | VBool b => Ok (isclose (num_of a) (num_of b))
      | _ => Err TypeError
      end
  | _ => Ok ((is_null v && is_null w) || value_eqb v w)
  end.

(** metadata.py 221 [_skip_equals] and 430-436: keys that hold one of the words are skipped. *)
Definition holds (word s : string) : bool :=
  match String.index 0 word s with Some _ => true | None => false end.
Definition skipped (n : string) : bool := holds "processed_date" n || holds "creation_time" n.
Definition name_of (k : key) : string :=
  match k with KAttr n | KComment n | KAuthor n | KStamp n | KValue n => n end.
(** The text of the key, as far as [endswith] looks at it. *)
Definition tail_of (k : key) : string := match k with KAttr n => n | _ => "" end.

Fixpoint compare_entries (home other : list (key * value)) : result bool :=
  match home with
  | [] => Ok true
  | (k, v) :: r =>
      if skipped (name_of k) then compare_entries r other
      else match dget key_dec k other with
           | None => compare_entries r other
           | Some w => bindR (same_entry (tail_of k) v w) (fun b =>
                       bindR (compare_entries r other) (fun b' => Ok (b && b')))
           end
  end.

(** metadata.py 406-492 [__eq__] with another metadata object.  When the two dictionaries are equal
    the comparison stops there (417-419); it would find no difference either. *)
Definition eq_obj (c : class) (x : obj) (c' : class) (y : obj) : result bool :=
  compare_entries (to_dict c false x) (to_dict c' false y).
