(** What it means for a metadata object to hold a value, for two objects to agree, and for an object
    to come back from a dictionary. *)
From Verif Require Import PyBase PyNum ContainerModel MetaModel.
Open Scope string_scope.

(** A value a field of the type can hold. *)
Definition fits (t : ftype) (v : value) : Prop :=
  match t, v with
  | TStr, VStr _ | TNum, VNum _ | TBool, VBool _ | TTime, VTime _ | TList, VList _ | TArr, VArr _ => True
  | TOptStr, VNone | TOptStr, VStr _ | TOptNum, VNone | TOptNum, VNum _ => True
  | _, _ => False
  end.

Definition class_ok (c : class) : Prop :=
  NoDup (dkeys (c_fields c)) /\ NoDup (c_comments c)
  /\ (forall n f, sget n (c_fields c) = Some f -> fits (f_type f) (f_default f))
  /\ (forall n f, sget n (c_fields c) = Some f -> coordinate_name n = true -> f_type f = TNum \/ f_type f = TOptNum)
  /\ (forall n f, sget n (c_fields c) = Some f -> none_to_empty_name n = true -> f_type f = TStr \/ f_type f = TOptStr).

(** An object of the class. *)
Definition instance (c : class) (o : obj) : Prop :=
  dkeys (o_attrs o) = dkeys (c_fields c)
  /\ dkeys (o_notes o) = c_comments c
  /\ (forall n f v, sget n (c_fields c) = Some f -> sget n (o_attrs o) = Some v -> fits (f_type f) v).

Definition attr (o : obj) (n : string) : option value := sget n (o_attrs o).
Definition note (o : obj) (n : string) : option comment := sget n (o_notes o).

(** Nothing there. *)
Definition blank (v : value) : Prop :=
  match v with
  | VNone => True
  | VStr s => s = ""
  | VTime t => t = default_time
  | VList l => l = []
  | VArr l => l = []
  | VNum _ | VBool _ => False
  end.

(** Words that read as "nothing". *)
Definition null_text (s : string) : Prop :=
  In s [""; "null"; "None"; "NONE"; "NULL"; "Null"; "none"; "1980-01-01T00:00:00"; "1980-01-01T00:00:00+00:00"].

(** A value that [update] can tell from an unset one. *)
Definition ordinary_text (s : string) : Prop := ~ null_text s /\ s <> "1980".
Definition ordinary (v : value) : Prop :=
  match v with
  | VNone => False
  | VStr s => ordinary_text s
  | VNum q => ~ (q == 0)%Q
  | VBool b => b = true
  | VTime t => t <> default_time
  | VList l => l <> []
  | VArr l => l <> [] /\ forall q, In q l -> ~ (q == 0)%Q
  end.

Definition blank_comment (m : comment) : Prop :=
  (c_author m = None \/ c_author m = Some "") /\ c_stamp m = default_time /\ (c_value m = None \/ c_value m = Some "").

(** A value that a dictionary of the set attributes carries. *)
Definition kept_text (s : string) : Prop := s <> "" /\ s <> "1980" /\ s <> "1980-01-01T00:00:00+00:00".
Definition kept (v : value) : Prop :=
  match v with
  | VNone => False
  | VStr s => kept_text s
  | VNum _ | VBool _ => True
  | VTime t => t <> default_time
  | VList l => l <> []
  | VArr l => forall q, In q l -> ~ (q == 0)%Q
  end.

(* ---------------------------------------------------------------- agreement *)

Definition null_value (v : value) : Prop :=
  match v with VNone => True | VStr s => null_text s | VTime t => t = default_time | _ => False end.

(** The name of a coordinate. *)
Definition names_coordinate (n : string) : Prop :=
  exists b x, In x [".x"; ".y"; ".z"; ".x2"; ".y2"; ".z2"] /\ n = (b ++ x)%string.

Definition close (a b : Q) : Prop := (Qabs (a - b) <= (1 # 100000000) + (1 # 100000) * Qabs b)%Q.

(** The values [v] of the left and [w] of the right object under the name [n] agree. *)
Definition agree (n : string) (v w : value) : Prop :=
  match v, w with
  | VNum a, VNum b => close a b
  | VNum a, VNone => names_coordinate n /\ (a == 0)%Q
  | VArr a, VArr b => Forall2 Qeq a b
  | _, _ => v = w \/ (null_value v /\ null_value w)
  end.

Definition same_text (a b : option string) : Prop :=
  a = b \/ (null_value (opt_str a) /\ null_value (opt_str b)).
(** A comment that is a text and nothing else. *)
Definition text_only (m : comment) : Prop :=
  c_value m <> None /\ (c_author m = None \/ c_author m = Some "") /\ c_stamp m = default_time.
(** Two comments agree.  If one has a text and nothing else, and the other has no text, the texts are
    not compared. *)
Definition comments_agree (m m' : comment) : Prop :=
  same_text (c_author m) (c_author m')
  /\ c_stamp m = c_stamp m'
  /\ (same_text (c_value m) (c_value m') \/ ~ (text_only m <-> text_only m')).

(** The names of an object that are compared. *)
Definition has_part (w n : string) : Prop := exists k, String.substring k (String.length w) n = w.
Definition compared (n : string) : Prop := ~ has_part "processed_date" n /\ ~ has_part "creation_time" n.

(** Two objects do not differ by less than the tolerance, nor by a coordinate that is 0.0 in one and
    unset in the other. *)
Definition far (a b : Q) : Prop :=
  ((1 # 100000000) + (1 # 100000) * Qabs a < Qabs (a - b))%Q /\ ((1 # 100000000) + (1 # 100000) * Qabs b < Qabs (a - b))%Q.
Definition well_apart (x y : obj) : Prop :=
  forall n v w, attr x n = Some v -> attr y n = Some w ->
  match v, w with
  | VNum a, VNum b => (a == b)%Q \/ far a b
  | VNum a, VNone | VNone, VNum a => ~ names_coordinate n
  | _, _ => True
  end.
