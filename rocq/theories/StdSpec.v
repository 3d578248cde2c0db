(** What a table of standards is to show. *)
From Verif Require Import PyBase PyText StdModel.
Local Open Scope string_scope.
Local Open Scope list_scope.

(** The text for something a standard says: nothing for None, the items of a list with commas between. *)
Inductive printed : value -> text -> Prop :=
| p_none : printed VNone []
| p_text t : printed (VText t) t
| p_other t : printed (VOther t) t
| p_true : printed (VBool true) (txt "True")
| p_false : printed (VBool false) (txt "False")
| p_no_item : printed (VItems []) []
| p_item t : printed (VItems [t]) t
| p_items t u l w : printed (VItems (u :: l)) w -> printed (VItems (t :: u :: l)) (t ++ txt "," ++ w).
(** [t] is the beginning of [whole], as much of it as there is room for. *)
Definition cut (n : nat) (whole t : text) : Prop := (exists rest, whole = t ++ rest) /\ length t = Nat.min n (length whole).
(** A cell of a column shows a value. *)
Inductive shows : kind -> value -> cell -> Prop :=
| s_text n v w t : printed v w -> cut n w t -> shows (KText n) v (CText t)
| s_bool b : shows KBool (VBool b) (CBool b).
(** The columns: all different, the name of the attribute first, and those the version is put in. *)
Definition columns (dt : dtype) : Prop := NoDup (map fst dt) /\
  (exists n rest, dt = (txt "attribute", KText n) :: rest) /\ (exists n, In (txt "description", KText n) dt) /\ (exists n, In (txt "type", KText n) dt) /\ exists n, In (txt "style", KText n) dt.
(** A standard says something of every column but the first, and a truth value where one is shown. *)
Definition complete (dt : dtype) (s : standard) : Prop := forall n k, In (n, k) (tl dt) -> exists v, dget text_dec n s = Some v /\ (k = KBool -> exists b, v = VBool b).
(** The row of one attribute. *)
Definition row_for (dt : dtype) (key : text) (s : standard) (r : row) : Prop :=
  map fst r = map fst dt /\
  (forall k, dget text_dec (txt "attribute") dt = Some k -> exists c, dget text_dec (txt "attribute") r = Some c /\ shows k (VText key) c) /\
  forall n k, In (n, k) (tl dt) -> exists v c, dget text_dec n s = Some v /\ dget text_dec n r = Some c /\ shows k v c.
(** What the row of the version says. *)
Definition version_says (version : text) : standard :=
  [(txt "attribute", VText (txt "mt_metadata.standards.version")); (txt "description", VText (txt "Metadata standards version " ++ version)); (txt "type", VText (txt "string")); (txt "style", VText (txt "free form"))].
