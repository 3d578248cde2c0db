(** What a dictionary says about a comment. *)
From Verif Require Import PyBase PyText XmlModel CommentModel.
Local Open Scope list_scope.

(** The value of a key of a dictionary: what stands there, or [None] if the key is not there. *)
Definition says (d : list (text * xval)) (k : text) (v : xval) : Prop :=
  In (k, v) d \/ (~ In k (map fst d) /\ v = XNone).
Definition dictionary (d : list (text * xval)) : Prop := NoDup (map fst d).

(** Who is meant by a value: nobody, or the person with that name (numbers are written out). *)
Inductive names : xval -> option text -> Prop :=
| names_none : names XNone None
| names_text s : names (XText s) (Some s)
| names_num s : names (XNum s) (Some s).
(** The texts of a list, in order, without white space around them. *)
Inductive list_texts : list xval -> list text -> Prop :=
| lt_nil : list_texts [] []
| lt_text s l r : list_texts l r -> list_texts (XText s :: l) (strip s :: r)
| lt_other v l r : (forall s, v <> XText s) -> list_texts l r -> list_texts (v :: l) r.
(** What is said by a value: nothing, a text, or the texts of a list with commas between them. *)
Inductive tells : xval -> option text -> Prop :=
| tells_none : tells XNone None
| tells_text s : tells (XText s) (Some s)
| tells_list l ts : list_texts l ts -> tells (XList l) (Some (join (txt ",") ts)).
(** A comment whose text has no bar, as all texts that were ever assigned. *)
Definition no_bar (v : option text) : Prop := forall s, v = Some s -> ~ In "|"%char s.
(** A part of a comment that a dictionary says, or that stays as it was. *)
Definition said_or_kept {A} (d : list (text * xval)) (k : text) (means : xval -> A -> Prop) (old new : A) : Prop :=
  (exists v, In (k, v) d /\ means v new) \/ (~ In k (map fst d) /\ new = old).
