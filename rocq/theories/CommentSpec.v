(** When a comment can be written on one line. *)
From Verif Require Import PyBase PyText MTimeModel MTimeSpec IsoModel ContainerModel CommentModel.
Open Scope list_scope.

(** A text without the separator and without blanks around it. *)
Definition plain (s : text) : Prop := ~ In "|"%char s.
Definition neat (s : text) : Prop := plain s /\ strip s = s.

(** The reader understands what the writer writes. *)
Definition reads_back (read : text -> option Z) (show : Z -> text) : Prop :=
  forall t, stored t -> read (show t) = Some t /\ neat (show t).

(** The comment has a time, or an author that cannot be mistaken for a time. *)
Definition clear_author (read : text -> option Z) (m : comment) : Prop :=
  match author m with
  | None => True
  | Some a => a <> [] /\ neat a /\ (stamp m = default_time -> read a = None)
  end.
Definition clear_value (m : comment) : Prop :=
  match value m with
  | None => False
  | Some v => plain v /\ (author m = None /\ stamp m = default_time \/ strip v = v)
  end.
