(** What should come of reading and writing. *)
From Verif Require Import PyBase PyText.
Local Open Scope list_scope.

(** Sections that have readers of their own; field notes are read elsewhere. *)
Definition section (k : text) : Prop := In k [txt "remote_ref"; txt "remote_info"; txt "processing_software"].
Definition taken (k : text) : Prop := section k \/ k = txt "field_notes".
