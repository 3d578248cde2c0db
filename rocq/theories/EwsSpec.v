(** What should be in the sections of an EMTF XML file. *)
From Verif Require Import PyBase PyText ValidatorsSpec XmlModel LaySpec EwsModel.
Local Open Scope list_scope.

(** A name of a field: words with one bar between them. *)
Definition field_name (n : text) : Prop := exists ws, ws <> [] /\ Forall word ws /\ n = snake ws.
(** What is read for a text: nothing if it says nothing, else the text without white space around it. *)
Inductive comes_back : text -> xval -> Prop :=
| back_none s : says_nothing s -> comes_back s XNone
| back_text s : ~ says_nothing s -> comes_back s (XText (strip s)).
(** What is read for the fields of a section, in their order. *)
Inductive fields_back : list (text * fval) -> list (text * xval) -> Prop :=
| fb_nil : fields_back [] []
| fb_none n r d : fields_back r d -> fields_back ((n, VNone) :: r) d
| fb_no_texts n r d : fields_back r d -> fields_back ((n, VTexts []) :: r) d
| fb_text n s v r d : comes_back s v -> fields_back r d -> fields_back ((n, VShown s) :: r) ((n, v) :: d)
| fb_texts n l v r d : l <> [] -> comes_back (join (txt " ") l) v -> fields_back r d -> fields_back ((n, VTexts l) :: r) ((n, v) :: d).
(** A name of a run: something, and no white space, comma or bracket in it. *)
Definition run_name (s : text) : Prop := s <> [] /\ Forall (fun c => is_space c = false /\ ~ In c [","; "["; "]"]%char) s.
(** A text as an attachment keeps it. *)
Definition kept (s s' : text) : Prop := (says_nothing s /\ s' = []) \/ (~ says_nothing s /\ s' = strip s).
Definition kept_both (p q : text * text) : Prop := kept (fst p) (fst q) /\ kept (snd p) (snd q).
(** Names that stand for no remote site. *)
Definition unnamed (id : option text) : Prop := In id [None; Some []; Some (txt "None"); Some (txt "none")].
