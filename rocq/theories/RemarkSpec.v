(** What the comments of a station or a survey carry from one EMTF XML object to another. *)
From Verif Require Import PyBase PyText PyFloat RemarkModel.
Local Open Scope list_scope.

(** A text that survives in a comment: no semicolon, no bar, no blanks at its ends *)
Definition plain (v : text) : Prop := ~ In ";"%char v /\ ~ In "|"%char v /\ strip v = v.
(** No text has a newline, or none has an equals sign *)
Definition one_line (vs : list text) : Prop :=
  (forall v, In v vs -> ~ In newline v) \/ (forall v, In v vs -> ~ In "="%char v).

Definition description_of (e : emtf) : text := match e_description e with Some d => d | None => [] end.
(** The values of the attributes in a list *)
Definition values (keys : list text) (e : emtf) : list text := map (fun k => attr k e) keys.

(** The eight parts of the comment of a station besides the description, and the five of the comment of a survey *)
Definition station_parts : list text :=
  [txt "primary_data.filename"; txt "attachment.description"; txt "attachment.filename";
   txt "site.data_quality_notes.comments.author"; txt "site.data_quality_notes.comments.value";
   txt "site.data_quality_warnings.flag"; txt "site.data_quality_warnings.comments.author";
   txt "site.data_quality_warnings.comments.value"].
Definition survey_parts : list text :=
  [txt "copyright.acknowledgement"; txt "copyright.conditions_of_use"; txt "copyright.release_status";
   txt "copyright.selected_publications"; txt "copyright.additional_info"].
Definition flag_key : text := txt "site.data_quality_warnings.flag".
Definition status_key : text := txt "copyright.release_status".
(** The flag of a station is an integer or not given *)
Definition flag_ok (e : emtf) : Prop := attr flag_key e = [] \/ exists z, attr flag_key e = show_int z.
(** The values of the enumeration *)
Definition release_statuses : list text :=
  [txt "Unrestricted Release"; txt "Restricted Release"; txt "Paper Citation Required"; txt "Academic Use Only";
   txt "Conditions Apply"; txt "Data Citation Required"].
(** The release status is one of the values of the enumeration or not given *)
Definition status_ok (e : emtf) : Prop := attr status_key e = [] \/ In (attr status_key e) release_statuses.

Definition station_fine (e : emtf) : Prop :=
  (forall v, In v (description_of e :: values station_parts e) -> plain v) /\ one_line (description_of e :: values station_parts e) /\ flag_ok e.
Definition survey_fine (e : emtf) : Prop :=
  (forall v, In v (values survey_parts e) -> plain v) /\ one_line (values survey_parts e) /\ status_ok e.

(** [new] where it is given, [old] where it is not *)
Definition over (new old : text) : text := match new with [] => old | _ => new end.

(** Nothing but the attributes and [site.comments.value] differs *)
Definition same_rest (a b : emtf) : Prop := e_notes a = e_notes b /\ e_in a = e_in b /\ e_out a = e_out b.
