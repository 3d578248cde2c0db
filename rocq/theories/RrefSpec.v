(** What is said about the remote reference of a station, and what comes back. *)
From Verif Require Import PyBase PyText LayModel RrefModel.
Local Open Scope list_scope.

(** The parameter is an assignment [k = v] (or [k: v] when it has no equals sign), blanks around [k] and [v] aside *)
Definition says (p k v : text) : Prop :=
  exists a b, strip a = k /\ strip b = v /\
    ((p = a ++ "="%char :: b /\ ~ In "="%char a) \/ (p = a ++ ":"%char :: b /\ ~ In ":"%char a /\ ~ In "="%char p)).
(** The value that the parameters end up giving to the id of the remote site, which is made of letters and digits; [old] if none *)
Inductive ends_with_id : list text -> text -> text -> Prop :=
| none_said old : ends_with_id [] old old
| id_said p ps old v new : says p (txt "remote_info.site.id") v -> forallb alnum v = true -> ends_with_id ps v new -> ends_with_id (p :: ps) old new
| id_refused p ps old v new : says p (txt "remote_info.site.id") v -> forallb alnum v = false -> ends_with_id ps old new -> ends_with_id (p :: ps) old new
| not_said p ps old new : (forall v, ~ says p (txt "remote_info.site.id") v) -> ends_with_id ps old new -> ends_with_id (p :: ps) old new.

(** A value the parameters can carry *)
Definition fine (v : text) : Prop := strip v = v.
Definition site_ok (s : site) : Prop :=
  fine (s_acquired_by s) /\ fine (s_country s) /\ fine (s_name s) /\ fine (s_survey s) /\
  forallb alnum (s_id s) = true /\ forallb project_char (s_project s) = true.
(** A word for nothing is not carried *)
Definition carried (new old : text) : text := if is_null new then old else new.

Definition run_name (s : text) : Prop := s <> [] /\ ~ In " "%char s /\ ~ In ","%char s /\ ~ In "["%char s /\ ~ In "]"%char s.
