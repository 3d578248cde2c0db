(** Specification for C121: the files of a directory sorted into stations, runs and channels. *)
From Verif Require Import PyBase PyText ManyModel.
Local Open Scope list_scope.

(** What a file is, by its name. *)
Definition no_dot (s : text) : Prop := ~ In "."%char s.
Definition reserved (s : text) : Prop := In s [txt "filters"; txt "_filters"; txt "survey"; txt "_survey"].
Definition station_file (s : text) (f : file) : Prop := f_stem f = s /\ no_dot s /\ ~ reserved s.
Definition run_file (s r : text) (f : file) : Prop := f_stem f = s ++ txt "." ++ r /\ no_dot s /\ no_dot r.
Definition channel_file (s r : text) (f : file) : Prop := exists k, f_stem f = s ++ txt "." ++ r ++ txt "." ++ k /\ no_dot s /\ no_dot r.
Definition survey_file (f : file) : Prop := f_stem f = txt "survey" \/ f_stem f = txt "_survey".
Definition filter_file (f : file) : Prop := f_stem f = txt "filters" \/ f_stem f = txt "_filters".
(** The order of texts. *)
Definition earlier (a b : text) : Prop :=
  (exists r, b = a ++ r) \/ exists p x y u v, a = p ++ x :: u /\ b = p ++ y :: v /\ (code x < code y)%N.
(** Channels *)
Definition components : list text := [txt "hx"; txt "hy"; txt "hz"; txt "ex"; txt "ey"].
Definition clear (s : text) : Prop := forall c, In c components -> contains c (lower s) = false.
(** station.run.kind.component *)
Definition component_file (s r c : text) (f : file) : Prop :=
  exists k cc, f_stem f = s ++ txt "." ++ r ++ txt "." ++ k ++ txt "." ++ cc /\ no_dot s /\ no_dot r /\ clear r /\ clear k /\ lower cc = c /\ In c components.
(** Every channel file of the run has one of the five components, and no two the same. *)
Definition clean_run (files : list file) (s r : text) : Prop :=
  (forall f, In f files -> channel_file s r f -> exists c, component_file s r c f)
  /\ (forall f g c, In f files -> In g files -> component_file s r c f -> component_file s r c g -> f = g).
(** A list with some of the elements of another, in the same order. *)
Inductive picked {A : Type} : list A -> list A -> Prop :=
| picked_nil : picked [] []
| picked_skip : forall x l m, picked l m -> picked l (x :: m)
| picked_take : forall x l m, picked l m -> picked (x :: l) (x :: m).
