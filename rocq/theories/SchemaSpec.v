(** Specification for C59. *)
From Verif Require Import PyBase PyText TextFacts PyNum PyFloat SchemaModel.
Local Open Scope list_scope.

Definition the_types : list text := map txt ["integer"; "float"; "string"; "boolean"; "list"; "dict"; "object"]%string.
Definition the_styles : list text :=
  map txt ["name"; "url"; "email"; "number"; "date"; "free form"; "time"; "date time"; "name list"; "number list"; "controlled vocabulary";
           "alpha numeric"]%string.
Definition date_styles : list text := map txt ["date"; "time"; "date time"]%string.
Definition list_styles : list text := map txt ["name list"; "number list"]%string.
(** Texts that can be in a field of a line: no comma, no newline, no white space around them. *)
Definition field_text (s : text) : Prop := trimmed s /\ ~ In ","%char s /\ ~ In "010"%char s.
(** Names of attributes. *)
Definition attribute_name (k : text) : Prop :=
  k <> [] /\ field_text k /\ ~ In "/"%char k /\ (forall c, In c k -> is_upper c = false) /\ (forall c r, k = c :: r -> is_digit c = false).
(** The default that goes with required, type and style. *)
Inductive default_of : bool -> text -> text -> cell -> Prop :=
| default_none t s : ~ In s date_styles -> default_of false t s CNone
| default_date t s : In s date_styles -> default_of false t s (CText (txt "1980-01-01T00:00:00+00:00"))
| default_int s z : ~ In s list_styles -> default_of true (txt "integer") s (CInt z)
| default_float s q : ~ In s list_styles -> (exists (m e : Z), q == inject_Z m * Qpower (10 # 1) e)%Q -> default_of true (txt "float") s (CFloat q)
| default_bool s b : ~ In s list_styles -> default_of true (txt "boolean") s (CBool b)
| default_text s x : ~ In s list_styles -> x <> [] -> field_text x -> ~ In x [txt "None"; txt "none"; txt "unknown"] ->
    default_of true (txt "string") s (CText x).
(** A complete entry without options and aliases. *)
Inductive good_entry : entry -> Prop :=
| good_entry_intro t r u s d e x :
    In t the_types -> In s the_styles -> field_text d -> field_text e -> default_of r t s x ->
    (u = CNone \/ exists w, u = CText w /\ lower w = w /\ field_text w /\ ~ In w [txt "none"; txt "empty"; []]) ->
    good_entry (mkV (CText t) (CBool r) u (CText s) (CText d) (CList []) (CList []) (CText e) x).
(** Equal, up to the representation of a fraction. *)
Definition same_cell (a b : cell) : Prop := match a, b with CFloat p, CFloat q => (p == q)%Q | _, _ => a = b end.
Definition same_entry (v w : entry) : Prop :=
  v_type v = v_type w /\ v_required v = v_required w /\ v_units v = v_units w /\ v_style v = v_style w /\ v_description v = v_description w /\
  v_options v = v_options w /\ v_alias v = v_alias w /\ v_example v = v_example w /\ same_cell (v_default v) (v_default w).
(** The same entry with other options or another description. *)
Definition with_options (o : list text) (v : entry) : entry :=
  mkV (v_type v) (v_required v) (v_units v) (v_style v) (v_description v) (CList (map CText o)) (v_alias v) (v_example v) (v_default v).
Definition with_description (d : text) (v : entry) : entry :=
  mkV (v_type v) (v_required v) (v_units v) (v_style v) (CText d) (v_options v) (v_alias v) (v_example v) (v_default v).
(** A list of texts with a quote before the first and one after the last *)
Fixpoint quote_last (ws : list text) : list text :=
  match ws with [] => [] | [w] => [w ++ ["034"%char]] | w :: r => w :: quote_last r end.
Definition quote_ends (ws : list text) : list text := match quote_last ws with [] => [] | w :: r => ("034"%char :: w) :: r end.
