(** Specification for C119: a station with its runs, written as StationXML and read again. *)
From Coq Require Import QArith.
From Verif Require Import PyBase PyText SxmlSpec SstModel.
Local Open Scope list_scope.

(** Ids: letters, digits and "_". *)
Definition id_char (c : ascii) : bool := (is_upper c || is_lower c || is_digit c || Ascii.eqb c "_")%bool.
Definition an_id (i : text) : Prop := i <> [] /\ forall c, In c i -> id_char c = true.
Definition small (i : text) : Prop := forall c, In c i -> is_upper c = false.
(** The words that stand for nothing. *)
Definition means_nothing (s : text) : Prop := In s (map txt ["null"; "None"; "NONE"; "NULL"; "Null"; "none"]%string).
(** The attributes of a station that are written as comments, and what a new station has in them; the empty text stands for nothing. *)
Definition noted (k : text) : Prop :=
  In k (map txt ["data_type"; "location.declination.comments"; "location.declination.model"; "location.declination.value"; "orientation.method";
                 "orientation.reference_frame"; "provenance.software.author"; "provenance.software.name"; "provenance.software.version"]%string).
Definition usual (k : text) : text :=
  if text_eqb k (txt "data_type") then txt "BBMT" else if text_eqb k (txt "location.declination.model") then txt "IGRF"
  else if text_eqb k (txt "orientation.method") then txt "compass" else if text_eqb k (txt "orientation.reference_frame") then txt "geographic" else [].
(** What a dictionary says under a name: a value that is not empty. *)
Definition says (d : list (text * text)) (k v : text) : Prop := dget text_dec k d = Some v /\ v <> [].
Definition silent (d : list (text * text)) (k : text) : Prop := forall v, ~ says d k v.
Definition same_words (d d' : list (text * text)) (k : text) : Prop := forall v, says d k v <-> says d' k v.
(** Who acquired a run or made its metadata: an author and a comment, one of them, or none. *)
Definition clean_person (d : list (text * text)) (who : text) : Prop :=
  let a := who ++ txt ".author" in let c := who ++ txt ".comments" in
  (silent d a /\ silent d c) \/
  (exists v, says d a v /\ silent d c /\ word_like v /\ ~ In ":"%char v) \/
  (exists v, silent d a /\ says d c v /\ word_like v /\ ~ In ":"%char v) \/
  (exists v w, says d a v /\ says d c w /\ word_like v /\ word_like w /\ contains (txt "comments:") v = false).
Definition person_key (k : text) : Prop := In k (map txt ["acquired_by.author"; "acquired_by.comments"; "metadata_by.author"; "metadata_by.comments"]%string).
(** A comment of the form "key: value, key: value" *)
Definition listed_comment (t : text) : Prop :=
  exists kvs, kvs <> [] /\ (List.length kvs <= 21)%nat /\ NoDup (map fst kvs) /\ good_pairs kvs /\ no_author kvs /\
    t = join (txt ", ") (map (fun kv => fst kv ++ txt ": " ++ snd kv) kvs).
(** A value of a data logger that can be written *)
Definition plain_value (kv : text * text) : Prop := good_key (fst kv) /\ good_key (snd kv) /\ snd kv <> txt "None" /\ snd kv <> txt "null".
Definition writable_run (r : run) : Prop :=
  an_id (r_id r) /\ NoDup (map fst (r_plain r)) /\ r_logger r <> [] /\ NoDup (map fst (r_logger r)) /\ Forall plain_value (r_logger r) /\
  clean_person (r_by r) (txt "acquired_by") /\ clean_person (r_by r) (txt "metadata_by") /\ (~ In ":"%char (r_comment r) \/ listed_comment (r_comment r)).
(** Stations: [accepts] tells which texts are values of an attribute. *)
Definition writable (accepts : text -> text -> bool) (s : station) : Prop :=
  Forall writable_run (s_runs s) /\ NoDup (map (fun r => lower (r_id r)) (s_runs s)) /\ (forall r, s_runs s = [r] -> ~ means_nothing (r_id r)) /\
  (forall k v, noted k -> says (s_notes s) k v -> ~ In ":"%char v /\ accepts k v = true).

(** The first and the last of times, but for 0, the default time *)
Definition earliest (l : list Z) (t : Z) : Prop := (t = 0%Z /\ Forall (fun u => u = 0%Z) l) \/ (t <> 0%Z /\ In t l /\ forall u, In u l -> u <> 0%Z -> (t <= u)%Z).
Definition latest (l : list Z) (t : Z) : Prop := (t = 0%Z /\ Forall (fun u => u = 0%Z) l) \/ (t <> 0%Z /\ In t l /\ forall u, In u l -> u <> 0%Z -> (u <= t)%Z).
(** A run that came back: its own id, times and values; what was said about persons and its comment only if the id has no capital letters, and
    a comment without ":" not at all. *)
Definition run_back (r r' : run) : Prop :=
  r_id r' = r_id r /\ r_start r' = r_start r /\ r_end r' = r_end r /\ r_plain r' = r_plain r /\ r_logger r' = r_logger r /\
  (small (r_id r) -> (forall k, person_key k -> same_words (r_by r) (r_by r') k) /\ (In ":"%char (r_comment r) -> r_comment r' = r_comment r)) /\
  (~ small (r_id r) -> r_by r' = [] /\ r_comment r' = []) /\
  (~ In ":"%char (r_comment r) -> r_comment r' = []).
Definition station_back (s s' : station) : Prop :=
  s_id s' = upper (s_id s) /\ s_fdsn s' = Some (upper (s_id s)) /\ s_name s' = s_name s /\ s_comment s' = s_comment s /\ s_place s' = s_place s /\ s_author s' = [] /\
  (forall k, noted k -> (forall v, says (s_notes s) k v -> says (s_notes s') k v) /\
                        (silent (s_notes s) k -> forall v, says (s_notes s') k v <-> v = usual k /\ v <> [])) /\
  Forall2 run_back (s_runs s) (s_runs s') /\
  earliest (s_start s :: map r_start (s_runs s)) (s_start s') /\ latest (s_end s :: map r_end (s_runs s)) (s_end s').
(** Nothing more is lost. *)
Definition run_kept (r r' : run) : Prop :=
  r_id r' = r_id r /\ r_start r' = r_start r /\ r_end r' = r_end r /\ r_plain r' = r_plain r /\ r_logger r' = r_logger r /\
  (forall k, person_key k -> same_words (r_by r) (r_by r') k) /\ r_comment r' = r_comment r.
Definition station_kept (s s' : station) : Prop :=
  s_id s' = s_id s /\ s_fdsn s' = s_fdsn s /\ s_name s' = s_name s /\ s_comment s' = s_comment s /\ s_place s' = s_place s /\ s_start s' = s_start s /\ s_end s' = s_end s /\
  s_author s' = s_author s /\ (forall k, noted k -> same_words (s_notes s) (s_notes s') k) /\ Forall2 run_kept (s_runs s) (s_runs s').
