(** Specification for C120: channels in StationXML. *)
From Coq Require Import QArith.
From Verif Require Import PyBase PyText PyFloat PyReprFacts SxmlSpec SchModel.
Local Open Scope list_scope.

(** Names of channels: a first letter, then letters, digits and "_", all of lower case; the last letter tells the direction. *)
Definition name_char (c : ascii) : Prop := is_lower c = true \/ is_digit c = true \/ c = "_"%char.
Definition named (firsts : list ascii) (s : text) : Prop := exists c r, s = c :: r /\ In c firsts /\ Forall name_char r.
Definition directed (s : text) : Prop := exists r d, s = r ++ [d] /\ In d ["x"%char; "y"%char; "z"%char].
Definition electric_name (s : text) : Prop := named ["e"%char] s /\ directed s.
Definition magnetic_name (s : text) : Prop := named ["h"%char; "b"%char; "r"%char] s /\ directed s.
(** Ids of electrodes. *)
Definition trimmed_id (s : text) : Prop :=
  (forall c r, s = c :: r -> is_space c = false) /\ (forall r c, s = r ++ [c] -> is_space c = false) /\ ~ In ":"%char s /\ ~ In ","%char s.
(** Ids of runs, and the comment that lists the runs of a channel. *)
Definition run_name (s : text) : Prop := word_like s /\ ~ In ","%char s /\ ~ In ":"%char s /\ ~ In "["%char s /\ ~ In "]"%char s.
Definition listing (runs : list text) : text := txt "run_ids: [" ++ join (txt ",") runs ++ txt "]".
Definition lists (comment : option text) (runs : list text) : Prop :=
  (comment = None /\ runs = []) \/ (comment = Some (listing runs) /\ Forall run_name runs).
(** The same direction, by an angle from 0 to 360. *)
Definition same_direction (a b : Q) : Prop := (0 <= b)%Q /\ (b < 360)%Q /\ exists k : Z, (a == b + inject_Z (360 * k))%Q.
(** What every channel keeps. *)
Definition rest_kept (runs : list text) (c d : channel) : Prop :=
  c_comp d = c_comp c /\ same_direction (c_azimuth c) (c_azimuth d) /\ same_direction (c_tilt c) (c_tilt d) /\ c_rate d = c_rate c
  /\ c_start d = c_start c /\ c_end d = c_end c /\ c_comment d = Some (listing runs).
(** A text that is None or empty comes back as None. *)
Definition stated (v w : option text) : Prop := match v with None => w = None | Some s => (s = [] /\ w = None) \/ (s <> [] /\ w = Some s) end.
(** The first word of a text. *)
Definition no_space (w : text) : Prop := w <> [] /\ Forall (fun c => is_space c = false) w.
Definition first_word (s w : text) : Prop :=
  exists a b, s = a ++ w ++ b /\ Forall (fun c => is_space c = true) a /\ no_space w /\ (b = [] \/ exists c r, b = c :: r /\ is_space c = true).
Definition shown (v : option text) : text := match v with Some s => s | None => txt "None" end.
(** The model that comes back is the first word of the model and the name. *)
Definition model_after (model name : option text) (after : text) : Prop :=
  exists w, after = w ++ txt " " ++ shown name
    /\ match model with None => w = txt "None" | Some s => (s = [] /\ w = txt "None") \/ first_word s w end.
(** Types of magnetic sensors. *)
Definition coil_type (t : text) : Prop := In (lower t) [txt "magnetometer"; txt "induction coil"; txt "coil"].
(** Names that tell the type of a sensor. *)
Definition telling (name : text) : Prop :=
  name = txt "Bartington 3-Axis Fluxgate Sensor"
  \/ (contains (txt "bf-4") (lower name) = true /\ contains (txt "schlumberger") (lower name) = true)
  \/ (contains (txt "electric") (lower name) = true /\ contains (txt "dipole") (lower name) = true).
(** Equal up to equal numbers. *)
Definition same_kind (a b : kind) : Prop :=
  match a, b with
  | Electric p n (Fin q), Electric p' n' (Fin q') => p = p' /\ n = n' /\ (q == q')%Q
  | _, _ => a = b
  end.
Definition same_channel (a b : channel) : Prop :=
  c_comp a = c_comp b /\ same_kind (c_kind a) (c_kind b) /\ (c_azimuth a == c_azimuth b)%Q /\ (c_tilt a == c_tilt b)%Q /\ c_rate a = c_rate b
  /\ c_start a = c_start b /\ c_end a = c_end b /\ c_comment a = c_comment b /\ c_special a = c_special b.
