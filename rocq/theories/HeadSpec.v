(** What the HEAD section of an EDI file is expected to say. *)
From Coq Require Import Qabs.
From Verif Require Import PyBase PyText PyNum UnitsModel MTimeSpec ValidatorsSpec LocationSpec EdiMetaSpec HeadModel.
Local Open Scope list_scope.

(** What is left of a text: without quotes and brackets, and without white space at the ends. *)
Definition dropped (c : ascii) : bool := existsb (Ascii.eqb c) ["034"; "'"; "["; "]"]%char.
Definition bare (s : text) : text := filter (fun c => negb (dropped c)) s.
Definition tidy (s : text) : text := strip (bare s).
(** A text on one line that does not look like the start of a section, and a text that moreover has no "=". *)
Definition one_line (s : text) : Prop := ~ In nl s /\ ~ In ">"%char s.
Definition free (s : text) : Prop := one_line s /\ ~ In "="%char s.

Definition names (l : list string) (n : text) : Prop := exists s, In s l /\ n = txt s.
Definition places : list string := ["country"; "county"; "parcel"; "quarter"; "section"; "state"; "township"]%string.
Definition texts : list string := ["acqby"; "datum"; "fileby"; "loc"; "progname"; "progvers"; "project"; "prospect"; "survey"]%string ++ places.
Definition times : list string := ["acqdate"; "enddate"; "filedate"; "progdate"]%string.
Definition declinations : list string := ["declination.epoch"; "declination.model"; "declination.value"]%string.
Definition offsets : list string := ["x"; "y"; "z"]%string.
Definition all_names : list string := texts ++ times ++ ["coordinate_system"; "dataid"; "elevation"; "empty"; "latitude"; "longitude"; "stdvers"; "units"]%string ++ declinations ++ offsets.
(** Positions are within their limits; as degrees, minutes and seconds a position between -1 and 0 has no sign. *)
Definition good_position (dd : bool) (lim q : Q) : Prop := (- lim <= q <= lim)%Q /\ (dd = false -> q <= -1 # 1 \/ 0 <= q)%Q.
Definition near_position (dd : bool) (q q' : Q) : Prop := if dd then (Qabs (q' - q) <= 1 # 2000000)%Q else close_position q' q.
(** [reads dd n v v']: the attribute [n] with the value [v] is expected back as [v']. *)
Inductive reads (dd : bool) : text -> hval -> hval -> Prop :=
| reads_text n s : names texts n -> free s -> reads dd n (HText s) (HText (tidy s))
| reads_list n l : names places n -> (forall s, In s l -> free s) -> reads dd n (HTexts l) (HText (tidy (join (txt ",") l)))
| reads_time n t : names times n -> stored t -> reads dd n (HTime t) (HTime t)
| reads_station s : s <> [] -> Forall name_char s -> reads dd (txt "dataid") (HText s) (HText s)
| reads_frame s : names ["geographic"; "geomagnetic"; "station"; "sitelayout"]%string s -> reads dd (txt "coordinate_system") (HText s) (HText s)
| reads_version s : names ["SEG 1.0"; "1.0"; "SEG_1.0"; "SEG 1.01"; "SEG_1.01"]%string s -> reads dd (txt "stdvers") (HText s) (HText s)
| reads_units s : free s -> tidy s = s -> s = [] \/ validate_unit true s = Ok s -> reads dd (txt "units") (HText s) (HText s)
| reads_empty q q' : is_decimal q -> (q' == q)%Q -> reads dd (txt "empty") (HNum q) (HNum q')
| reads_elevation q q' : (Qabs (q' - q) <= 1 # 2000)%Q -> reads dd (txt "elevation") (HNum q) (HNum q')
| reads_latitude q q' : good_position dd 90 q -> near_position dd q q' -> reads dd (txt "latitude") (HNum q) (HNum q')
| reads_longitude q q' : good_position dd 180 q -> near_position dd q q' -> reads dd (txt "longitude") (HNum q) (HNum q').
Definition readable (dd : bool) (n : text) (v : hval) : Prop := exists v', reads dd n v v'.
(** Values that are not written, and texts with a "=", which are lost. *)
Definition silent (v : hval) : Prop := v = HNone \/ v = HText (txt "None").
Definition lost (n : text) (v : hval) : Prop := names ("dataid" :: "units" :: texts)%string n /\ exists s, v = HText s /\ one_line s /\ In "="%char s.
(** The parts of the declination. *)
Definition declination_value (v : hval) : Prop := v = HNone \/ (exists s, v = HText s /\ one_line s) \/ exists q, v = HNum q /\ is_decimal q.
(** Values that may be left out with required=True. *)
Definition is_empty_value (v : hval) : Prop := v = HNone \/ v = HText [] \/ v = HText (txt "1980") \/ v = HText (txt "1980-01-01T00:00:00+00:00") \/ v = HTexts [] \/ v = HTime 315532800000000000.
Definition is_required (n : text) : Prop := names ["acqdate"; "coordinate_system"; "dataid"; "declination.model"; "declination.value"; "empty"; "fileby"; "filedate"; "progdate"; "progname"; "progvers"; "stdvers"; "units"]%string n.
(** The attributes when they are written: those of the file and the program are set. *)
Definition written (now : Z) (version : text) (h : header) (n : text) : hval :=
  if text_eqb n (txt "filedate") then HTime now else if text_eqb n (txt "progvers") then HText version
  else if text_eqb n (txt "progname") then HText (txt "mt_metadata") else if text_eqb n (txt "progdate") then HTime 1638316800000000000
  else value_of h n.
(** What becomes of an attribute: its value when the file is read into [h0], where it was [v0]. *)
Definition not_written (required : bool) (n : text) (v : hval) : Prop :=
  silent v \/ lost n v \/ names declinations n \/ names offsets n \/ (required = true /\ is_empty_value v /\ ~ is_required n).
Inductive becomes (dd required : bool) (n : text) (v v0 : hval) : hval -> Prop :=
| stays : not_written required n v -> becomes dd required n v v0 v0
| is_read v' : ~ not_written required n v -> reads dd n v v' -> becomes dd required n v v0 v'.
Definition good_attribute (dd : bool) (n : text) (v : hval) : Prop :=
  (names declinations n -> declination_value v) /\
  (~ names declinations n -> ~ names offsets n -> silent v \/ lost n v \/ readable dd n v).
(** A line that starts the section, and what may follow it: nothing, or another section. *)
Definition starts_head (s : text) : Prop := In ">"%char s /\ contains (txt "head") (lower s) = true.
Definition section_start (s : text) : Prop := In ">"%char s /\ contains (txt "head") (lower s) = false.
Definition after_head (l : list text) : Prop := l = [] \/ exists s r, l = s :: r /\ section_start s.
