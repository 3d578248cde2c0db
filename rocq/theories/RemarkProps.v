(** C110: the comments of stations and surveys through an EMTF XML object *)
From Verif Require Import PyBase PyFacts PyText TextFacts PyFloat RemarkModel RemarkSpec RemarkProofs RemarkTrip.
Local Open Scope list_scope.

(** The comment of a station carries the description, the file names and the remarks on data quality to another object: those that
    are given replace what is there, everything else stays, and nothing is left over. *)
Theorem C110_station_comment other run_update part_update o e : station_fine o ->
  exists e', parse_comments other run_update part_update (Some (station_comment o)) e = Ok e' /\
    description_of e' = over (description_of o) (description_of e) /\
    (forall k, In k station_parts -> attr k e' = over (attr k o) (attr k e)) /\
    (forall k, ~ In k station_parts -> attr k e' = attr k e) /\ same_rest e' e /\ e_free e' = Some [].
Proof. apply station_trip. Qed.

(** The comment of a survey carries the copyright. *)
Theorem C110_survey_comment other run_update part_update o e : survey_fine o ->
  exists e', parse_comments other run_update part_update (Some (survey_comment o)) e = Ok e' /\ e_description e' = e_description e /\
    (forall k, In k survey_parts -> attr k e' = over (attr k o) (attr k e)) /\
    (forall k, ~ In k survey_parts -> attr k e' = attr k e) /\ same_rest e' e /\ e_free e' = Some [].
Proof. apply survey_trip. Qed.

(** In an object that holds none of this yet, the comment comes out as it went in. *)
Theorem C110_again other run_update part_update o e : station_fine o -> description_of e = [] -> (forall k, In k station_parts -> attr k e = []) ->
  exists e', parse_comments other run_update part_update (Some (station_comment o)) e = Ok e' /\ station_comment e' = station_comment o.
Proof.
  intros F D A. destruct (station_trip other run_update part_update o e F) as (e' & P & D' & A' & _). exists e'. split; [exact P|].
  unfold station_comment. fold (description_of e'). fold (description_of o). f_equal. f_equal. f_equal.
  - rewrite D', D. destruct (description_of o); reflexivity.
  - apply map_ext_in. intros k K. rewrite (A' k K), (A k K). destruct (attr k o); reflexivity.
Qed.

(** A comment in which neither "fieldnotes" nor "datalogger" occurs is always accepted. *)
Theorem C110_accepted other run_update part_update s e : contains (txt "fieldnotes") s = false -> contains (txt "datalogger") s = false ->
  exists e', parse_comments other run_update part_update (Some s) e = Ok e'.
Proof. apply parse_total. Qed.

(** A comment without a colon is kept as the comment of the site and changes nothing else; so the comment of the station that is read
    from the object has nothing of it. *)
Theorem C110_free_text other run_update part_update s e : ~ In ":"%char s -> ~ In newline s \/ ~ In "="%char s ->
  exists e', parse_comments other run_update part_update (Some s) e = Ok e' /\ e_free e' = Some (join (txt "; ") (split_on ";" s)) /\
    e_description e' = e_description e /\ e_attrs e' = e_attrs e /\ same_rest e' e /\ station_comment e' = station_comment e.
Proof. intros N L. rewrite (parse_free other run_update part_update s e N L). eexists. repeat split. Qed.

(** ** Concrete cases *)
Definition blank : emtf := mkEmtf (Some []) [] None None [] [].
Definition full : emtf := mkEmtf (Some (txt "A station: north of the lake"))
  [(txt "primary_data.filename", txt "CAS04.png"); (txt "site.data_quality_warnings.flag", txt "-1");
   (txt "site.data_quality_notes.comments.value", txt "noisy = at night, power line"); (txt "copyright.release_status", txt "Conditions Apply");
   (txt "copyright.acknowledgement", txt "funded by x: y")] None None [] [].

Lemma plain_by v : (negb (has_char ";" v) && negb (has_char "|" v) && text_eqb (strip v) v)%bool = true -> plain v.
Proof.
  intros H. repeat (apply andb_prop in H; destruct H as [H ?]). repeat match goal with X : negb _ = true |- _ => apply Bool.negb_true_iff in X end.
  split; [apply has_char_notIn; assumption|]. split; [apply has_char_notIn; assumption|]. apply text_eqb_eq. assumption.
Qed.
Lemma all_by (P : text -> Prop) (f : text -> bool) l : (forall v, f v = true -> P v) -> forallb f l = true -> forall v, In v l -> P v.
Proof. intros H F v I. rewrite forallb_forall in F. apply H, F, I. Qed.
Lemma no_newline_by v : negb (has_char newline v) = true -> ~ In newline v.
Proof. intros H. apply has_char_notIn. apply Bool.negb_true_iff. exact H. Qed.

Example C110_hyp_station : station_fine full /\ description_of blank = [] /\ (forall k, In k station_parts -> attr k blank = []) /\
  station_comment full = txt "description:A station: north of the lake; primary_data.filename:CAS04.png; site.data_quality_notes.comments.value:noisy = at night, power line; site.data_quality_warnings.flag:-1".
Proof.
  split; [|split; [reflexivity|split; [intros k _; reflexivity|vm_compute; reflexivity]]].
  split; [apply (all_by _ _ _ plain_by); vm_compute; reflexivity|]. split; [left; apply (all_by _ _ _ no_newline_by); vm_compute; reflexivity|].
  right. exists (-1)%Z. vm_compute. reflexivity.
Qed.
Example C110_hyp_survey : survey_fine full /\ survey_comment full = txt "copyright.acknowledgement:funded by x: y; copyright.release_status:Conditions Apply".
Proof.
  split; [|vm_compute; reflexivity].
  split; [apply (all_by _ _ _ plain_by); vm_compute; reflexivity|]. split; [left; apply (all_by _ _ _ no_newline_by); vm_compute; reflexivity|].
  right. vm_compute. tauto.
Qed.
Example C110_hyp_accepted : contains (txt "fieldnotes") (txt "processing.author.email: a@b; fine weather; x:y.z") = false /\
  contains (txt "datalogger") (txt "processing.author.email: a@b; fine weather; x:y.z") = false.
Proof. split; reflexivity. Qed.
Example C110_hyp_free : ~ In ":"%char (txt "fine weather; cows") /\ ~ In newline (txt "fine weather; cows").
Proof. split; apply has_char_notIn; reflexivity. Qed.

(** ** What goes wrong *)
Definition refuse (k v : text) (a : list (text * text)) : option (list (text * text)) := None.
Definition set_part (k v : text) (p : part) : result part :=
  Ok (if text_eqb k (txt "name") then mkPart (Some v) (n_attrs p) else mkPart (n_name p) (dset text_dec k v (n_attrs p))).
Definition parse (s : text) (e : emtf) : result emtf := parse_comments refuse refuse set_part (Some s) e.
Definition notes_with (mags dips : list part) : emtf := mkEmtf (Some []) [] None (Some (mkNotes [] mags dips)) [] [].
Definition called (s : string) : part := mkPart (Some (txt s)) [].

(** A comment of the station that has no label, or a label without a dot, does not come back. *)
Theorem C110_lost_refuted : exists e1 e2, parse (txt "cows in the field") blank = Ok e1 /\ parse (txt "weather: fine") blank = Ok e2 /\
  station_comment e1 = [] /\ station_comment e2 = [] /\ e_free e1 = Some (txt "cows in the field") /\ e_free e2 = Some (txt "weather:fine").
Proof. do 2 eexists. split; [vm_compute; reflexivity|]. split; [vm_compute; reflexivity|]. repeat split. Qed.

(** A semicolon in a description cuts it off; a newline beside an equals sign does too, and turns the sign into a colon. *)
Theorem C110_cut_refuted : exists o1 o2 e1 e2,
  e_description o1 = Some (txt "dry; windy") /\ parse (station_comment o1) blank = Ok e1 /\ e_description e1 = Some (txt "dry") /\
  e_description o2 = Some (txt "gain=2" ++ newline :: txt "dry") /\ parse (station_comment o2) blank = Ok e2 /\ e_description e2 = Some (txt "gain:2").
Proof.
  exists (mkEmtf (Some (txt "dry; windy")) [] None None [] []), (mkEmtf (Some (txt "gain=2" ++ newline :: txt "dry")) [] None None [] []).
  do 2 eexists. split; [reflexivity|]. split; [vm_compute; reflexivity|]. split; [reflexivity|]. split; [reflexivity|]. split; [vm_compute; reflexivity|reflexivity].
Qed.

(** Some comments on the field notes stop the whole assignment. *)
Theorem C110_raises_refuted :
  parse (txt "datalogger: LEMI") blank = Err IndexError /\
  parse (txt "fieldnotes.dataquality.rating: good") blank = Err ValueError /\
  parse (txt "fieldnotes.electrode_ex.azm: 12") blank = Err IndexError /\
  parse (txt "fieldnotes.electrode_EX.azm: 12") (notes_with [] [called "ex"]) = Err ValueError /\
  parse (txt "fieldnotes.magnetometer_hx.x: 12") blank = Err IndexError.
Proof. repeat split; vm_compute; reflexivity. Qed.

(** The azimuth given for a dipole not known yet goes to the last dipole there is, and a dipole is put among the magnetometers; the
    place given for a magnetic sensor goes to the first output channel. *)
Theorem C110_misplaced_refuted : exists e1 e2,
  parse (txt "fieldnotes.electrode_ey.azm: 90") (notes_with [] [called "ex"]) = Ok e1 /\
  e_notes e1 = Some (mkNotes [] [called "ey"] [mkPart (Some (txt "ex")) [(txt "azimuth", txt "90")]]) /\
  parse (txt "fieldnotes.magnetometer_hx.x: 5") (mkEmtf (Some []) [] None None [called "hx"] [called "hz"]) = Ok e2 /\
  e_in e2 = [called "hx"] /\ e_out e2 = [mkPart (Some (txt "hz")) [(txt "x", txt "5")]].
Proof. do 2 eexists. split; [vm_compute; reflexivity|]. split; [reflexivity|]. split; [vm_compute; reflexivity|]. split; reflexivity. Qed.

Print Assumptions C110_station_comment.
Print Assumptions C110_accepted.
