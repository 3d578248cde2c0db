(** C08, C09, C62, C63: name and schema-field validators. *)
From Verif Require Import PyBase PyText TextFacts ValidatorsModel ValidatorsSpec ValidatorsProofs.

(** *** C08 *)
Theorem C08_result_lower_case_no_slash :
  forall (s r : text), validate_attribute s = Ok r ->
    (forall c, In c r -> is_upper c = false) /\ ~ In "/"%char r.
Proof.
  intros s r H. split; [|now apply validate_attribute_no_slash in H].
  intros c Hc. apply validate_attribute_no_upper in H. destruct (is_upper c) eqn:E; [|reflexivity].
  rewrite <- H. symmetry. apply existsb_exists. eauto.
Qed.

(** Idempotence holds for every name that does not start with a newline. *)
Theorem C08_idempotent_partial :
  forall (s r : text), (forall t, s <> newline :: t) ->
    validate_attribute s = Ok r -> validate_attribute r = Ok r.
Proof.
  intros s r HN H. apply validate_attribute_fixed.
  - now apply validate_attribute_head in H.
  - now apply validate_attribute_no_upper in H.
  - now apply validate_attribute_no_slash in H.
Qed.
Example C08_case : validate_attribute (txt "Location/GeographicName.State") = Ok (txt "location.geographic_name.state").
Proof. reflexivity. Qed.

(** ... and fails when a leading newline hides a digit from the first check. *)
Theorem C08_idempotent_refuted :
  exists s r, validate_attribute s = Ok r /\ validate_attribute r <> Ok r.
Proof. exists (newline :: txt "1A"), (txt "1_a"). split; [reflexivity|discriminate]. Qed.

(** A name is rejected exactly when it starts with a digit. *)
Theorem C08_rejects_leading_digit :
  forall s, (exists r, validate_attribute s = Ok r) <-> ~ (exists c t, s = c :: t /\ is_digit c = true).
Proof.
  intros s. rewrite validate_attribute_unfold. split.
  - intros (r & H) (c & t & -> & D). simpl in H. rewrite D in H. discriminate.
  - intros H. destruct (starts_with_digit s) eqn:D.
    + exfalso. apply H. destruct s as [|c t]; [discriminate|]. exists c, t. auto.
    + destruct (existsb is_upper (slashed s)); eauto.
Qed.

(** Nothing but underscores is added or lost. *)
Theorem C08_letters_preserved :
  forall (s r : text), (forall t, s <> newline :: t) -> validate_attribute s = Ok r ->
    without_underscores r = without_underscores (lower (replace_char "/" (txt ".") s)).
Proof. intros s r HN H. now apply validate_attribute_letters. Qed.

(** *** C09 *)
Theorem C09_tag_names_convert_back :
  forall (ws : list text), ws <> [] -> Forall word ws ->
    validate_attribute (capwords (snake ws)) = Ok (snake ws).
Proof. intros ws NE H. rewrite capwords_snake by assumption. now apply validate_caps. Qed.
Example C09_case :
  Forall word [txt "processing"; txt "info2"] /\
  snake [txt "processing"; txt "info2"] = txt "processing_info2" /\
  capwords (txt "processing_info2") = txt "ProcessingInfo2".
Proof.
  split; [|split; reflexivity]. repeat constructor.
  - exists (txt "processing"), []. repeat split; [discriminate|repeat constructor|constructor].
  - exists (txt "info"), (txt "2"). repeat split; [discriminate|repeat constructor|repeat constructor].
Qed.

(** Distinct names get distinct tags. *)
Theorem C09_tags_distinct :
  forall ws vs, ws <> [] -> vs <> [] -> Forall word ws -> Forall word vs ->
    capwords (snake ws) = capwords (snake vs) -> snake ws = snake vs.
Proof.
  intros ws vs N1 N2 H1 H2 E. pose proof (C09_tag_names_convert_back ws N1 H1) as A.
  rewrite E, C09_tag_names_convert_back in A by assumption. congruence.
Qed.

(** Digits before letters, digit-only words and doubled underscores break it. *)
Theorem C09_other_names_refuted :
  validate_attribute (capwords (txt "a1b")) <> Ok (txt "a1b") /\
  validate_attribute (capwords (txt "channel_1")) <> Ok (txt "channel_1") /\
  validate_attribute (capwords (txt "two__bars")) <> Ok (txt "two__bars").
Proof. repeat split; discriminate. Qed.

(** *** C62 *)
Theorem C62_accepted_station_names :
  forall (s r : text), validate_station_name s = Ok r ->
    r <> [] /\ Forall name_char r /\ validate_station_name r = Ok r /\
    r = map (fun c => if existsb (Ascii.eqb c) (txt " -.") then "_"%char else c) (strip s).
Proof.
  intros s r. rewrite validate_station_unfold.
  destruct (nonempty (sclean (strip s))) eqn:N; simpl; [|discriminate].
  destruct (forallb station_char (sclean (strip s))) eqn:F; [|discriminate].
  intros H. apply Ok_inj in H. rewrite H in *. repeat split.
  - intros ->. discriminate.
  - apply Forall_forall. intros c Hc. rewrite forallb_forall in F. specialize (F c Hc).
    unfold station_char, is_alpha in F. rewrite !orb_true_iff, Ascii.eqb_eq in F. unfold name_char. tauto.
  - now apply station_fixed.
  - rewrite <- H, sclean_map. apply map_ext. intros c. unfold sclean_c. simpl.
    destruct (Ascii.eqb c " "); [reflexivity|]. destruct (Ascii.eqb c "-"); [reflexivity|].
    destruct (Ascii.eqb c "."); reflexivity.
Qed.
Example C62_case : validate_station_name (txt " MT-01.a ") = Ok (txt "MT_01_a").
Proof. reflexivity. Qed.

Theorem C62_bad_character_rejected :
  forall (s : text) (c : ascii), In c (strip s) -> ~ name_char c -> ~ In c (txt " -.") ->
    validate_station_name s = Err ValueError.
Proof.
  intros s c Hc HN HX. rewrite validate_station_unfold.
  assert (F : forallb station_char (sclean (strip s)) = false).
  { apply not_true_is_false. rewrite forallb_forall. intros H.
    assert (E : sclean_c c = c).
    { unfold sclean_c. destruct (Ascii.eqb_spec c " ") as [->|]; [exfalso; apply HX; simpl; auto|].
      destruct (Ascii.eqb_spec c "-") as [->|]; [exfalso; apply HX; simpl; auto|].
      destruct (Ascii.eqb_spec c ".") as [->|]; [exfalso; apply HX; simpl; auto|reflexivity]. }
    assert (S : station_char c = true).
    { apply H. rewrite sclean_map. apply in_map_iff. exists c. auto. }
    apply HN. unfold station_char, is_alpha in S. rewrite !orb_true_iff, Ascii.eqb_eq in S.
    unfold name_char. tauto. }
  rewrite F, andb_false_r. reflexivity.
Qed.
Example C62_reject_case : In "/"%char (strip (txt " a/b ")) /\ ~ name_char "/"%char /\ ~ In "/"%char (txt " -.").
Proof.
  split; [vm_compute; auto|]. split; [|vm_compute; intuition discriminate].
  unfold name_char. vm_compute. intuition discriminate.
Qed.

(** *** C63 *)
Theorem C63_options_trimmed_and_clean :
  forall (s w : text), In w (validate_options s) ->
    trimmed w /\ ~ In "["%char w /\ ~ In "]"%char w /\ ~ In "|"%char w.
Proof. exact validate_options_clean. Qed.
Example C63_options_case : validate_options (txt "[ a | b c |NONE| d]") = map txt ["a"; "b c"; "d"]%string.
Proof. reflexivity. Qed.

(** A list of proper names written with bars is read back as that list. *)
Theorem C63_options_read_back :
  forall (ws : list text), ws <> [] ->
    (forall w, In w ws -> trimmed w /\ w <> [] /\ lower w <> txt "none" /\
       ~ In "["%char w /\ ~ In "]"%char w /\ ~ In "|"%char w) ->
    validate_options (join (txt "|") ws) = ws.
Proof. exact validate_options_join. Qed.
Example C63_read_back_case : forall w, In w [txt "none given"; txt "x"] ->
  trimmed w /\ w <> [] /\ lower w <> txt "none" /\ ~ In "["%char w /\ ~ In "]"%char w /\ ~ In "|"%char w.
Proof.
  intros w [<-|[<-|[]]]; (split; [change (trimmed (strip (txt "none given"))) || change (trimmed (strip (txt "x"))); apply trimmed_strip|]);
  repeat split; vm_compute; intuition discriminate.
Qed.

(** Blank and padded "none" entries are not filtered, because the test runs before stripping. *)
Theorem C63_options_never_blank_refuted :
  exists s, In [] (validate_options s) /\ In (txt "none") (validate_options s).
Proof. exists (txt "a| | none |b"). vm_compute. tauto. Qed.

Theorem C63_type_idempotent_partial :
  forall (v r : text), ~ In "<"%char v -> validate_type v = Ok r -> validate_type r = Ok r.
Proof. exact validate_type_idem. Qed.
Example C63_type_case : validate_type (txt "Numpy.Float64") = Ok (txt "float") /\ validate_type (txt "a h5py_reference>") = Ok (txt "a h5py_reference").
Proof. split; reflexivity. Qed.

Theorem C63_type_idempotent_refuted :
  exists v r, validate_type v = Ok r /\ validate_type r <> Ok r.
Proof. exists (txt "<cl<classassh5py_reference"), (txt "<classh5py_reference"). split; [reflexivity|vm_compute; discriminate]. Qed.

Theorem C63_units_idempotent :
  forall v r, validate_units v = Ok r -> validate_units r = Ok r.
Proof.
  intros [v|] r; unfold validate_units at 1; [|intros H; now injection H as <-].
  destruct (existsb (text_eqb (lower v)) [txt "none"; txt "empty"; []]) eqn:E;
  intros H; apply Ok_inj in H; subst r; [reflexivity|]. unfold validate_units. rewrite lower_idem, E. reflexivity.
Qed.
Example C63_units_case : validate_units (Some (txt "Hz")) = Ok (Some (txt "hz")) /\ validate_units (Some (txt "NONE")) = Ok None.
Proof. split; reflexivity. Qed.

Definition the_styles : list text :=
  [txt "name"; txt "url"; txt "email"; txt "number"; txt "date"; txt "free form"; txt "time"; txt "date time";
   txt "name list"; txt "number list"; txt "controlled vocabulary"; txt "alpha numeric"].
Theorem C63_style_canonical :
  forall v r, validate_style v = Ok r -> In r the_styles /\ validate_style (Some r) = Ok r.
Proof.
  change the_styles with accepted_styles.
  assert (K : forall r, In r accepted_styles -> validate_style (Some r) = Ok r).
  { intros r H. simpl in H. repeat (destruct H as [<-|H]; [reflexivity|]). destruct H. }
  intros [v|] r H.
  - unfold validate_style in H. destruct (existsb (text_eqb (lower v)) accepted_styles) eqn:E; [|discriminate].
    injection H as <-. apply existsb_exists in E. destruct E as (x & Hx & E). unfold text_eqb in E.
    destruct (text_dec (lower v) x) as [<-|]; [|discriminate]. split; [assumption|now apply K].
  - injection H as <-. split; [now left|reflexivity].
Qed.
Example C63_style_case : validate_style (Some (txt "Controlled Vocabulary")) = Ok (txt "controlled vocabulary").
Proof. reflexivity. Qed.

Theorem C63_required_accepts_case_variants :
  forall v b, validate_required v = Ok b <-> lower v = txt (if b then "true" else "false").
Proof.
  intros v b. unfold validate_required, text_eqb.
  destruct (text_dec (lower v) (txt "false")) as [E|E].
  - rewrite E. split; intros H; [injection H as <-; reflexivity|]. destruct b; [discriminate|reflexivity].
  - destruct (text_dec (lower v) (txt "true")) as [E'|E'].
    + rewrite E'. split; intros H; [injection H as <-; reflexivity|]. destruct b; [reflexivity|discriminate].
    + split; [discriminate|]. intros H. destruct b; contradiction.
Qed.

Print Assumptions C08_result_lower_case_no_slash.
Print Assumptions C08_idempotent_partial.
Print Assumptions C08_letters_preserved.
Print Assumptions C09_tag_names_convert_back.
Print Assumptions C62_accepted_station_names.
Print Assumptions C63_options_read_back.
Print Assumptions C63_type_idempotent_partial.
