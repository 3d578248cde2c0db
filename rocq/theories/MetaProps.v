(** C28, C29 and C30: update, equality and dictionaries of metadata objects. *)
From Coq Require Import Lqa.
From Verif Require Import PyBase PyFacts PyNum ContainerModel ContainerProofs MetaModel MetaSpec MetaProofs.
Open Scope string_scope.

(** A class with fields like those of a station, and a filter's poles and zeros. *)
Definition sample : class := mkClass "sample"
  [("acquired_by.name", mkField TOptStr false VNone); ("channels_recorded", mkField TList false (VList []));
   ("corrected", mkField TBool false (VBool true)); ("id", mkField TStr true (VStr ""));
   ("location.latitude", mkField TNum true (VNum 0)); ("location.x", mkField TOptNum false VNone);
   ("orientation", mkField TStr false (VStr "geographic")); ("poles", mkField TArr true (VArr []));
   ("response", mkField TArr false (VArr [])); ("time_period.start", mkField TTime true (VTime default_time))]
  ["comments"].
Lemma sample_ok : class_ok sample.
Proof.
  unfold class_ok, sample. cbn [c_fields c_comments dkeys map fst].
  split; [repeat (constructor; [cbn; intuition discriminate|]); constructor|].
  split; [repeat (constructor; [cbn; tauto|]); constructor|].
  split; [|split].
  - intros n f H. apply dget_In in H. repeat (destruct H as [H|H]; [injection H as <- <-; exact I|]). destruct H.
  - intros n f H K. apply dget_In in H.
    repeat (destruct H as [H|H]; [injection H as <- <-; first [discriminate K|cbn; auto]|]). destruct H.
  - intros n f H K. apply dget_In in H.
    repeat (destruct H as [H|H]; [injection H as <- <-; first [discriminate K|cbn; auto]|]). destruct H.
Qed.
Definition put (n : string) (v : value) (o : obj) : obj := mkObj (sset n v (o_attrs o)) (o_notes o).
Definition put_note (m : comment) (o : obj) : obj := mkObj (o_attrs o) [("comments", m)].
Definition fresh : obj := new_obj sample.
Definition full : obj :=
  put_note (mkComment (Some "KK") 7 (Some "windy"))
  (put "acquired_by.name" (VStr "MT group") (put "id" (VStr "mt01") (put "location.latitude" (VNum (45 # 2))
  (put "poles" (VArr [1; 2]) (put "channels_recorded" (VList ["ex"; "hy"]) (put "time_period.start" (VTime 5) fresh)))))).
Ltac is_instance :=
  split; [reflexivity|split; [reflexivity|]]; intros n f v H K; apply dget_In in H; apply dget_In in K;
  cbn in H; repeat (destruct H as [H|H]; [injection H as <- <-; cbn in K;
    repeat (destruct K as [K|K]; [first [discriminate K|injection K as <-; exact I]|]); destruct K|]); destruct H.
Lemma fresh_instance : instance sample fresh.
Proof. is_instance. Qed.
Lemma full_instance : instance sample full.
Proof. is_instance. Qed.

(* ================================================================ C28 *)

(** Every ordinary value of [y] arrives.  A number is ordinary unless it is zero; see below. *)
Theorem C28_ordinary_values_arrive :
  forall c x y n v, class_ok c -> instance c x -> instance c y ->
  attr y n = Some v -> ordinary v ->
  exists x', update c x c y = Ok x' /\ instance c x' /\ attr x' n = Some v.
Proof.
  intros c x y n v CK IX IY V O. destruct (update_spec c x y CK IX IY) as (x' & E & IX' & A & _).
  exists x'. split; [assumption|]. split; [assumption|]. rewrite A, V.
  destruct (attr_field c y n v IY V) as (f & F & FV). apply update_attr_ordinary.
  - congruence.
  - intros f' F'. congruence.
  - assumption.
Qed.
Example C28_ordinary_values_arrive_hyp :
  class_ok sample /\ instance sample fresh /\ instance sample full
  /\ attr full "location.latitude" = Some (VNum (45 # 2)) /\ ordinary (VNum (45 # 2)) /\ ordinary (VStr "mt01").
Proof.
  split; [exact sample_ok|]. split; [exact fresh_instance|]. split; [exact full_instance|]. split; [reflexivity|].
  split; [intros H; discriminate|]. split; [|discriminate]. intros H. cbn in H. intuition discriminate.
Qed.

(** A value that is not set in [y] leaves the value of [x]. *)
Theorem C28_unset_values_keep :
  forall c x y n v, class_ok c -> instance c x -> instance c y ->
  attr y n = Some v -> blank v ->
  exists x', update c x c y = Ok x' /\ attr x' n = attr x n.
Proof.
  intros c x y n v CK IX IY V B. destruct (update_spec c x y CK IX IY) as (x' & E & IX' & A & _).
  exists x'. split; [assumption|]. rewrite A, V.
  destruct v as [|s|q|b|t|l|l]; cbn [blank] in B; try (now destruct B); try subst s; try subst t; try subst l.
  - rewrite not_ordinary; [reflexivity|exact (fun H => H)|discriminate|intros _ l; discriminate].
  - rewrite not_ordinary; [reflexivity| |discriminate|intros _ l; discriminate].
    intros (H & _). apply H. now left.
  - rewrite not_ordinary; [reflexivity|intros H; now apply H|discriminate|intros _ l; discriminate].
  - rewrite not_ordinary; [reflexivity|intros H; now apply H|discriminate|intros _ l; discriminate].
  - unfold emit. cbn [negb forallb]. destruct (smem n _); reflexivity.
Qed.
Example C28_unset_values_keep_hyp :
  attr fresh "acquired_by.name" = Some VNone /\ blank VNone /\ attr fresh "time_period.start" = Some (VTime default_time)
  /\ blank (VTime default_time) /\ attr full "time_period.start" = Some (VTime 5).
Proof. repeat split. Qed.

(** Whatever [y] holds, an attribute ends with the value of [x] or with the value of [y]. *)
Theorem C28_one_of_the_two :
  forall c x y n, class_ok c -> instance c x -> instance c y ->
  exists x', update c x c y = Ok x' /\ (attr x' n = attr y n \/ attr x' n = attr x n).
Proof.
  intros c x y n CK IX IY. destruct (update_spec c x y CK IX IY) as (x' & E & IX' & A & _).
  exists x'. split; [assumption|]. rewrite A. destruct (attr y n) as [v|] eqn:V; [|now right].
  destruct (attr_field c y n v IY V) as (f & F & FV). apply one_or_other_attr. intros f' F'. congruence.
Qed.

(** The exact rule for the attributes whose name is not "zeros" or "poles", and whose text is not "1980". *)
Theorem C28_exact_rule :
  forall c x y n v, class_ok c -> instance c x -> instance c y ->
  attr y n = Some v -> v <> VStr "1980" -> n <> "zeros" -> n <> "poles" ->
  exists x', update c x c y = Ok x'
  /\ (ordinary v -> attr x' n = Some v) /\ (~ ordinary v -> attr x' n = attr x n).
Proof.
  intros c x y n v CK IX IY V N1 N2 N3. destruct (update_spec c x y CK IX IY) as (x' & E & IX' & A & _).
  exists x'. split; [assumption|]. rewrite A, V. split.
  - intros O. destruct (attr_field c y n v IY V) as (f & F & FV). apply update_attr_ordinary; [congruence|intros; congruence|assumption].
  - intros O. rewrite not_ordinary; [reflexivity|assumption|assumption|]. intros [->| ->]; congruence.
Qed.
Example C28_exact_rule_hyp :
  attr full "location.latitude" = Some (VNum (45 # 2)) /\ VNum (45 # 2) <> VStr "1980"
  /\ "location.latitude" <> "zeros" /\ "location.latitude" <> "poles".
Proof. split; [reflexivity|]. repeat split; discriminate. Qed.

(** The comment of [x] takes over the author, the time and the text that the comment of [y] has, when
    that comment has more than a text. *)
Theorem C28_comment_parts :
  forall c x y n m m', class_ok c -> instance c x -> instance c y ->
  note x n = Some m -> note y n = Some m' -> simple_comment m' = false ->
  exists x' r, update c x c y = Ok x' /\ note x' n = Some r
  /\ (forall a, c_author m' = Some a -> ordinary_text a -> c_author r = Some a)
  /\ (c_author m' = None -> c_author r = c_author m)
  /\ (c_stamp m' <> default_time -> c_stamp r = c_stamp m')
  /\ (c_stamp m' = default_time -> c_stamp r = c_stamp m)
  /\ (forall s, c_value m' = Some s -> ordinary_text s -> c_value r = Some s)
  /\ (c_value m' = None -> c_value r = c_value m).
Proof.
  intros c x y n m m' CK IX IY M M' S. destruct (update_spec c x y CK IX IY) as (x' & E & IX' & _ & N).
  destruct (comment_update n m m' S) as (r & F & A1 & _ & A2 & T1 & T2 & V1 & V2 & _).
  exists x', r. split; [assumption|]. rewrite N, M, M'. split; [assumption|]. split; [assumption|].
  split; [intros H; apply A2; intros a K; congruence|]. split; [assumption|]. split; [assumption|]. split; [assumption|].
  intros H. apply V2. intros s K. congruence.
Qed.
Example C28_comment_parts_hyp :
  note fresh "comments" = Some new_comment /\ note full "comments" = Some (mkComment (Some "KK") 7 (Some "windy"))
  /\ simple_comment (mkComment (Some "KK") 7 (Some "windy")) = false.
Proof. repeat split. Qed.
(** A text and nothing else arrives. *)
Theorem C28_comment_text :
  forall c x y n m m' s, class_ok c -> instance c x -> instance c y ->
  note x n = Some m -> note y n = Some m' -> simple_comment m' = true -> c_value m' = Some s -> ordinary_text s ->
  exists x' r, update c x c y = Ok x' /\ note x' n = Some r /\ c_value r = Some s.
Proof.
  intros c x y n m m' s CK IX IY M M' S V O. destruct (update_spec c x y CK IX IY) as (x' & E & IX' & _ & N).
  exists x', (mkComment None default_time (Some s)). split; [assumption|]. rewrite N, M, M'. split; [|reflexivity].
  now apply text_update.
Qed.
Definition only_text : comment := mkComment None default_time (Some "calm").
Example C28_comment_text_hyp :
  note (put_note only_text fresh) "comments" = Some only_text /\ simple_comment only_text = true /\ ordinary_text "calm".
Proof. split; [reflexivity|]. split; [reflexivity|]. split; [|discriminate]. intros H. cbn in H. intuition discriminate. Qed.
(** A comment of [y] without content changes nothing. *)
Theorem C28_blank_comment_keeps :
  forall c x y n m m', class_ok c -> instance c x -> instance c y ->
  note x n = Some m -> note y n = Some m' -> blank_comment m' ->
  exists x', update c x c y = Ok x' /\ note x' n = Some m.
Proof.
  intros c x y n m m' CK IX IY M M' (BA & BT & BV). destruct (update_spec c x y CK IX IY) as (x' & E & IX' & _ & N).
  exists x'. split; [assumption|]. rewrite N, M, M'. apply null_update.
  - intros a A (O & _). destruct BA as [H|H]; rewrite H in A; [discriminate|]. injection A as <-. apply O. now left.
  - assumption.
  - intros a A (O & _). destruct BV as [H|H]; rewrite H in A; [discriminate|]. injection A as <-. apply O. now left.
Qed.
Example C28_blank_comment_keeps_hyp :
  note full "comments" <> Some new_comment /\ note fresh "comments" = Some new_comment /\ blank_comment new_comment.
Proof. split; [discriminate|]. split; [reflexivity|]. split; [now left|]. split; [reflexivity|now left]. Qed.

(** An object of another class changes nothing. *)
Theorem C28_other_class_ignored :
  forall c x c' y, c_name c <> c_name c' -> update c x c' y = Ok x.
Proof. intros c x c' y H. unfold update. apply String.eqb_neq in H. now rewrite H. Qed.
Example C28_other_class_ignored_hyp : c_name sample <> c_name (mkClass "run" [] []).
Proof. discriminate. Qed.

(** What is set but does not arrive: zero, False, the word "none", an array with a zero in it. *)
Theorem C28_zero_refuted :
  exists x y x', instance sample x /\ instance sample y /\ update sample x sample y = Ok x'
  /\ attr y "location.latitude" = Some (VNum 0) /\ attr x' "location.latitude" = Some (VNum (45 # 2)).
Proof.
  exists full, (put "id" (VStr "equator") fresh). eexists. split; [exact full_instance|]. split; [is_instance|].
  split; [vm_compute; reflexivity|]. split; reflexivity.
Qed.
Theorem C28_false_refuted :
  exists x y x', instance sample x /\ instance sample y /\ update sample x sample y = Ok x'
  /\ attr y "corrected" = Some (VBool false) /\ attr x' "corrected" = Some (VBool true).
Proof.
  exists full, (put "corrected" (VBool false) fresh). eexists. split; [exact full_instance|]. split; [is_instance|].
  split; [vm_compute; reflexivity|]. split; reflexivity.
Qed.
Theorem C28_word_refuted :
  exists x y x', instance sample x /\ instance sample y /\ update sample x sample y = Ok x'
  /\ attr y "acquired_by.name" = Some (VStr "none") /\ attr x' "acquired_by.name" = Some (VStr "MT group").
Proof.
  exists full, (put "acquired_by.name" (VStr "none") fresh). eexists. split; [exact full_instance|]. split; [is_instance|].
  split; [vm_compute; reflexivity|]. split; reflexivity.
Qed.
Theorem C28_array_with_zero_refuted :
  exists x y x', instance sample x /\ instance sample y /\ update sample x sample y = Ok x'
  /\ attr y "response" = Some (VArr [0; 1; 2]) /\ attr x' "response" = Some (VArr []).
Proof.
  exists full, (put "response" (VArr [0; 1; 2]) fresh). eexists. split; [exact full_instance|]. split; [is_instance|].
  split; [vm_compute; reflexivity|]. split; reflexivity.
Qed.
(** What is not set in [y] but is erased in [x]: the author and the time of a comment, as soon as [y]
    has a text. *)
Theorem C28_author_erased_refuted :
  exists x y x', instance sample x /\ instance sample y /\ update sample x sample y = Ok x'
  /\ note x "comments" = Some (mkComment (Some "KK") 7 (Some "windy"))
  /\ note y "comments" = Some only_text
  /\ note x' "comments" = Some (mkComment None default_time (Some "calm")).
Proof.
  exists full, (put_note only_text fresh). eexists. split; [exact full_instance|]. split; [is_instance|].
  split; [vm_compute; reflexivity|]. split; [reflexivity|]. split; reflexivity.
Qed.

(* ================================================================ C29 *)

(** Comparing two objects of a class always gives an answer, and the answer is yes exactly when all
    compared attributes and comments agree. *)
Theorem C29_meaning :
  forall c x y, class_ok c -> instance c x -> instance c y ->
  exists b, eq_obj c x c y = Ok b
  /\ (b = true <->
      (forall n v w, compared n -> attr x n = Some v -> attr y n = Some w -> agree n v w)
      /\ (forall n m m', compared n -> note x n = Some m -> note y n = Some m' -> comments_agree m m')).
Proof. exact eq_obj_spec. Qed.
Example C29_meaning_hyp : eq_obj sample full sample fresh = Ok false /\ eq_obj sample full sample full = Ok true.
Proof. split; vm_compute; reflexivity. Qed.

Lemma agree_refl n v : agree n v v.
Proof.
  destruct v; cbn; auto.
  - unfold close. assert (E : (Qabs (q - q) == 0)%Q) by (setoid_replace (q - q)%Q with 0%Q by ring; reflexivity).
    rewrite E. pose proof (Qabs_nonneg q) as H. set (a := Qabs q) in *. lra.
  - induction l; constructor; [reflexivity|assumption].
Qed.
Theorem C29_reflexive :
  forall c x, class_ok c -> instance c x -> eq_obj c x c x = Ok true.
Proof.
  intros c x CK IX. destruct (eq_obj_spec c x x CK IX IX) as (b & E & B). rewrite E. f_equal. apply B. split.
  - intros n v w _ V W. rewrite V in W. injection W as <-. apply agree_refl.
  - intros n m m' _ M M'. rewrite M in M'. injection M' as <-. split; [now left|]. split; [reflexivity|]. left. now left.
Qed.

(** Different types, or another number, are told apart. *)
Theorem C29_difference_found :
  forall c x y n v w, class_ok c -> instance c x -> instance c y ->
  compared n -> attr x n = Some v -> attr y n = Some w -> ~ agree n v w -> eq_obj c x c y = Ok false.
Proof.
  intros c x y n v w CK IX IY C V W D. destruct (eq_obj_spec c x y CK IX IY) as (b & E & B). rewrite E. f_equal.
  destruct b; [|reflexivity]. destruct (proj1 B eq_refl) as (A & _). exfalso. apply D. now apply (A n).
Qed.
Example C29_difference_found_hyp :
  compared "id" /\ attr full "id" = Some (VStr "mt01") /\ attr fresh "id" = Some (VStr "")
  /\ ~ agree "id" (VStr "mt01") (VStr "").
Proof.
  split; [now apply skipped_false|]. split; [reflexivity|]. split; [reflexivity|]. cbn. intros [H|(H & _)]; [discriminate|].
  cbn in H. intuition discriminate.
Qed.

(** Equality is symmetric for objects whose numbers are equal or clearly different, and that do not
    set a coordinate against an unset one. *)
Lemma Qabs_sym a b : (Qabs (a - b) == Qabs (b - a))%Q.
Proof. rewrite <- (Qabs_opp (a - b)). apply Qabs_wd. ring. Qed.
Lemma agree_sym n v w : agree n v w ->
  match v, w with
  | VNum a, VNum b => (a == b)%Q \/ far a b
  | VNum a, VNone | VNone, VNum a => ~ names_coordinate n
  | _, _ => True
  end -> agree n w v.
Proof.
  destruct v, w; cbn; intros H K; try (destruct H as [He|(Hv & Hw)]; [now left|right; now split]);
  try (destruct H as [?|(_ & [])]; discriminate).
  - destruct H. contradiction.
  - destruct K as [K|(K & K')].
    + unfold close in *. rewrite Qabs_sym in H. pose proof (Qabs_wd _ _ K) as W.
      set (d := Qabs (_ - _)) in *. clearbody d. set (a := Qabs q) in *. set (b := Qabs q0) in *. clearbody a b. lra.
    + unfold close in H. exfalso. exact (Qlt_not_le _ _ K' H).
  - clear K. induction H; constructor; [now symmetry|assumption].
Qed.
Theorem C29_symmetric_partial :
  forall c x y, class_ok c -> instance c x -> instance c y -> well_apart x y ->
  eq_obj c x c y = eq_obj c y c x.
Proof.
  intros c x y CK IX IY WA.
  destruct (eq_obj_spec c x y CK IX IY) as (b & E & B). destruct (eq_obj_spec c y x CK IY IX) as (b' & E' & B').
  rewrite E, E'. f_equal.
  assert (CS : forall m m', comments_agree m m' -> comments_agree m' m).
  { intros m m' (A & T & V). assert (S : forall a d, same_text a d -> same_text d a).
    { intros a d [->|(P & Q)]; [now left|right; now split]. }
    split; [now apply S|]. split; [now symmetry|]. destruct V as [V|V]; [left; now apply S|right; tauto]. }
  assert (I1 : b = true -> b' = true).
  { intros H. apply B'. apply B in H as (HA & HN). split.
    - intros n v w C V W. specialize (HA n w v C W V). apply agree_sym; [assumption|]. exact (WA n w v W V).
    - intros n m m' C M M'. apply CS. now apply (HN n). }
  assert (I2 : b' = true -> b = true).
  { intros H. apply B. apply B' in H as (HA & HN). split.
    - intros n v w C V W. specialize (HA n w v C W V). apply agree_sym; [assumption|]. specialize (WA n v w V W).
      destruct v, w; auto. destruct WA as [K|(K1 & K2)]; [left; now symmetry|right]. split; rewrite Qabs_sym; assumption.
    - intros n m m' C M M'. apply CS. now apply (HN n). }
  destruct b, b'; auto. symmetry. now apply I1.
Qed.
Example C29_symmetric_partial_hyp : well_apart full fresh.
Proof.
  intros n v w V W. apply dget_In in V, W. cbn in V.
  repeat (destruct V as [V|V]; [injection V as <- <-; cbn in W;
    repeat (destruct W as [W|W]; [first [discriminate W|injection W as <-; try exact I]|]); try destruct W|]); try destruct V.
  right. split; vm_compute; reflexivity.
Qed.

(** Not symmetric in general: a coordinate of 0.0 equals an unset one, but not the other way round. *)
Theorem C29_coordinate_symmetry_refuted :
  exists x y, instance sample x /\ instance sample y
  /\ eq_obj sample x sample y = Ok true /\ eq_obj sample y sample x = Ok false.
Proof.
  exists (put "location.x" (VNum 0) fresh), fresh. split; [is_instance|]. split; [is_instance|]. split; vm_compute; reflexivity.
Qed.
(** The tolerance is relative to the right object. *)
Theorem C29_tolerance_symmetry_refuted :
  exists x y, instance sample x /\ instance sample y
  /\ eq_obj sample x sample y = Ok true /\ eq_obj sample y sample x = Ok false.
Proof.
  exists (put "location.latitude" (VNum 99999) fresh), (put "location.latitude" (VNum 100000) fresh).
  split; [is_instance|]. split; [is_instance|]. split; vm_compute; reflexivity.
Qed.
(** Not transitive. *)
Theorem C29_transitivity_refuted :
  exists x y z, instance sample x /\ instance sample y /\ instance sample z
  /\ eq_obj sample x sample y = Ok true /\ eq_obj sample y sample z = Ok true /\ eq_obj sample x sample z = Ok false.
Proof.
  exists (put "location.latitude" (VNum (40 + (1 # 10000))) fresh), (put "location.latitude" (VNum (40 + (4 # 10000))) fresh),
         (put "location.latitude" (VNum (40 + (7 # 10000))) fresh).
  split; [is_instance|]. split; [is_instance|]. split; [is_instance|].
  split; [vm_compute; reflexivity|]. split; vm_compute; reflexivity.
Qed.
(** A comment text is not compared with an absent one. *)
Theorem C29_comment_difference_refuted :
  exists x y, instance sample x /\ instance sample y
  /\ note x "comments" = Some only_text /\ note y "comments" = Some new_comment
  /\ eq_obj sample x sample y = Ok true /\ eq_obj sample y sample x = Ok true.
Proof.
  exists (put_note only_text fresh), fresh. split; [is_instance|]. split; [is_instance|].
  split; [reflexivity|]. split; [reflexivity|]. split; vm_compute; reflexivity.
Qed.

(* ================================================================ C30 *)

(** The whole object comes back from the dictionary of all attributes, whatever object reads it. *)
Theorem C30_full_round_trip :
  forall c x z, class_ok c -> instance c x -> instance c z ->
  from_dict c z false (to_dict c false x) = Ok x.
Proof.
  intros c x z CK IX IZ. destruct (from_dict_spec c false x z CK IX IZ) as (x' & E & IX' & A & N).
  rewrite E. f_equal. apply (instance_ext c); try assumption; intros n.
  - rewrite A. destruct (attr x n) as [v|] eqn:V.
    + rewrite emit_false. destruct (attr_field c x n v IX V) as (f & F & FV). now apply (attr_back c n f).
    + cbn. destruct (attr z n) as [w|] eqn:W; [|reflexivity].
      destruct (attr_field c z n w IZ W) as (f & F & _).
      destruct (attr_of_instance c x n IX (get_In_dkeys _ _ _ F)) as (v & V'). congruence.
  - rewrite N. destruct (note x n) as [m|] eqn:M.
    + destruct (note_of_instance c z n IZ) as (m' & M').
      { destruct IX as (_ & B & _). rewrite <- B. exact (get_In_dkeys _ _ _ M). }
      rewrite M'. apply comment_back.
    + cbn. destruct (note z n) as [w|] eqn:W; [|reflexivity].
      destruct (note_of_instance c x n IX) as (m' & M').
      { destruct IZ as (_ & B & _). rewrite <- B. exact (get_In_dkeys _ _ _ W). }
      congruence.
Qed.
Example C30_full_round_trip_hyp :
  length (to_dict sample false full) = 13%nat /\ from_dict sample fresh false (to_dict sample false full) = Ok full.
Proof. split; vm_compute; reflexivity. Qed.

(** From the dictionary of the set attributes, read by a new object, the values that such a dictionary
    carries come back; the others become the default, or the empty value written for them. *)
Theorem C30_required_round_trip_partial :
  forall c x n v, class_ok c -> instance c x -> instance c (new_obj c) ->
  attr x n = Some v ->
  exists x', from_dict c (new_obj c) false (to_dict c true x) = Ok x' /\ instance c x'
  /\ (kept v -> attr x' n = Some v)
  /\ (attr x' n = Some v \/ attr x' n = attr (new_obj c) n
      \/ (v = VNone /\ (attr x' n = Some (VNum 0) \/ attr x' n = Some (VStr "")))).
Proof.
  intros c x n v CK IX IZ V. destruct (from_dict_spec c true x _ CK IX IZ) as (x' & E & IX' & A & N).
  exists x'. split; [assumption|]. split; [assumption|]. rewrite A, V.
  destruct (attr_field c x n v IX V) as (f & F & FV). split.
  - intros K. rewrite kept_emitted by assumption. now apply (attr_back c n f).
  - destruct (emit true n (req_of c n) v) as [w|] eqn:EM; [|right; left; reflexivity].
    apply emit_cases in EM as [->|[(-> & CN & ->)|(-> & CN & ->)]].
    + left. now apply (attr_back c n f).
    + right; right. split; [reflexivity|]. left. cbn. unfold step_attr. rewrite F. cbn [snd].
      destruct CK as (_ & _ & _ & CT & _). destruct (CT n f F CN) as [T|T]; rewrite T; reflexivity.
    + right; right. split; [reflexivity|]. right. cbn. unfold step_attr. rewrite F. cbn [snd].
      destruct CK as (_ & _ & _ & _ & CT). destruct (CT n f F CN) as [T|T]; rewrite T; reflexivity.
Qed.
Example C30_required_round_trip_partial_hyp :
  instance sample (new_obj sample) /\ attr full "location.latitude" = Some (VNum (45 # 2)) /\ kept (VNum (45 # 2))
  /\ attr full "id" = Some (VStr "mt01") /\ kept (VStr "mt01").
Proof. split; [exact fresh_instance|]. repeat split; discriminate. Qed.
(** A comment whose parts are texts that are not empty comes back. *)
Theorem C30_required_comment :
  forall c x n m, class_ok c -> instance c x -> instance c (new_obj c) ->
  note x n = Some m ->
  (forall a, c_author m = Some a -> kept_text a) -> (forall s, c_value m = Some s -> kept_text s) ->
  exists x', from_dict c (new_obj c) false (to_dict c true x) = Ok x' /\ note x' n = Some m.
Proof.
  intros c x n m CK IX IZ M HA HV. destruct (from_dict_spec c true x _ CK IX IZ) as (x' & E & IX' & _ & N).
  exists x'. split; [assumption|]. rewrite N, M.
  assert (NEW : note (new_obj c) n = Some new_comment).
  { assert (I : In n (c_comments c)).
    { destruct IX as (_ & B & _). rewrite <- B. exact (get_In_dkeys _ _ _ M). }
    unfold note, new_obj. cbn [o_notes]. clear -I. induction (c_comments c) as [|a l IH]; [destruct I|]. cbn.
    destruct (string_dec n a) as [->|NE]; [reflexivity|]. destruct I as [->|I]; [congruence|]. auto. }
  rewrite NEW. now apply comment_back_required.
Qed.
Example C30_required_comment_hyp :
  note full "comments" = Some (mkComment (Some "KK") 7 (Some "windy")) /\ kept_text "KK" /\ kept_text "windy".
Proof. split; [reflexivity|]. split; repeat split; discriminate. Qed.

(** What does not come back from the dictionary of the set attributes. *)
Theorem C30_array_with_zero_refuted :
  exists x x', instance sample x /\ from_dict sample fresh false (to_dict sample true x) = Ok x'
  /\ attr x "response" = Some (VArr [0; 1; 2]) /\ attr x' "response" = Some (VArr []).
Proof.
  exists (put "response" (VArr [0; 1; 2]) full). eexists. split; [is_instance|]. split; [vm_compute; reflexivity|]. split; reflexivity.
Qed.
Theorem C30_emptied_text_refuted :
  exists x x', instance sample x /\ from_dict sample fresh false (to_dict sample true x) = Ok x'
  /\ attr x "orientation" = Some (VStr "") /\ attr x' "orientation" = Some (VStr "geographic").
Proof.
  exists (put "orientation" (VStr "") full). eexists. split; [is_instance|]. split; [vm_compute; reflexivity|]. split; reflexivity.
Qed.
Theorem C30_unset_coordinate_refuted :
  exists x x', instance sample x /\ from_dict sample fresh false (to_dict sample true x) = Ok x'
  /\ attr x "location.x" = Some VNone /\ attr x' "location.x" = Some (VNum 0).
Proof.
  exists full. eexists. split; [exact full_instance|]. split; [vm_compute; reflexivity|]. split; reflexivity.
Qed.

Print Assumptions C28_ordinary_values_arrive.
Print Assumptions C28_unset_values_keep.
Print Assumptions C28_one_of_the_two.
Print Assumptions C28_exact_rule.
Print Assumptions C28_comment_parts.
Print Assumptions C28_comment_text.
Print Assumptions C28_blank_comment_keeps.
Print Assumptions C29_meaning.
Print Assumptions C29_reflexive.
Print Assumptions C29_symmetric_partial.
Print Assumptions C30_full_round_trip.
Print Assumptions C30_required_round_trip_partial.
Print Assumptions C30_required_comment.
