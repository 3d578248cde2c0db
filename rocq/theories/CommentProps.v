(** C31: a comment written as one text. *)
From Verif Require Import PyBase PyFacts PyText TextFacts MTimeModel MTimeSpec MTimeProofs IsoModel IsoSpec IsoProofs ContainerModel ContainerProofs
  CommentModel CommentSpec CommentProofs.
Open Scope list_scope.

(** A comment with a text, and with author and text free of bars and of blanks around them, comes back
    from its written form; an author without a time must not read as a time. *)
Theorem C31_round_trip :
  forall read show m, reads_back read show -> stored (stamp m) -> clear_author read m -> clear_value m ->
  from_text read (as_string show m) = Ok m.
Proof. exact round_trip. Qed.
Definition full_comment : comment := mkComment (Some (txt "J. Pedantic")) 1579091445123457000 (Some (txt "failure at midnight.")).
Definition signed_comment : comment := mkComment (Some (txt "J. Pedantic")) default_time (Some (txt "failure")).
Example C31_round_trip_hyp :
  reads_back iso_reader isoformat /\ stored (stamp full_comment) /\ clear_author iso_reader full_comment /\ clear_value full_comment
  /\ stored (stamp signed_comment) /\ clear_author iso_reader signed_comment /\ clear_value signed_comment
  /\ as_string isoformat full_comment = txt "2020-01-15T12:30:45.123457+00:00 | J. Pedantic | failure at midnight."
  /\ as_string isoformat signed_comment = txt " J. Pedantic | failure".
Proof.
  assert (P : forall s, has_char "|" s = false -> plain s) by (intros s H; now apply has_char_notIn).
  split; [exact iso_reads_back|]. split; [right; right; vm_compute; repeat split; discriminate|].
  split; [split; [discriminate|split; [split; [now apply P|reflexivity]|discriminate]]|].
  split; [split; [now apply P|right; reflexivity]|]. split; [exact stored_default|].
  split; [split; [discriminate|split; [split; [now apply P|reflexivity]|reflexivity]]|].
  split; [split; [now apply P|right; reflexivity]|]. split; vm_compute; reflexivity.
Qed.

(** Whatever text a comment was read from, what was understood is understood again from the text that is
    written for it; the exceptions are an empty author and an author without time that reads as a time. *)
Theorem C31_reread :
  forall read show s m, reads_back read show -> (forall p t, read p = Some t -> stored t) ->
  from_text read s = Ok m ->
  (forall a, author m = Some a -> a <> [] /\ (stamp m = default_time -> read a = None)) ->
  from_text read (as_string show m) = Ok m.
Proof.
  intros read show s m RB RS E HA.
  assert (NEAT : forall p, In p (map strip (split_on "|" s)) -> neat p).
  { intros p H. apply in_map_iff in H as (q & <- & H). split; [|apply strip_idem].
    intros K. apply split_on_parts in H. apply H. clear -K.
    destruct (lstrip_decomp q) as (sp & D & _). rewrite D. apply in_or_app. right.
    unfold strip, rstrip in K. apply in_rev in K. destruct (lstrip_decomp (rev (lstrip q))) as (sp' & D' & _).
    apply in_rev. rewrite D'. apply in_or_app. now right. }
  assert (W : stored (stamp m) /\ clear_author read m /\ clear_value m).
  { unfold from_text, set_variables in E. cbn [value author stamp] in E. destruct (has_char "|" s) eqn:B.
    - destruct (map strip (split_on "|" s)) as [|p0 [|p1 [|p2 [|p3 r]]]] eqn:P.
      + apply Ok_inj in E as <-. split; [exact stored_default|]. split; [exact I|]. cbn. split; [intros []|now left].
      + apply Ok_inj in E as <-. split; [exact stored_default|]. split; [exact I|]. cbn. split; [|now left].
        apply NEAT. now left.
      + assert (N0 : neat p0) by (apply NEAT; now left). assert (N1 : neat p1) by (apply NEAT; right; now left).
        destruct (read p0) as [t|] eqn:R; apply Ok_inj in E as <-.
        * split; [exact (RS _ _ R)|]. split; [exact I|]. cbn. split; [apply N1|right; apply N1].
        * cbn [author stamp] in HA. destruct (HA p0 eq_refl) as (NE & RA).
          split; [exact stored_default|]. split; [cbn; auto|]. cbn. split; [apply N1|right; apply N1].
      + assert (N0 : neat p0) by (apply NEAT; now left). assert (N1 : neat p1) by (apply NEAT; right; now left).
        assert (N2 : neat p2) by (apply NEAT; right; right; now left).
        destruct (read p0) as [t|] eqn:R; [|discriminate]. apply Ok_inj in E as <-.
        cbn [author stamp] in HA. destruct (HA p1 eq_refl) as (NE & RA).
        split; [exact (RS _ _ R)|]. split; [cbn; auto|]. cbn. split; [apply N2|right; apply N2].
      + apply Ok_inj in E as <-. split; [exact stored_default|]. split; [exact I|].
        cbn [value author stamp]. unfold clear_value. cbn [value author stamp]. split; [|now left].
        apply NEAT. clear.
        assert (G : forall (l : list text) d, l <> [] -> In (last l d) l).
        { intros l d. induction l as [|x l IH]; [congruence|]. intros _. destruct l as [|y l]; [now left|].
          right. now apply IH. }
        now apply (G (p0 :: p1 :: p2 :: p3 :: r)).
    - apply Ok_inj in E as <-. split; [exact stored_default|]. split; [exact I|]. cbn. split; [|now left].
      now apply has_char_notIn. }
  destruct W as (A & B & C). now apply round_trip.
Qed.
Example C31_reread_hyp :
  from_text iso_reader (txt "2020-01-15 |  J. P. |  windy ") = Ok (mkComment (Some (txt "J. P.")) 1579046400000000000 (Some (txt "windy")))
  /\ from_text iso_reader (txt " J. P. |windy") = Ok (mkComment (Some (txt "J. P.")) default_time (Some (txt "windy"))).
Proof. split; vm_compute; reflexivity. Qed.

(** The parts of a comment given as a dictionary arrive, whatever the comment was before, if no text
    holds a bar. *)
Theorem C31_dictionary :
  forall read m p t a v, (forall v, value m = Some v -> plain v) -> (forall v', v = Some v' -> plain v') ->
  read p = Some t ->
  from_dict read m (Some p) a v = Ok (mkComment a t v)
  /\ from_dict read m None a v = Ok (mkComment a default_time v).
Proof.
  intros read m p t a v PM PV R.
  assert (S : forall m', (forall v, value m' = Some v -> plain v) -> set_variables read m' = Ok m').
  { intros m' H. destruct (value m') as [w|] eqn:E; [now apply (set_plain _ _ w); [|apply H]|now apply set_none]. }
  unfold from_dict, set_stamp, set_author, set_value. rewrite R.
  split; (rewrite S by (cbn; assumption); cbn [bindR author stamp value]; rewrite S by (cbn; assumption);
          cbn [bindR author stamp value]; rewrite S by (cbn; assumption); reflexivity).
Qed.
Example C31_dictionary_hyp :
  plain (txt "calm") /\ iso_reader (txt "2020-01-15T12:30:45+00:00") = Some 1579091445000000000%Z.
Proof. split; [intros H; cbn in H; intuition discriminate|vm_compute; reflexivity]. Qed.

(** Equality of comments is equality of the three parts. *)
Theorem C31_equality :
  forall m m', equals m (Some m') = true <-> m = m'.
Proof.
  intros [a t v] [a' t' v']. unfold equals. cbn [author stamp value]. rewrite !andb_true_iff, Z.eqb_eq.
  assert (O : forall x y, opt_text_eqb x y = true <-> x = y).
  { intros [x|] [y|]; cbn; split; intros H; try discriminate; try reflexivity.
    - apply text_eqb_eq in H. now subst.
    - injection H as ->. apply text_eqb_refl. }
  rewrite !O. split; [intros ((-> & ->) & ->); reflexivity|]. intros H. injection H as -> -> ->. auto.
Qed.

(** What does not come back.  A bar in the text: *)
Theorem C31_bar_refuted :
  exists m m', value m = Some (txt "Hx | Hy swapped") /\ from_text iso_reader (as_string isoformat m) = Ok m' /\ m' <> m.
Proof.
  exists (mkComment None default_time (Some (txt "Hx | Hy swapped"))). eexists.
  split; [reflexivity|]. split; [vm_compute; reflexivity|discriminate].
Qed.
(** A text that begins with a blank, behind an author: *)
Theorem C31_blank_refuted :
  exists m m', author m = Some (txt "KK") /\ value m = Some (txt "  indented")
  /\ from_text iso_reader (as_string isoformat m) = Ok m' /\ value m' = Some (txt "indented").
Proof.
  exists (mkComment (Some (txt "KK")) default_time (Some (txt "  indented"))). eexists.
  split; [reflexivity|]. split; [reflexivity|]. split; [vm_compute; reflexivity|reflexivity].
Qed.
(** An author that reads as a time becomes the time: *)
Theorem C31_author_read_as_time_refuted :
  forall read show a t v, read a = Some t -> neat a -> a <> [] -> neat v ->
  from_text read (as_string show (mkComment (Some a) default_time (Some v))) = Ok (mkComment None t (Some v)).
Proof.
  intros read show a t v R (PA & SA) NE NV. unfold as_string, no_author, author_text. cbn [author stamp value].
  change (is_default default_time) with true. cbv iota.
  destruct (text_eqb a []) eqn:E; [now apply text_eqb_eq in E|]. unfold from_text. rewrite (app_assoc (txt " ") a).
  rewrite (two_parts read (txt " " ++ a) v) by (first [assumption|reflexivity|apply plain_app; [exact space_plain|assumption]]).
  rewrite strip_pad_left by assumption. now rewrite R.
Qed.
Example C31_author_read_as_time_hyp : iso_reader (txt "None") = Some default_time /\ neat (txt "None").
Proof. split; [reflexivity|]. split; [intros H; cbn in H; intuition discriminate|reflexivity]. Qed.
(** A comment without text: *)
Theorem C31_no_text_refuted :
  forall read show a t, from_text read (as_string show (mkComment a t None)) = Ok (mkComment None default_time (Some [])).
Proof. reflexivity. Qed.
(** Four or more parts: author, time and all but the last part are lost. *)
Theorem C31_four_parts_refuted :
  forall read a b c d, plain a -> plain b -> plain c -> neat d ->
  from_text read (a ++ txt "|" ++ b ++ txt "|" ++ c ++ txt "|" ++ d) = Ok (mkComment None default_time (Some d)).
Proof.
  intros read a b c d A B C (D & SD). unfold from_text, set_variables. cbn [value author stamp].
  change (txt "|") with ["|"%char]. cbn [app].
  assert (H : has_char "|" (a ++ "|"%char :: b ++ "|"%char :: c ++ "|"%char :: d) = true).
  { apply has_char_In, in_or_app. right. now left. }
  rewrite H, !split_on_app, (split_on_no _ d) by assumption. cbn [map last]. now rewrite SD.
Qed.
Example C31_four_parts_hyp : plain (txt "2020") /\ neat (txt "x").
Proof. split; [|split]; try reflexivity; intros H; cbn in H; intuition discriminate. Qed.
(** Comparing a comment with [None] counts as true. *)
Theorem C31_equals_none_refuted : forall m, equals m None = true.
Proof. reflexivity. Qed.

Print Assumptions C31_round_trip.
Print Assumptions C31_reread.
Print Assumptions C31_dictionary.
Print Assumptions C31_equality.
Print Assumptions C31_author_read_as_time_refuted.
