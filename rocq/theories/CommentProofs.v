(** Lemmas about comments. *)
From Verif Require Import PyBase PyFacts PyText TextFacts MTimeModel MTimeSpec MTimeProofs IsoModel IsoSpec IsoProofs ContainerModel ContainerProofs CommentModel CommentSpec.
Open Scope list_scope.

Lemma plain_app a b : plain a -> plain b -> plain (a ++ b).
Proof. unfold plain. intros A B H. apply in_app_or in H. tauto. Qed.
Lemma space_plain : plain (txt " ").
Proof. intros [H|[]]. discriminate. Qed.
Lemma strip_pad_left s : strip s = s -> strip (txt " " ++ s) = s.
Proof.
  intros H. pose proof (trimmed_strip s) as T. rewrite H in T.
  pose proof (strip_pad (txt " ") s [] eq_refl eq_refl T) as E. now rewrite app_nil_r in E.
Qed.
Lemma strip_pad_right s : strip s = s -> strip (s ++ txt " ") = s.
Proof.
  intros H. pose proof (trimmed_strip s) as T. rewrite H in T. exact (strip_pad [] s (txt " ") eq_refl eq_refl T).
Qed.
Lemma strip_pad_both s : strip s = s -> strip (txt " " ++ s ++ txt " ") = s.
Proof.
  intros H. pose proof (trimmed_strip s) as T. rewrite H in T. exact (strip_pad (txt " ") s (txt " ") eq_refl eq_refl T).
Qed.
Lemma split_two a b : plain a -> plain b -> split_on "|" (a ++ txt " | " ++ b) = [a ++ txt " "; txt " " ++ b].
Proof.
  intros A B. change (a ++ txt " | " ++ b) with (a ++ txt " " ++ "|"%char :: (txt " " ++ b)).
  rewrite app_assoc, split_on_app.
  - f_equal. apply split_on_no. apply plain_app; [exact space_plain|assumption].
  - apply plain_app; [assumption|exact space_plain].
Qed.
Lemma split_three a b c : plain a -> plain b -> plain c ->
  split_on "|" (a ++ txt " | " ++ b ++ txt " | " ++ c) = [a ++ txt " "; txt " " ++ b ++ txt " "; txt " " ++ c].
Proof.
  intros A B C. change (a ++ txt " | " ++ b ++ txt " | " ++ c) with (a ++ txt " " ++ "|"%char :: (txt " " ++ b ++ txt " | " ++ c)).
  rewrite app_assoc, split_on_app.
  - f_equal. rewrite (app_assoc (txt " ") b). rewrite split_two; [now rewrite <- app_assoc| |assumption].
    apply plain_app; [exact space_plain|assumption].
  - apply plain_app; [assumption|exact space_plain].
Qed.
Lemma bar_in a b : has_char "|" (a ++ txt " | " ++ b) = true.
Proof. apply has_char_In. apply in_or_app. right. right. now left. Qed.
Lemma plain_no_bar s : plain s -> has_char "|" s = false.
Proof. intros H. now apply has_char_notIn. Qed.
Lemma set_plain read m v : value m = Some v -> plain v -> set_variables read m = Ok m.
Proof. intros V P. unfold set_variables. rewrite V, plain_no_bar by assumption. reflexivity. Qed.
Lemma set_none read m : value m = None -> set_variables read m = Ok m.
Proof. intros V. unfold set_variables. now rewrite V. Qed.

Lemma two_parts read h v : plain h -> neat v -> forall m, value m = Some (h ++ txt " | " ++ v) ->
  set_variables read m =
  match read (strip h) with
  | Some t => Ok (mkComment (author m) t (Some v))
  | None => Ok (mkComment (Some (strip h)) (stamp m) (Some v))
  end.
Proof.
  intros H (V & S) m E. unfold set_variables. rewrite E, bar_in, split_two by assumption. cbn [map].
  rewrite (strip_pad_left v) by assumption.
  replace (strip (h ++ txt " ")) with (strip h); [reflexivity|].
  unfold strip. destruct (lstrip_decomp h) as (sp & D & SP).
  destruct (lstrip h) as [|c r] eqn:L.
  - rewrite app_nil_r in D. subst h. rewrite lstrip_all; [reflexivity|]. rewrite forallb_app, SP. reflexivity.
  - rewrite D at 1. rewrite <- app_assoc, lstrip_spaces by assumption.
    assert (F : lstrip ((c :: r) ++ txt " ") = (c :: r) ++ txt " ").
    { apply lstrip_fixed. intros c' r' K. injection K as <- _. exact (lstrip_head h c r L). }
    rewrite F. symmetry. apply rstrip_spaces. reflexivity.
Qed.

Lemma strip_nil : strip [] = [].
Proof. reflexivity. Qed.

Lemma round_trip read show m : reads_back read show -> stored (stamp m) -> clear_author read m -> clear_value m ->
  from_text read (as_string show m) = Ok m.
Proof.
  intros RB ST CA CV. destruct m as [a t v]. unfold clear_author, clear_value in *. cbn [author stamp value] in *.
  destruct v as [v|]; [|destruct CV]. destruct CV as (PV & SV). destruct (RB t ST) as (RT & NT & ST').
  unfold as_string. cbn [author stamp value]. unfold no_author, author_text. cbn [author stamp value].
  destruct (is_default t) eqn:D.
  - apply is_default_iff in D. subst t. destruct a as [a|].
    + destruct CA as (NE & (PA & SA) & RA).
      assert (NV : neat v) by (split; [assumption|destruct SV as [(K & _)|K]; [discriminate|assumption]]).
      destruct (text_eqb a []) eqn:E; [now apply text_eqb_eq in E|].
      unfold from_text. rewrite (app_assoc (txt " ") a).
      rewrite (two_parts read (txt " " ++ a) v) by (first [assumption|reflexivity|apply plain_app; [exact space_plain|assumption]]).
      rewrite strip_pad_left by assumption. now rewrite RA.
    + unfold from_text. now rewrite (set_plain _ _ v).
  - assert (ND : t <> default_time) by (intros K; apply is_default_iff in K; congruence).
    assert (NV : neat v) by (split; [assumption|destruct SV as [(_ & K)|K]; [congruence|assumption]]).
    destruct a as [a|].
    + destruct CA as (NE & (PA & SA) & _). destruct (text_eqb a []) eqn:E; [now apply text_eqb_eq in E|].
      unfold from_text, set_variables. cbn [value]. rewrite bar_in, split_three by assumption. cbn [map].
      rewrite strip_pad_right, strip_pad_both, strip_pad_left by (assumption || apply NV). now rewrite RT.
    + unfold from_text. rewrite (two_parts read (show t) v) by (try assumption; reflexivity). rewrite ST', RT. reflexivity.
Qed.

Lemma stored_default : stored default_time.
Proof. right. right. vm_compute. repeat split; discriminate. Qed.

(** The reader of ISO texts reads back every time. *)
Lemma iso_reads_back : reads_back iso_reader isoformat.
Proof.
  intros t S.
  assert (R : (TMIN <= t <= TMAX)%Z) by (destruct S as [->|[->|(S & _)]]; unfold TMIN, TMAX in *; lia).
  assert (NS : forall c, In c (isoformat t) -> is_space c = false /\ c <> "|"%char).
  { intros c H. unfold isoformat in H. apply in_app_or in H as [H|H].
    - apply no_tz_chars, iso_char_not in H. tauto.
    - cbn in H. repeat (destruct H as [<-|H]; [split; [reflexivity|discriminate]|]). destruct H. }
  split.
  - unfold iso_reader.
    rewrite (parse_iso_stamp (isoformat t) t (read_stamp_iso t (txt "+00:00") R (or_intror eq_refl)) R).
    rewrite (parse_stamp_fixed t S).
    destruct (existsb _ _) eqn:E; [|reflexivity]. exfalso. apply existsb_exists in E as (w & W & E).
    apply text_eqb_eq in E.
    assert (L : (7 <= length w)%nat).
    { rewrite <- E. unfold isoformat. rewrite app_length. change (length (txt "+00:00")) with 6%nat.
      unfold iso_no_tz_text. rewrite app_length, (app_length (txt "T")). change (length (txt "T")) with 1%nat. lia. }
    cbn in W. repeat (destruct W as [<-|W]; [cbn in L; lia|]). destruct W.
  - split; [intros H; now apply NS in H|]. apply strip_trimmed.
    unfold trimmed. split.
    + intros c r E. apply (proj1 (NS c ltac:(rewrite E; now left))).
    + intros c r E. apply (proj1 (NS c ltac:(rewrite E; apply in_or_app; right; now left))).
Qed.

Lemma Ok_inj {A} (a b : A) : Ok a = Ok b -> a = b.
Proof. intros H. now injection H. Qed.
