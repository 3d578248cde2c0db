(** Lemmas for the string validators. *)
From Verif Require Import PyBase PyText TextFacts ValidatorsModel ValidatorsSpec.

Lemma Ok_inj {A} (a b : A) : Ok a = Ok b -> a = b.
Proof. intros H. now injection H. Qed.

(** *** replace *)
Lemma replace_char_absent a b s : ~ In a s -> replace_char a b s = s.
Proof.
  unfold replace_char. induction s as [|c s IH]; simpl; intros H; [reflexivity|].
  destruct (Ascii.eqb_spec c a); [exfalso; apply H; now left|]. simpl. f_equal. apply IH. tauto.
Qed.

Lemma replace_char_out a b s : ~ In a b -> ~ In a (replace_char a b s).
Proof.
  unfold replace_char. intros H HI. apply in_flat_map in HI. destruct HI as (c & _ & HI).
  destruct (Ascii.eqb_spec c a); [contradiction|]. destruct HI as [->|[]]. congruence.
Qed.

Lemma replace_char_In a b s c : In c (replace_char a b s) -> In c b \/ In c s.
Proof.
  unfold replace_char. rewrite in_flat_map. intros (x & Hx & H).
  destruct (Ascii.eqb x a); [now left|]. destruct H as [->|[]]. now right.
Qed.

Lemma replace_char_app a b s t : replace_char a b (s ++ t) = replace_char a b s ++ replace_char a b t.
Proof. apply flat_map_app. Qed.

Lemma replace_from_absent x p q s : ~ In x s -> replace_from (x :: p) q 0 s = s.
Proof.
  induction s as [|c s IH]; [reflexivity|]. intros H. cbn [replace_from].
  assert (E : prefix_of (x :: p) (c :: s) = false).
  { cbn [prefix_of]. destruct (Ascii.eqb_spec x c) as [->|]; [exfalso; apply H; now left|reflexivity]. }
  rewrite E. f_equal. apply IH. intros HI. apply H. now right.
Qed.

Lemma replace_absent x p q s : ~ In x s -> replace (x :: p) q s = s.
Proof. apply replace_from_absent. Qed.

Lemma replace_from_In p q : forall s k c, In c (replace_from p q k s) -> In c q \/ In c s.
Proof.
  induction s as [|x s IH]; intros k c H; [destruct H|]. cbn [replace_from] in H.
  destruct k as [|k].
  - destruct (prefix_of p (x :: s)).
    + apply in_app_iff in H. destruct H as [H|H]; [now left|].
      apply IH in H. destruct H; [now left|right; now right].
    + destruct H as [->|H]; [right; now left|]. apply IH in H. destruct H; [now left|right; now right].
  - apply IH in H. destruct H; [now left|right; now right].
Qed.

Lemma replace_In p q s c : In c (replace p q s) -> In c q \/ In c s.
Proof. apply replace_from_In. Qed.

(** *** join *)
Lemma join_In sep l c : In c (join sep l) -> In c sep \/ exists w, In w l /\ In c w.
Proof.
  induction l as [|w l IH]; [intros []|]. destruct l as [|w2 l].
  - simpl. intros H. right. exists w. auto.
  - change (join sep (w :: w2 :: l)) with (w ++ sep ++ join sep (w2 :: l)).
    rewrite !in_app_iff. intros [H|[H|H]].
    + right. exists w. split; [now left|assumption].
    + now left.
    + destruct (IH H) as [H'|(v & Hv & Hc)]; [now left|]. right. exists v. split; [now right|assumption].
Qed.

Lemma join_cons2 sep w w2 l : join sep (w :: w2 :: l) = w ++ sep ++ join sep (w2 :: l).
Proof. reflexivity. Qed.

Lemma join_head sep c cur more : exists j, join sep ((c :: cur) :: more) = c :: j.
Proof. destruct more; [exists cur; reflexivity|]. rewrite join_cons2. eexists. reflexivity. Qed.

(** *** findall *)
Lemma chunk_tail_concat s : fst (chunk_tail s) ++ concat (snd (chunk_tail s)) = s.
Proof.
  induction s as [|c s IH]; simpl; [reflexivity|].
  destruct (chunk_tail s) as [cur more]. simpl in IH. destruct (is_upper c); simpl; congruence.
Qed.

Lemma findall_concat s : concat (findall_words s) = drop_newlines s.
Proof.
  unfold findall_words. destruct (drop_newlines s) as [|c r]; [reflexivity|].
  pose proof (chunk_tail_concat r) as H. destruct (chunk_tail r) as [cur more]. simpl in *. congruence.
Qed.

Lemma drop_newlines_In s c : In c (drop_newlines s) -> In c s.
Proof.
  induction s as [|x s IH]; simpl; [tauto|]. destruct (Ascii.eqb x newline); [right; auto|auto].
Qed.

Lemma findall_cons c r : c <> newline -> findall_words (c :: r) = (c :: fst (chunk_tail r)) :: snd (chunk_tail r).
Proof.
  intros H. unfold findall_words. simpl. destruct (Ascii.eqb_spec c newline); [contradiction|].
  destruct (chunk_tail r). reflexivity.
Qed.

Lemma findall_In s w c : In w (findall_words s) -> In c w -> In c s.
Proof.
  intros Hw Hc. apply drop_newlines_In. rewrite <- findall_concat. apply in_concat. eauto.
Qed.

Lemma to_lower_slash c : to_lower c = "/"%char -> c = "/"%char.
Proof.
  intros H. assert (G : implb (Ascii.eqb (to_lower c) "/") (Ascii.eqb c "/") = true).
  { clear H. revert c. apply ascii_forall. vm_compute. reflexivity. }
  rewrite H in G. simpl in G. now apply Ascii.eqb_eq in G.
Qed.

Lemma to_lower_underscore c : Ascii.eqb (to_lower c) "_" = Ascii.eqb c "_".
Proof.
  apply eqb_prop. revert c.
  apply (ascii_forall (fun c => Bool.eqb (Ascii.eqb (to_lower c) "_") (Ascii.eqb c "_"))).
  vm_compute. reflexivity.
Qed.

Lemma to_lower_digit c : is_digit (to_lower c) = is_digit c.
Proof.
  apply eqb_prop. revert c. apply (ascii_forall (fun c => Bool.eqb (is_digit (to_lower c)) (is_digit c))).
  vm_compute. reflexivity.
Qed.

(** The name after the first step. *)
Definition slashed (name : text) : text :=
  if has_char "/" name then replace_char "/" (txt ".") name else name.

Lemma slashed_eq name : slashed name = replace_char "/" (txt ".") name.
Proof.
  unfold slashed. destruct (has_char "/" name) eqn:E; [reflexivity|].
  apply has_char_notIn in E. now rewrite replace_char_absent.
Qed.

Lemma slashed_no_slash name : ~ In "/"%char (slashed name).
Proof. rewrite slashed_eq. apply replace_char_out. simpl. intuition discriminate. Qed.

Lemma validate_attribute_unfold name :
  validate_attribute name =
  if starts_with_digit name then Err ValueError
  else if existsb is_upper (slashed name)
       then Ok (lower (replace (txt "._") (txt ".") (join (txt "_") (findall_words (slashed name)))))
       else Ok (slashed name).
Proof. reflexivity. Qed.

Lemma validate_attribute_no_upper name r :
  validate_attribute name = Ok r -> existsb is_upper r = false.
Proof.
  rewrite validate_attribute_unfold. destruct (starts_with_digit name); [discriminate|].
  destruct (existsb is_upper (slashed name)) eqn:E; intros H; apply Ok_inj in H; subst r.
  - apply lower_no_upper.
  - exact E.
Qed.

Lemma validate_attribute_no_slash name r :
  validate_attribute name = Ok r -> ~ In "/"%char r.
Proof.
  rewrite validate_attribute_unfold. destruct (starts_with_digit name); [discriminate|].
  destruct (existsb is_upper (slashed name)) eqn:E; intros H; apply Ok_inj in H; subst r.
  - unfold lower. rewrite in_map_iff. intros (c & E1 & H). apply to_lower_slash in E1. subst c.
    apply replace_In in H. destruct H as [H|H]; [simpl in H; intuition discriminate|].
    apply join_In in H. destruct H as [H|(w & Hw & Hc)]; [simpl in H; intuition discriminate|].
    eapply slashed_no_slash. eapply findall_In; eauto.
  - apply slashed_no_slash.
Qed.

Lemma replace_dot_head c s :
  exists s', replace (txt "._") (txt ".") (c :: s) = c :: s'.
Proof.
  unfold replace. cbn [replace_from]. destruct (prefix_of (txt "._") (c :: s)) eqn:E.
  - apply prefix_of_spec in E. destruct E as [r E]. injection E as -> ->. simpl. eauto.
  - eauto.
Qed.

Lemma slashed_head c r : exists c' r', slashed (c :: r) = c' :: r' /\
  (c' = c \/ c' = "."%char) /\ is_digit c' = is_digit c /\ (c' = newline -> c = newline).
Proof.
  rewrite slashed_eq. unfold replace_char. simpl. destruct (Ascii.eqb_spec c "/") as [->|n].
  - simpl. eexists _, _. split; [reflexivity|]. repeat split; auto. intros H; discriminate.
  - simpl. eexists _, _. split; [reflexivity|]. auto.
Qed.

Lemma validate_attribute_head name r :
  validate_attribute name = Ok r -> (forall t, name <> newline :: t) -> starts_with_digit r = false.
Proof.
  rewrite validate_attribute_unfold. destruct name as [|c name].
  - simpl. intros H _. apply Ok_inj in H; subst r. reflexivity.
  - destruct (starts_with_digit (c :: name)) eqn:D; [discriminate|]. simpl in D. intros H HN.
    destruct (slashed_head c name) as (c' & r' & E & _ & Ed & Enl).
    assert (Hc' : c' <> newline) by (intros ->; apply (HN name); f_equal; auto).
    rewrite E in H. destruct (existsb is_upper (c' :: r')); apply Ok_inj in H; subst r.
    + rewrite findall_cons by assumption.
      destruct (join_head (txt "_") c' (fst (chunk_tail r')) (snd (chunk_tail r'))) as (j & Ej).
      rewrite Ej. destruct (replace_dot_head c' j) as (s' & Es). rewrite Es.
      cbn [lower map starts_with_digit]. rewrite to_lower_digit. congruence.
    + simpl. congruence.
Qed.

Lemma validate_attribute_fixed r :
  starts_with_digit r = false -> existsb is_upper r = false -> ~ In "/"%char r ->
  validate_attribute r = Ok r.
Proof.
  intros H1 H2 H3. rewrite validate_attribute_unfold, H1, slashed_eq, replace_char_absent by assumption.
  now rewrite H2.
Qed.

(** *** letters are preserved *)
Lemma wu_app a b : without_underscores (a ++ b) = without_underscores a ++ without_underscores b.
Proof. apply filter_app. Qed.

Lemma wu_join l : without_underscores (join (txt "_") l) = without_underscores (concat l).
Proof.
  induction l as [|w l IH]; [reflexivity|]. destruct l as [|w2 l].
  - simpl. now rewrite app_nil_r.
  - rewrite join_cons2, wu_app, wu_app. simpl (without_underscores (txt "_")).
    rewrite IH. cbn [concat]. rewrite (wu_app w). reflexivity.
Qed.

Lemma wu_replace s :
  without_underscores (replace_from (txt "._") (txt ".") 0 s) = without_underscores s /\
  without_underscores (replace_from (txt "._") (txt ".") 1 s) = without_underscores (tl s).
Proof.
  induction s as [|c s [IH0 IH1]]; [split; reflexivity|].
  split; cbn [replace_from].
  - destruct (prefix_of (txt "._") (c :: s)) eqn:E.
    + apply prefix_of_spec in E. destruct E as [r E]. injection E as -> ->.
      rewrite wu_app. change (length (txt "._") - 1) with 1. rewrite IH1. reflexivity.
    + unfold without_underscores in *. cbn [filter]. now rewrite IH0.
  - exact IH0.
Qed.

Lemma wu_lower s : without_underscores (lower s) = lower (without_underscores s).
Proof.
  unfold without_underscores, lower. induction s as [|c s IH]; simpl; [reflexivity|].
  rewrite to_lower_underscore. destruct (Ascii.eqb c "_"); simpl; congruence.
Qed.

Lemma drop_newlines_id s : (forall t, s <> newline :: t) -> drop_newlines s = s.
Proof.
  destruct s as [|c s]; simpl; [reflexivity|]. intros H.
  destruct (Ascii.eqb_spec c newline) as [->|]; [exfalso; eapply H; reflexivity|reflexivity].
Qed.

Lemma slashed_newline name : (forall t, name <> newline :: t) -> forall t, slashed name <> newline :: t.
Proof.
  intros H t E. destruct name as [|c r].
  - rewrite slashed_eq in E. discriminate.
  - destruct (slashed_head c r) as (c' & r' & E' & _ & _ & Hn). rewrite E' in E.
    injection E as -> _. apply (H r). f_equal. auto.
Qed.

Lemma validate_attribute_letters name r :
  validate_attribute name = Ok r -> (forall t, name <> newline :: t) ->
  without_underscores r = without_underscores (lower (replace_char "/" (txt ".") name)).
Proof.
  rewrite validate_attribute_unfold. destruct (starts_with_digit name); [discriminate|].
  intros H HN. rewrite <- slashed_eq.
  destruct (existsb is_upper (slashed name)) eqn:E; apply Ok_inj in H; subst r.
  - rewrite !wu_lower. f_equal. unfold replace. rewrite (proj1 (wu_replace _)), wu_join, findall_concat.
    now rewrite drop_newlines_id by now apply slashed_newline.
  - now rewrite lower_fixed.
Qed.

(** *** CapWords *)
Definition cap (w : text) : text := match w with [] => [] | c :: r => to_upper c :: r end.

Lemma is_alpha_lower c : is_lower c = true -> is_alpha c = true.
Proof. unfold is_alpha. intros ->. apply orb_true_r. Qed.

Lemma digit_facts c : is_digit c = true ->
  is_alpha c = false /\ to_upper c = c /\ to_lower c = c /\ is_upper c = false /\ c <> " "%char /\ c <> "_"%char /\ c <> "/"%char /\ c <> "."%char.
Proof.
  intros H.
  assert (G : implb (is_digit c) (negb (is_alpha c) && Ascii.eqb (to_upper c) c && Ascii.eqb (to_lower c) c &&
    negb (is_upper c) && negb (Ascii.eqb c " ") && negb (Ascii.eqb c "_") && negb (Ascii.eqb c "/") && negb (Ascii.eqb c ".")) = true).
  { clear H. revert c. apply ascii_forall. vm_compute. reflexivity. }
  rewrite H in G. simpl in G. rewrite !andb_true_iff, !negb_true_iff, !Ascii.eqb_eq, !Ascii.eqb_neq in G.
  tauto.
Qed.

Lemma lower_facts c : is_lower c = true ->
  to_lower c = c /\ is_upper c = false /\ c <> " "%char /\ c <> "_"%char /\ c <> "/"%char /\ c <> "."%char /\
  is_upper (to_upper c) = true /\ to_lower (to_upper c) = c /\ to_upper c <> " "%char /\ to_upper c <> "/"%char /\
  to_upper c <> "."%char /\ is_digit (to_upper c) = false /\ to_upper c <> newline.
Proof.
  intros H.
  assert (G : implb (is_lower c) (Ascii.eqb (to_lower c) c &&
    negb (is_upper c) && negb (Ascii.eqb c " ") && negb (Ascii.eqb c "_") && negb (Ascii.eqb c "/") && negb (Ascii.eqb c ".")
    && is_upper (to_upper c) && Ascii.eqb (to_lower (to_upper c)) c && negb (Ascii.eqb (to_upper c) " ")
    && negb (Ascii.eqb (to_upper c) "/") && negb (Ascii.eqb (to_upper c) ".") && negb (is_digit (to_upper c))
    && negb (Ascii.eqb (to_upper c) newline)) = true).
  { clear H. revert c. apply ascii_forall. vm_compute. reflexivity. }
  rewrite H in G. simpl in G. rewrite !andb_true_iff, !negb_true_iff, !Ascii.eqb_eq, !Ascii.eqb_neq in G.
  tauto.
Qed.

Lemma title_lower l r : Forall (fun c => is_lower c = true) l ->
  title_from true (l ++ r) = l ++ title_from true r.
Proof.
  induction 1 as [|c l Hc HF IH]; [reflexivity|]. simpl.
  rewrite (is_alpha_lower c Hc), IH. f_equal. now apply lower_facts.
Qed.

Lemma title_digits d r b : Forall (fun c => is_digit c = true) d ->
  exists b', title_from b (d ++ r) = d ++ title_from b' r.
Proof.
  intros H. revert b. induction H as [|c d Hc HF IH]; intros b; [now exists b|].
  simpl. destruct (digit_facts c Hc) as (Ha & Hu & Hl & _). destruct (IH (is_alpha c)) as (b' & ->).
  exists b'. destruct b; rewrite ?Hu, ?Hl; reflexivity.
Qed.

Lemma title_word w r : word w -> exists b, title_from false (w ++ r) = cap w ++ title_from b r.
Proof.
  intros (l & d & -> & Hl & HL & HD). destruct l as [|c l]; [congruence|].
  inversion HL as [|? ? Hc HL']; subst. simpl. rewrite (is_alpha_lower c Hc).
  rewrite <- !app_assoc, title_lower by assumption.
  destruct (title_digits d r true HD) as (b & E). exists b. rewrite E, <- ?app_assoc. reflexivity.
Qed.

Lemma word_chars w : word w -> Forall (fun c => is_lower c = true \/ is_digit c = true) w.
Proof.
  intros (l & d & -> & _ & HL & HD). apply Forall_app. split.
  - eapply Forall_impl; [|exact HL]. auto.
  - eapply Forall_impl; [|exact HD]. auto.
Qed.

Lemma word_avoids w c : word w -> In c w -> c <> " "%char /\ c <> "_"%char /\ c <> "/"%char /\ c <> "."%char /\ is_upper c = false /\ to_lower c = c.
Proof.
  intros W H. apply word_chars in W. rewrite Forall_forall in W. destruct (W c H) as [L|D].
  - apply lower_facts in L. tauto.
  - apply digit_facts in D. tauto.
Qed.

Lemma title_words ws : ws <> [] -> Forall word ws ->
  forall b, (b = false) -> title_from b (join (txt " ") ws) = join (txt " ") (map cap ws).
Proof.
  induction ws as [|w ws IH]; [congruence|]. intros _ HF b ->.
  inversion HF as [|? ? Hw HF']; subst. destruct ws as [|w2 ws].
  - simpl. destruct (title_word w [] Hw) as (b & E). rewrite app_nil_r in E. rewrite E. simpl.
    now rewrite app_nil_r.
  - cbn [map]. rewrite !join_cons2. destruct (title_word w (txt " " ++ join (txt " ") (w2 :: ws)) Hw) as (b & E).
    rewrite E. f_equal. simpl (txt " "). cbn [app title_from]. f_equal.
    + destruct b; reflexivity.
    + apply IH; [discriminate|assumption|reflexivity].
Qed.

Lemma replace_char_join a b ws :
  (forall w, In w ws -> ~ In a w) -> replace_char a b (join [a] ws) = join b ws.
Proof.
  induction ws as [|w ws IH]; [reflexivity|]. intros H. destruct ws as [|w2 ws].
  - simpl. apply replace_char_absent. apply H. now left.
  - rewrite !join_cons2, replace_char_app. rewrite (replace_char_absent a b w) by (apply H; now left).
    f_equal. change ([a] ++ join [a] (w2 :: ws)) with ([a] ++ join [a] (w2 :: ws)).
    rewrite replace_char_app, IH by (intros v Hv; apply H; now right). f_equal.
    unfold replace_char. simpl. rewrite Ascii.eqb_refl. now rewrite app_nil_r.
Qed.

Lemma join_nil ws : join [] ws = concat ws.
Proof.
  induction ws as [|w ws IH]; [reflexivity|]. destruct ws as [|w2 ws].
  - simpl. now rewrite app_nil_r.
  - rewrite join_cons2, IH. reflexivity.
Qed.

Lemma cap_avoids w c : word w -> In c (cap w) -> c <> " "%char /\ c <> "/"%char /\ c <> "."%char /\ c <> "_"%char.
Proof.
  intros W H. destruct w as [|x w]; [destruct H|]. simpl in H. destruct H as [<-|H].
  - destruct W as (l & d & E & Hl & HL & HD). destruct l as [|y l]; [congruence|].
    injection E as -> ->. inversion HL; subst.
    assert (G : is_lower y = true) by assumption.
    apply lower_facts in G. destruct G as (_ & _ & _ & _ & _ & _ & U & _ & A1 & A2 & A3 & _).
    repeat split; auto. intros E. rewrite E in U. discriminate.
  - apply (word_avoids _ c) in W; [tauto|]. now right.
Qed.

Lemma capwords_snake ws : ws <> [] -> Forall word ws -> capwords (snake ws) = concat (map cap ws).
Proof.
  intros NE HF. unfold capwords, snake.
  destruct (has_char "_" (join (txt "_") ws)) eqn:E.
  - rewrite replace_char_join.
    2:{ intros w Hw HI. rewrite Forall_forall in HF. apply (word_avoids w _ (HF w Hw)) in HI. tauto. }
    unfold title. rewrite title_words by auto. simpl (txt " "). rewrite replace_char_join.
    + apply join_nil.
    + intros w Hw HI. apply in_map_iff in Hw. destruct Hw as (v & <- & Hv).
      rewrite Forall_forall in HF. apply (cap_avoids v _ (HF v Hv)) in HI. tauto.
  - destruct ws as [|w [|w2 ws]]; [congruence| |].
    + simpl in *. inversion HF as [|? ? Hw _]; subst.
      assert (U : existsb is_upper w = false).
      { destruct (existsb is_upper w) eqn:U; [|reflexivity]. apply existsb_exists in U.
        destruct U as (c & Hc & Hu). apply (word_avoids w c Hw) in Hc. exfalso. intuition congruence. }
      rewrite U. unfold title. destruct (title_word w [] Hw) as (b & Et).
      rewrite app_nil_r in Et. rewrite Et. simpl. now rewrite !app_nil_r.
    + exfalso. apply has_char_notIn in E. apply E. rewrite join_cons2.
      apply in_or_app. right. now left.
Qed.

Lemma chunk_tail_app a b : Forall (fun c => is_upper c = false) a ->
  chunk_tail (a ++ b) = (a ++ fst (chunk_tail b), snd (chunk_tail b)).
Proof.
  induction 1 as [|c a Hc HF IH]; simpl.
  - destruct (chunk_tail b); reflexivity.
  - rewrite IH, Hc. reflexivity.
Qed.

Lemma cap_shape w : word w -> exists C r, cap w = C :: r /\ is_upper C = true /\ C <> newline /\ is_digit C = false /\
   Forall (fun c => is_upper c = false) r.
Proof.
  intros W. pose proof W as (l & d & E & Hl & HL & HD). destruct l as [|y l]; [congruence|].
  exists (to_upper y), (l ++ d). rewrite E. simpl. inversion HL as [|? ? Hy HL']; subst.
  pose proof (lower_facts y Hy) as F. repeat split; try tauto.
  apply Forall_app. split.
  - eapply Forall_impl; [|exact HL']. intros c Hc. now apply lower_facts.
  - eapply Forall_impl; [|exact HD]. intros c Hc. now apply digit_facts.
Qed.

Lemma chunk_tail_caps ws : Forall word ws -> chunk_tail (concat (map cap ws)) = ([], map cap ws).
Proof.
  induction 1 as [|w ws Hw HF IH]; [reflexivity|]. simpl.
  destruct (cap_shape w Hw) as (C & r & E & HC & _ & _ & Hr). rewrite E. simpl.
  rewrite chunk_tail_app by assumption. rewrite IH. simpl. rewrite app_nil_r, HC. reflexivity.
Qed.

Lemma findall_caps ws : ws <> [] -> Forall word ws -> findall_words (concat (map cap ws)) = map cap ws.
Proof.
  intros NE HF. destruct ws as [|w ws]; [congruence|]. inversion HF as [|? ? Hw HF']; subst.
  destruct (cap_shape w Hw) as (C & r & E & HC & HN & _ & Hr). simpl. rewrite E.
  unfold findall_words. simpl. destruct (Ascii.eqb_spec C newline); [contradiction|].
  rewrite chunk_tail_app by assumption. rewrite chunk_tail_caps by assumption. simpl.
  now rewrite app_nil_r.
Qed.

Lemma lower_cap w : word w -> lower (cap w) = w.
Proof.
  intros W. destruct w as [|c w].
  - reflexivity.
  - simpl. rewrite to_lower_to_upper.
    assert (F : lower (c :: w) = c :: w).
    { apply lower_fixed. destruct (existsb is_upper (c :: w)) eqn:U; [|reflexivity].
      apply existsb_exists in U. destruct U as (x & Hx & Hu). apply (word_avoids _ x W) in Hx.
      exfalso. intuition congruence. }
    unfold lower in F. simpl in F. exact F.
Qed.

Lemma lower_join sep ws : lower (join sep ws) = join (lower sep) (map lower ws).
Proof.
  induction ws as [|w ws IH]; [reflexivity|]. destruct ws as [|w2 ws]; [reflexivity|].
  cbn [map]. rewrite !join_cons2, !lower_app, IH. reflexivity.
Qed.

Lemma validate_caps ws : ws <> [] -> Forall word ws ->
  validate_attribute (concat (map cap ws)) = Ok (snake ws).
Proof.
  intros NE HF. rewrite validate_attribute_unfold.
  assert (NS : ~ In "/"%char (concat (map cap ws))).
  { intros H. apply in_concat in H. destruct H as (v & Hv & Hc). apply in_map_iff in Hv.
    destruct Hv as (w & <- & Hw). rewrite Forall_forall in HF. apply (cap_avoids w _ (HF w Hw)) in Hc. tauto. }
  rewrite slashed_eq, replace_char_absent by assumption.
  assert (D : starts_with_digit (concat (map cap ws)) = false).
  { destruct ws as [|w ws]; [congruence|]. inversion HF; subst.
    destruct (cap_shape w) as (C & r & E & _ & _ & HD & _); [assumption|]. simpl. rewrite E. exact HD. }
  assert (U : existsb is_upper (concat (map cap ws)) = true).
  { destruct ws as [|w ws]; [congruence|]. inversion HF; subst.
    destruct (cap_shape w) as (C & r & E & HC & _); [assumption|]. simpl. rewrite E. simpl. now rewrite HC. }
  rewrite D, U, findall_caps by assumption. f_equal.
  assert (ND : ~ In "."%char (join (txt "_") (map cap ws))).
  { intros H. apply join_In in H. destruct H as [H|(v & Hv & Hc)].
    - simpl in H. intuition discriminate.
    - apply in_map_iff in Hv. destruct Hv as (w & <- & Hw). rewrite Forall_forall in HF.
      apply (cap_avoids w _ (HF w Hw)) in Hc. tauto. }
  change (txt "._") with ("."%char :: txt "_"). rewrite replace_absent by assumption.
  rewrite lower_join. unfold snake. simpl (lower (txt "_")). f_equal.
  rewrite map_map. clear -HF. induction HF as [|w ws Hw HF IH]; simpl; [reflexivity|].
  rewrite lower_cap by assumption. now rewrite IH.
Qed.

(** *** Station names *)
Definition sclean (s : text) : text :=
  replace_char "." (txt "_") (replace_char "-" (txt "_") (replace_char " " (txt "_") s)).

Lemma replace_char_map a b s : replace_char a [b] s = map (fun c => if Ascii.eqb c a then b else c) s.
Proof.
  unfold replace_char. induction s as [|c s IH]; simpl; [reflexivity|].
  rewrite IH. destruct (Ascii.eqb c a); reflexivity.
Qed.

Definition sclean_c (c : ascii) : ascii :=
  if Ascii.eqb c " " then "_"%char else if Ascii.eqb c "-" then "_"%char else if Ascii.eqb c "." then "_"%char else c.

Lemma sclean_map s : sclean s = map sclean_c s.
Proof.
  unfold sclean. simpl (txt "_"). rewrite !replace_char_map, !map_map. apply map_ext.
  intros c. unfold sclean_c. destruct (Ascii.eqb c " "); [reflexivity|].
  destruct (Ascii.eqb c "-"); [reflexivity|]. reflexivity.
Qed.

Lemma sclean_c_newline c : sclean_c c = newline -> c = newline.
Proof.
  unfold sclean_c. destruct (Ascii.eqb c " "); [discriminate|]. destruct (Ascii.eqb c "-"); [discriminate|].
  destruct (Ascii.eqb c "."); [discriminate|auto].
Qed.

Lemma station_body name :
  match rev (sclean (strip name)) with
  | c :: r => if Ascii.eqb c newline then rev r else sclean (strip name)
  | [] => sclean (strip name)
  end = sclean (strip name).
Proof.
  destruct (rev (sclean (strip name))) as [|c r] eqn:E; [reflexivity|].
  destruct (Ascii.eqb_spec c newline) as [->|]; [|reflexivity].
  exfalso. rewrite sclean_map, <- map_rev in E.
  destruct (rev (strip name)) as [|d t] eqn:E2; [discriminate|]. simpl in E. injection E as E _.
  apply sclean_c_newline in E. subst d.
  assert (S : strip name = rev t ++ [newline]) by (rewrite <- (rev_involutive (strip name)), E2; reflexivity).
  pose proof (proj2 (trimmed_strip name) _ _ S) as H. discriminate.
Qed.

Lemma validate_station_unfold name :
  validate_station_name name =
  if nonempty (sclean (strip name)) && forallb station_char (sclean (strip name))
  then Ok (sclean (strip name)) else Err ValueError.
Proof.
  unfold validate_station_name. fold (sclean (strip name)). rewrite station_body. reflexivity.
Qed.

Lemma station_char_facts c : station_char c = true -> is_space c = false /\ sclean_c c = c.
Proof.
  intros H. assert (G : implb (station_char c) (negb (is_space c) && Ascii.eqb (sclean_c c) c) = true).
  { clear H. revert c. apply ascii_forall. vm_compute. reflexivity. }
  rewrite H in G. simpl in G. rewrite andb_true_iff, negb_true_iff, Ascii.eqb_eq in G. exact G.
Qed.

Lemma station_fixed s : nonempty s = true -> forallb station_char s = true -> validate_station_name s = Ok s.
Proof.
  intros H1 H2. rewrite validate_station_unfold.
  rewrite forallb_forall in H2.
  assert (S : strip s = s).
  { apply strip_trimmed. split; intros c r ->; apply station_char_facts, H2.
    - now left.
    - apply in_or_app. right. now left. }
  rewrite S, sclean_map.
  assert (M : map sclean_c s = s).
  { rewrite <- (map_id s) at 2. apply map_ext_in. intros c Hc. now apply station_char_facts, H2. }
  rewrite M, H1. simpl. rewrite (proj2 (forallb_forall station_char s) H2). reflexivity.
Qed.

(** *** Options *)
Lemma remove_brackets_absent s : ~ In "["%char s -> ~ In "]"%char s -> remove_brackets s = s.
Proof. intros H1 H2. unfold remove_brackets. rewrite (replace_char_absent "[") by assumption. now apply replace_char_absent. Qed.

Lemma filter_all {A} (f : A -> bool) l : forallb f l = true -> filter f l = l.
Proof.
  induction l as [|x l IH]; simpl; [reflexivity|]. destruct (f x); simpl; [|discriminate].
  intros H. now rewrite IH.
Qed.

Lemma trimmed_app3 a m b : trimmed a -> a <> [] -> trimmed b -> b <> [] -> trimmed (a ++ m ++ b).
Proof.
  intros [A1 A2] NA [B1 B2] NB. split; intros c r E.
  - destruct a as [|x a]; [congruence|]. injection E as -> _. eapply A1. reflexivity.
  - destruct (exists_last NB) as (b' & y & ->). rewrite !app_assoc in E.
    apply app_inj_tail in E. destruct E as [_ <-]. eapply B2. reflexivity.
Qed.

Lemma join_nonnil sep ws : ws <> [] -> (forall w, In w ws -> w <> []) -> join sep ws <> [].
Proof.
  intros NE H. destruct ws as [|w ws]; [congruence|]. assert (w <> []) by (apply H; now left).
  destruct ws; [assumption|]. rewrite join_cons2. destruct w; [congruence|discriminate].
Qed.

Lemma trimmed_join sep ws : (forall w, In w ws -> w <> [] /\ trimmed w) -> trimmed (join sep ws).
Proof.
  induction ws as [|w ws IH]; intros H.
  - split; intros c r E; [discriminate|destruct r; discriminate].
  - destruct ws as [|w2 ws]; [apply H; now left|]. rewrite join_cons2.
    apply trimmed_app3; try (apply H; now left).
    + apply IH. intros v Hv. apply H. now right.
    + apply join_nonnil; [discriminate|]. intros v Hv. apply H. now right.
Qed.

Lemma validate_options_join ws :
  ws <> [] ->
  (forall w, In w ws -> trimmed w /\ w <> [] /\ lower w <> txt "none" /\
     ~ In "["%char w /\ ~ In "]"%char w /\ ~ In "|"%char w) ->
  validate_options (join (txt "|") ws) = ws.
Proof.
  intros NE H. unfold validate_options.
  rewrite remove_brackets_absent.
  2:{ intros HI. apply join_In in HI. destruct HI as [[E|[]]|(w & Hw & Hc)]; [discriminate|].
      specialize (H w Hw); tauto. }
  2:{ intros HI. apply join_In in HI. destruct HI as [[E|[]]|(w & Hw & Hc)]; [discriminate|].
      specialize (H w Hw); tauto. }
  rewrite strip_trimmed by (apply trimmed_join; intros w Hw; split; now apply H).
  simpl (txt "|"). rewrite split_join; [|assumption|intros w Hw; now apply H].
  rewrite filter_all.
  - rewrite <- (map_id ws) at 2. apply map_ext_in. intros w Hw. now apply strip_trimmed, H.
  - apply forallb_forall. intros w Hw. destruct (H w Hw) as (_ & H1 & H2 & _).
    cbn [existsb]. unfold text_eqb. destruct (text_dec (lower w) (txt "none")); [contradiction|].
    destruct (text_dec (lower w) []) as [E|]; [|reflexivity].
    destruct w; [congruence|discriminate].
Qed.

Lemma strip_In s c : In c (strip s) -> In c s.
Proof.
  assert (L : forall s c, In c (lstrip s) -> In c s).
  { clear. induction s as [|x s IH]; simpl; [tauto|]. intros c. destruct (is_space x); [right; auto|auto]. }
  unfold strip, rstrip. intros H. apply in_rev, L, in_rev, L in H. exact H.
Qed.

Lemma validate_options_clean s w : In w (validate_options s) ->
  trimmed w /\ ~ In "["%char w /\ ~ In "]"%char w /\ ~ In "|"%char w.
Proof.
  intros H. unfold validate_options in H. apply in_map_iff in H. destruct H as (v & <- & Hv).
  apply filter_In in Hv. destruct Hv as [Hv _]. split; [apply trimmed_strip|].
  assert (Hb : forall c, In c v -> In c (remove_brackets s)).
  { intros c Hc. apply strip_In. rewrite <- (join_split "|").
    remember (split_on "|" (strip (remove_brackets s))) as l. clear -Hv Hc.
    induction l as [|x l IH]; [destruct Hv|]. destruct l as [|y l].
    - destruct Hv as [->|[]]. exact Hc.
    - rewrite join_cons2, !in_app_iff. destruct Hv as [->|Hv]; auto. }
  repeat split; intros HI; apply strip_In in HI.
  - apply Hb in HI. unfold remove_brackets in HI. apply replace_char_In in HI.
    destruct HI as [[]|HI]. now apply replace_char_out in HI.
  - apply Hb in HI. unfold remove_brackets in HI. now apply replace_char_out in HI.
  - now apply (split_on_parts "|" (strip (remove_brackets s)) v Hv).
Qed.

Lemma validate_type_cases v r : validate_type v = Ok r ->
  In r (map txt ["integer"; "float"; "string"; "boolean"; "list"; "dict"; "object"]%string) \/
  r = replace (txt ">") [] (replace (txt "<class") [] v).
Proof.
  unfold validate_type.
  repeat match goal with |- context [if ?b then _ else _] => destruct b end;
  intros H; try discriminate; injection H as <-; simpl; auto 10.
Qed.

Lemma validate_type_idem v r : ~ In "<"%char v -> validate_type v = Ok r -> validate_type r = Ok r.
Proof.
  intros NL H. destruct (validate_type_cases v r H) as [C|E].
  - simpl in C. repeat (destruct C as [<-|C]; [reflexivity|]). destruct C.
  - assert (E1 : replace (txt "<class") [] v = v) by now apply replace_absent.
    rewrite E1 in E.
    assert (E2 : replace (txt "<class") [] r = r).
    { apply replace_absent. intros HI. apply NL. rewrite E in HI. apply replace_In in HI.
      now destruct HI as [[]|HI]. }
    assert (E3 : replace (txt ">") [] r = r).
    { apply replace_absent. rewrite E. intros HI. clear -HI. unfold replace in HI.
      revert HI. induction v as [|c v IH]; [intros []|]. cbn [replace_from].
      change (length (txt ">") - 1) with 0.
      destruct (prefix_of (txt ">") (c :: v)) eqn:P; [exact IH|].
      intros [Ec|HI]; [|auto]. subst c. simpl in P. discriminate. }
    unfold validate_type in *. rewrite E1, <- E in H. rewrite E2, E3. exact H.
Qed.
