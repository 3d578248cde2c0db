(** Lemmas about the string functions of [PyText]. *)
From Verif Require Import PyBase PyText.

(** *** Characters: finite case analysis *)
Definition all_ascii : list ascii := map ascii_of_nat (seq 0 256).

Lemma all_ascii_In c : In c all_ascii.
Proof.
  unfold all_ascii. apply in_map_iff. exists (nat_of_ascii c). split.
  - apply ascii_nat_embedding.
  - apply in_seq. pose proof (nat_ascii_bounded c). lia.
Qed.

(** Lift a boolean check over the 256 characters to a statement about every character. *)
Lemma ascii_forall (P : ascii -> bool) : forallb P all_ascii = true -> forall c, P c = true.
Proof. intros H c. rewrite forallb_forall in H. apply H, all_ascii_In. Qed.

Lemma is_upper_to_lower c : is_upper (to_lower c) = false.
Proof. apply negb_true_iff. revert c. apply ascii_forall. vm_compute. reflexivity. Qed.

Lemma to_lower_idem c : to_lower (to_lower c) = to_lower c.
Proof. unfold to_lower at 1. now rewrite is_upper_to_lower. Qed.

Lemma to_lower_not_upper c : is_upper c = false -> to_lower c = c.
Proof. intros H. unfold to_lower. now rewrite H. Qed.

Lemma to_lower_to_upper c : to_lower (to_upper c) = to_lower c.
Proof.
  apply Ascii.eqb_eq. revert c.
  apply (ascii_forall (fun c => Ascii.eqb (to_lower (to_upper c)) (to_lower c))). vm_compute. reflexivity.
Qed.

Lemma is_lower_not_upper c : is_lower c = true -> is_upper c = false.
Proof.
  intros H. assert (G : implb (is_lower c) (negb (is_upper c)) = true).
  { revert c H. intros c _. revert c. apply ascii_forall. vm_compute. reflexivity. }
  rewrite H in G. simpl in G. now apply negb_true_iff in G.
Qed.

Lemma is_upper_to_upper c : is_lower c = true -> is_upper (to_upper c) = true.
Proof.
  intros H. assert (G : implb (is_lower c) (is_upper (to_upper c)) = true).
  { clear H. revert c. apply ascii_forall. vm_compute. reflexivity. }
  rewrite H in G. exact G.
Qed.

Lemma lower_idem s : lower (lower s) = lower s.
Proof. unfold lower. rewrite map_map. apply map_ext. apply to_lower_idem. Qed.

Lemma lower_no_upper s : existsb is_upper (lower s) = false.
Proof.
  unfold lower. induction s as [|c s IH]; simpl; [reflexivity|].
  now rewrite is_upper_to_lower, IH.
Qed.

Lemma lower_fixed s : existsb is_upper s = false -> lower s = s.
Proof.
  unfold lower. induction s as [|c s IH]; simpl; intros H; [reflexivity|].
  apply orb_false_iff in H. destruct H as [H1 H2]. rewrite to_lower_not_upper by assumption.
  f_equal. auto.
Qed.

Lemma lower_app a b : lower (a ++ b) = lower a ++ lower b.
Proof. apply map_app. Qed.

Lemma text_eqb_eq a b : text_eqb a b = true <-> a = b.
Proof. unfold text_eqb. destruct (text_dec a b); intuition discriminate. Qed.

Lemma text_eqb_refl a : text_eqb a a = true.
Proof. now apply text_eqb_eq. Qed.

(** *** split / join *)
Lemma has_char_In c s : has_char c s = true <-> In c s.
Proof.
  unfold has_char. rewrite existsb_exists. split.
  - intros (x & H & E). apply Ascii.eqb_eq in E. congruence.
  - intros H. exists c. split; [assumption|apply Ascii.eqb_refl].
Qed.

Lemma has_char_notIn c s : has_char c s = false <-> ~ In c s.
Proof. rewrite <- has_char_In. destruct (has_char c s); intuition congruence. Qed.

Lemma split_on_nonnil c s : split_on c s <> [].
Proof.
  induction s as [|x s IH]; simpl; [discriminate|].
  destruct (Ascii.eqb x c); [discriminate|]. destruct (split_on c s); discriminate.
Qed.

Lemma split_on_no c s : ~ In c s -> split_on c s = [s].
Proof.
  induction s as [|x s IH]; simpl; intros H; [reflexivity|].
  destruct (Ascii.eqb_spec x c); [exfalso; apply H; now left|].
  rewrite IH by tauto. reflexivity.
Qed.

Lemma split_on_app c s r : ~ In c s -> split_on c (s ++ c :: r) = s :: split_on c r.
Proof.
  induction s as [|x s IH]; simpl; intros H.
  - now rewrite Ascii.eqb_refl.
  - destruct (Ascii.eqb_spec x c); [exfalso; apply H; now left|].
    rewrite IH by tauto. reflexivity.
Qed.

Lemma split_join c l :
  l <> [] -> (forall w, In w l -> ~ In c w) -> split_on c (join [c] l) = l.
Proof.
  induction l as [|w l IH]; intros HN H; [congruence|].
  destruct l as [|w2 l].
  - simpl. apply split_on_no. apply H. now left.
  - change (join [c] (w :: w2 :: l)) with (w ++ [c] ++ join [c] (w2 :: l)).
    simpl app. rewrite split_on_app by (apply H; now left).
    f_equal. apply IH; [discriminate|]. intros x Hx. apply H. now right.
Qed.

Lemma join_split c s : join [c] (split_on c s) = s.
Proof.
  induction s as [|x s IH]; simpl; [reflexivity|].
  destruct (Ascii.eqb_spec x c) as [->|n].
  - pose proof (split_on_nonnil c s) as HN. destruct (split_on c s) as [|w ws]; [congruence|].
    change (join [c] ([] :: w :: ws)) with (c :: join [c] (w :: ws)). now rewrite IH.
  - pose proof (split_on_nonnil c s) as HN. destruct (split_on c s) as [|w ws]; [congruence|].
    destruct ws as [|w2 ws]; simpl in *; congruence.
Qed.

Lemma split_on_parts c s w : In w (split_on c s) -> ~ In c w.
Proof.
  revert w; induction s as [|x s IH]; simpl; intros w H.
  - destruct H as [<-|[]]. auto.
  - destruct (Ascii.eqb_spec x c) as [->|n].
    + destruct H as [<-|H]; auto.
    + pose proof (split_on_nonnil c s) as HN. destruct (split_on c s) as [|v ws]; [congruence|].
      destruct H as [<-|H].
      * intros [H|H]; [congruence|]. apply (IH v); [now left|assumption].
      * apply IH. now right.
Qed.

Lemma split1_no c s : ~ In c s -> split1 c s = (s, None).
Proof.
  induction s as [|x s IH]; simpl; intros H; [reflexivity|].
  destruct (Ascii.eqb_spec x c); [exfalso; apply H; now left|]. rewrite IH by tauto. reflexivity.
Qed.

Lemma split1_app c s r : ~ In c s -> split1 c (s ++ c :: r) = (s, Some r).
Proof.
  induction s as [|x s IH]; simpl; intros H.
  - now rewrite Ascii.eqb_refl.
  - destruct (Ascii.eqb_spec x c); [exfalso; apply H; now left|]. rewrite IH by tauto. reflexivity.
Qed.

Lemma split1_Some c s a r : split1 c s = (a, Some r) -> s = a ++ c :: r /\ ~ In c a.
Proof.
  revert a r; induction s as [|x s IH]; simpl; intros a r H; [discriminate|].
  destruct (Ascii.eqb_spec x c) as [->|n].
  - injection H as <- <-. split; [reflexivity|auto].
  - destruct (split1 c s) as [a' b'] eqn:E. injection H as <- ->.
    destruct (IH a' r eq_refl) as [-> H]. split; [reflexivity|]. simpl. intuition.
Qed.

Lemma split1_None c s a : split1 c s = (a, None) -> s = a /\ ~ In c s.
Proof.
  revert a; induction s as [|x s IH]; simpl; intros a H.
  - injection H as <-. auto.
  - destruct (Ascii.eqb_spec x c) as [->|n]; [discriminate|].
    destruct (split1 c s) as [a' b'] eqn:E. injection H as <- ->.
    destruct (IH a' eq_refl) as [-> H]. split; [reflexivity|]. simpl. intuition.
Qed.

(** [split] and repeated [split(_, 1)] agree. *)
Lemma split_on_split1 c s :
  split_on c s = match split1 c s with
                 | (a, None) => [a]
                 | (a, Some r) => a :: split_on c r
                 end.
Proof.
  destruct (split1 c s) as [a [r|]] eqn:E.
  - apply split1_Some in E. destruct E as [-> H]. now apply split_on_app.
  - apply split1_None in E. destruct E as [-> H]. now apply split_on_no.
Qed.

(** *** strip *)
Lemma lstrip_fixed s : (forall c r, s = c :: r -> is_space c = false) -> lstrip s = s.
Proof. destruct s as [|c r]; simpl; intros H; [reflexivity|]. now rewrite (H c r eq_refl). Qed.

Lemma lstrip_head s : forall c r, lstrip s = c :: r -> is_space c = false.
Proof.
  induction s as [|x s IH]; simpl; intros c r H; [discriminate|].
  destruct (is_space x) eqn:E; [eauto|]. congruence.
Qed.

Lemma lstrip_idem s : lstrip (lstrip s) = lstrip s.
Proof. apply lstrip_fixed, lstrip_head. Qed.

Lemma lstrip_all s : forallb is_space s = true -> lstrip s = [].
Proof.
  induction s as [|x s IH]; simpl; intros H; [reflexivity|].
  apply andb_true_iff in H. destruct H as [-> H]. auto.
Qed.

Lemma lstrip_spaces sp s : forallb is_space sp = true -> lstrip (sp ++ s) = lstrip s.
Proof.
  induction sp as [|x sp IH]; simpl; intros H; [reflexivity|].
  apply andb_true_iff in H. destruct H as [-> H]. auto.
Qed.

Lemma lstrip_app_nonspace s c r :
  is_space c = false -> lstrip (s ++ c :: r) = lstrip s ++ c :: r.
Proof.
  intros H. induction s as [|x s IH]; simpl; [now rewrite H|].
  destruct (is_space x); [assumption|reflexivity].
Qed.

Lemma lstrip_decomp s : exists sp, s = sp ++ lstrip s /\ forallb is_space sp = true.
Proof.
  induction s as [|x s (sp & E & H)]; simpl.
  - exists []. auto.
  - destruct (is_space x) eqn:Ex.
    + exists (x :: sp). simpl. rewrite Ex, H. split; [f_equal; assumption|reflexivity].
    + exists []. auto.
Qed.

Lemma forallb_rev {A} (f : A -> bool) l : forallb f (rev l) = forallb f l.
Proof.
  induction l as [|x l IH]; simpl; [reflexivity|]. rewrite forallb_app, IH. simpl.
  now rewrite andb_true_r, andb_comm.
Qed.

Lemma rstrip_spaces sp s : forallb is_space sp = true -> rstrip (s ++ sp) = rstrip s.
Proof.
  intros H. unfold rstrip. rewrite rev_app_distr, lstrip_spaces; [reflexivity|].
  now rewrite forallb_rev.
Qed.

Lemma rstrip_snoc s c : is_space c = false -> rstrip (s ++ [c]) = s ++ [c].
Proof.
  intros H. unfold rstrip. rewrite rev_app_distr. simpl. rewrite H.
  simpl. now rewrite rev_involutive.
Qed.

(** A string without white space at either end. *)
Definition trimmed (s : text) : Prop :=
  (forall c r, s = c :: r -> is_space c = false) /\ (forall c r, s = r ++ [c] -> is_space c = false).

Lemma strip_trimmed s : trimmed s -> strip s = s.
Proof.
  intros [H1 H2]. unfold strip. rewrite lstrip_fixed by assumption.
  destruct (rev s) as [|c r] eqn:E.
  - apply (f_equal (@rev _)) in E. rewrite rev_involutive in E. subst. reflexivity.
  - assert (s = rev r ++ [c]) as -> by (rewrite <- (rev_involutive s), E; reflexivity).
    apply rstrip_snoc. eapply H2. reflexivity.
Qed.

Lemma strip_pad sp1 s sp2 :
  forallb is_space sp1 = true -> forallb is_space sp2 = true -> trimmed s ->
  strip (sp1 ++ s ++ sp2) = s.
Proof.
  intros H1 H2 T. unfold strip. rewrite lstrip_spaces by assumption.
  destruct s as [|c s].
  - simpl. rewrite lstrip_all by assumption. reflexivity.
  - assert (Hc : is_space c = false) by (apply (proj1 T c s); reflexivity).
    rewrite (lstrip_fixed ((c :: s) ++ sp2)).
    + rewrite rstrip_spaces by assumption.
      pose proof (strip_trimmed _ T) as E. unfold strip in E.
      now rewrite lstrip_fixed in E by (apply (proj1 T)).
    + simpl. intros c' r' E. injection E as <- <-. assumption.
Qed.

Lemma rstrip_last s : forall c r, rstrip s = r ++ [c] -> is_space c = false.
Proof.
  unfold rstrip. intros c r E. apply (f_equal (@rev _)) in E.
  rewrite rev_involutive, rev_app_distr in E. simpl in E. eapply lstrip_head; eauto.
Qed.

Lemma rstrip_head s : (forall c r, s = c :: r -> is_space c = false) ->
  forall c r, rstrip s = c :: r -> is_space c = false.
Proof.
  intros H c r E. destruct (lstrip_decomp (rev s)) as (sp & D & Hs).
  apply (f_equal (@rev _)) in D. rewrite rev_involutive, rev_app_distr in D.
  unfold rstrip in E. rewrite E in D. simpl in D. eapply H; exact D.
Qed.

Lemma trimmed_strip s : trimmed (strip s).
Proof.
  split.
  - unfold strip. apply rstrip_head. intros c r E. eapply lstrip_head; eauto.
  - apply rstrip_last.
Qed.

Lemma strip_idem s : strip (strip s) = strip s.
Proof. apply strip_trimmed, trimmed_strip. Qed.

(** *** prefix / find *)
Lemma prefix_of_spec p s : prefix_of p s = true <-> exists r, s = p ++ r.
Proof.
  revert s; induction p as [|x p IH]; intros s; simpl.
  - split; [intros _; now exists s|reflexivity].
  - destruct s as [|y s].
    + split; [discriminate|]. intros [r E]. discriminate.
    + rewrite andb_true_iff, Ascii.eqb_eq, IH. split.
      * intros [-> [r ->]]. now exists r.
      * intros [r E]. injection E as -> ->. split; [reflexivity|now exists r].
Qed.

Lemma find_Some p s n :
  find p s = Some n -> exists a b, s = a ++ p ++ b /\ length a = n /\
    (forall m, m < n -> prefix_of p (skipn m s) = false).
Proof.
  revert n; induction s as [|c s IH]; intros n; simpl.
  - destruct p; simpl; [|discriminate]. intros H; injection H as <-.
    exists [], []. repeat split; auto. intros m Hm; lia.
  - destruct (prefix_of p (c :: s)) eqn:E.
    + intros H; injection H as <-. apply prefix_of_spec in E. destruct E as [r E].
      exists [], r. repeat split; auto. intros m Hm; lia.
    + destruct (find p s) as [k|]; [|discriminate]. simpl. intros H; injection H as <-.
      destruct (IH k eq_refl) as (a & b & E1 & E2 & E3). exists (c :: a), b.
      split; [simpl; congruence|]. split; [simpl; congruence|].
      intros [|m] Hm; simpl; [exact E|]. apply E3. lia.
Qed.

Lemma find_None p s : find p s = None -> forall a b, s <> a ++ p ++ b.
Proof.
  induction s as [|c s IH]; simpl.
  - destruct p as [|x p]; simpl; [discriminate|]. intros _ [|y a] b; discriminate.
  - destruct (prefix_of p (c :: s)) eqn:E; [discriminate|].
    destruct (find p s) as [k|]; [discriminate|]. intros _ a b H.
    destruct a as [|y a].
    + simpl in H. assert (prefix_of p (c :: s) = true) by (apply prefix_of_spec; eauto). congruence.
    + simpl in H. injection H as -> H. eapply IH; eauto.
Qed.

Lemma contains_spec p s : contains p s = true <-> exists a b, s = a ++ p ++ b.
Proof.
  unfold contains. destruct (find p s) eqn:E.
  - split; [intros _|reflexivity]. apply find_Some in E. destruct E as (a & b & E & _). eauto.
  - split; [discriminate|]. intros (a & b & H). exfalso. eapply find_None; eauto.
Qed.
