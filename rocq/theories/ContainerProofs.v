(** Lemmas for the container properties. *)
From Coq Require Import Permutation Sorted.
From Verif Require Import PyBase PyFacts PyText ContainerModel ContainerSpec.
From Verif Require ListDictModel ListDictProofs ListDictSpec.
Open Scope string_scope.

(** * Sorted lists of names *)
Lemma smem_In x l : smem x l = true <-> In x l.
Proof. apply memb_true. Qed.
Lemma smem_nIn x l : smem x l = false <-> ~ In x l.
Proof. apply memb_false. Qed.

Lemma sorted_perm l : Permutation l (sorted l).
Proof. apply ListDictProofs.sort_strings_perm. Qed.
Lemma In_sorted x l : In x (sorted l) <-> In x l.
Proof.
  split; intros H; [eapply Permutation_in; [apply Permutation_sym, sorted_perm|exact H]
                   |eapply Permutation_in; [apply sorted_perm|exact H]].
Qed.
Lemma NoDup_sorted l : NoDup l -> NoDup (sorted l).
Proof. intros H. eapply Permutation_NoDup; [apply sorted_perm|exact H]. Qed.

Lemma strictly_sorted l : NoDup l -> StronglySorted string_lt (sorted l).
Proof.
  intros ND. apply NoDup_sorted in ND. pose proof (ListDictProofs.sort_strings_sorted l) as H.
  revert ND H. generalize (sorted l). clear l. intros l. induction l as [|x l IH]; [constructor|].
  intros ND H. inversion ND as [|? ? Hn ND']; subst. inversion H as [|? ? H1 H2]; subst.
  constructor; [now apply IH|]. rewrite Forall_forall in *. intros y Hy. specialize (H2 y Hy).
  unfold ListDictProofs.sle, String.leb in H2. unfold string_lt.
  destruct (String.compare x y) eqn:E; auto; [|discriminate].
  apply String.compare_eq_iff in E. subst. contradiction.
Qed.

Lemma string_lt_irrefl a : ~ string_lt a a.
Proof. unfold string_lt. rewrite string_compare_refl. discriminate. Qed.

(** Two strictly increasing lists with the same elements are equal. *)
Lemma strictly_sorted_ext l m :
  StronglySorted string_lt l -> StronglySorted string_lt m -> (forall x, In x l <-> In x m) -> l = m.
Proof.
  revert m. induction l as [|a l IH]; intros [|b m] Hl Hm E; auto.
  - destruct (proj2 (E b)); now left.
  - destruct (proj1 (E a)); now left.
  - inversion Hl as [|? ? Hl1 Hl2]; subst. inversion Hm as [|? ? Hm1 Hm2]; subst.
    rewrite Forall_forall in *.
    assert (a = b) as ->.
    { destruct (proj1 (E a)) as [|H1]; [now left|auto|].
      destruct (proj2 (E b)) as [|H2]; [now left|auto|].
      exfalso. apply (string_lt_irrefl a). eapply string_lt_trans; [apply Hl2, H2|apply Hm2, H1]. }
    f_equal. apply IH; auto. intros x. split; intros H.
    + destruct (proj1 (E x)) as [<-|]; [now right| |auto]. exfalso.
      apply (string_lt_irrefl b). now apply Hl2.
    + destruct (proj2 (E x)) as [<-|]; [now right| |auto]. exfalso.
      apply (string_lt_irrefl b). now apply Hm2.
Qed.

Lemma StronglySorted_NoDup l : StronglySorted string_lt l -> NoDup l.
Proof.
  induction 1 as [|x l H IH F]; constructor; auto. intros HI. rewrite Forall_forall in F.
  now apply (string_lt_irrefl x), F.
Qed.

(** * Time periods *)
Section Periods.
Local Open Scope Z_scope.
Lemma zmin_spec r x : zmin x r <= x /\ (forall y, In y r -> zmin x r <= y) /\ In (zmin x r) (x :: r).
Proof.
  unfold zmin. revert x. induction r as [|a r IH]; intros x; cbn [fold_left].
  - repeat split; [lia|intros y []|now left].
  - destruct (IH (Z.min x a)) as (H1 & H2 & H3). repeat split.
    + lia.
    + intros y [<-|Hy]; [lia|auto].
    + destruct H3 as [<-|H3]; [|now right; right].
      destruct (Z.min_spec x a) as [[_ ->]|[_ ->]]; [now left|now right; left].
Qed.
Lemma zmax_spec r x : x <= zmax x r /\ (forall y, In y r -> y <= zmax x r) /\ In (zmax x r) (x :: r).
Proof.
  unfold zmax. revert x. induction r as [|a r IH]; intros x; cbn [fold_left].
  - repeat split; [lia|intros y []|now left].
  - destruct (IH (Z.max x a)) as (H1 & H2 & H3). repeat split.
    + lia.
    + intros y [<-|Hy]; [lia|auto].
    + destruct H3 as [<-|H3]; [|now right; right].
      destruct (Z.max_spec x a) as [[_ ->]|[_ ->]]; [now right; left|now left].
Qed.

Lemma is_default_iff t : is_default t = true <-> t = default_time.
Proof. unfold is_default. apply Z.eqb_eq. Qed.

Definition set_times (f : period -> Z) (l : list period) : list Z :=
  filter (fun t => negb (is_default t)) (map f l).
Lemma In_set_times f l t : In t (set_times f l) <-> t <> default_time /\ exists c, In c l /\ f c = t.
Proof.
  unfold set_times. rewrite filter_In, in_map_iff. split.
  - intros [(c & E & H) N]. split; [|exists c; auto]. intros ->.
    unfold is_default in N. rewrite Z.eqb_refl in N. discriminate.
  - intros [N (c & H & E)]. split; [exists c; auto|].
    destruct (is_default t) eqn:D; [|reflexivity]. now apply is_default_iff in D.
Qed.

(** The start after an update, characterised. *)
Lemma update_start own l :
  let s := p_start (update_period own l) in
  (forall c, In c l -> p_start c <> default_time -> s <= p_start c) /\
  (p_start own <> default_time -> s <= p_start own) /\
  (s = p_start own \/ (s <> default_time /\ exists c, In c l /\ p_start c = s)) /\
  (p_start own = default_time -> (exists c, In c l /\ p_start c <> default_time) ->
     s <> default_time).
Proof.
  cbn [update_period p_start]. fold (set_times p_start l).
  pose proof (In_set_times p_start l) as HS. destruct (set_times p_start l) as [|x r] eqn:E.
  - repeat split; auto; try lia.
    + intros c Hc N. destruct (proj2 (HS (p_start c))); split; auto. exists c; auto.
    + intros _ (c & Hc & N) _. destruct (proj2 (HS (p_start c))); split; auto. exists c; auto.
  - destruct (zmin_spec r x) as (H1 & H2 & H3). set (m := zmin x r) in *.
    assert (HL : forall c, In c l -> p_start c <> default_time -> m <= p_start c).
    { intros c Hc N. destruct (proj2 (HS (p_start c))) as [<-|Hi]; [split; auto; exists c; auto|lia|auto]. }
    assert (HM : m <> default_time /\ exists c, In c l /\ p_start c = m) by now apply HS.
    destruct (is_default (p_start own)) eqn:D.
    + repeat split; auto.
      * intros N. apply is_default_iff in D. contradiction.
      * intros _ _. tauto.
    + destruct (Z.ltb_spec (p_start own) m) as [L|L]; cbn [negb].
      * repeat split; auto.
        -- intros c Hc N. specialize (HL c Hc N). lia.
        -- lia.
        -- intros K. apply is_default_iff in K. congruence.
      * repeat split; auto.
        intros _ _. tauto.
Qed.
Lemma update_end own l :
  let s := p_end (update_period own l) in
  (forall c, In c l -> p_end c <> default_time -> p_end c <= s) /\
  (p_end own <> default_time -> p_end own <= s) /\
  (s = p_end own \/ (s <> default_time /\ exists c, In c l /\ p_end c = s)) /\
  (p_end own = default_time -> (exists c, In c l /\ p_end c <> default_time) ->
     s <> default_time).
Proof.
  cbn [update_period p_end]. fold (set_times p_end l).
  pose proof (In_set_times p_end l) as HS. destruct (set_times p_end l) as [|x r] eqn:E.
  - repeat split; auto; try lia.
    + intros c Hc N. destruct (proj2 (HS (p_end c))); split; auto. exists c; auto.
    + intros _ (c & Hc & N) _. destruct (proj2 (HS (p_end c))); split; auto. exists c; auto.
  - destruct (zmax_spec r x) as (H1 & H2 & H3). set (m := zmax x r) in *.
    assert (HL : forall c, In c l -> p_end c <> default_time -> p_end c <= m).
    { intros c Hc N. destruct (proj2 (HS (p_end c))) as [<-|Hi]; [split; auto; exists c; auto|lia|auto]. }
    assert (HM : m <> default_time /\ exists c, In c l /\ p_end c = m) by now apply HS.
    destruct (is_default (p_end own)) eqn:D.
    + repeat split; auto.
      * intros N. apply is_default_iff in D. contradiction.
      * intros _ _. tauto.
    + destruct (Z.ltb_spec (p_end own) m) as [L|L].
      * repeat split; auto; try lia; intros _ _; tauto.
      * repeat split; auto; try lia.
        -- intros c Hc N. specialize (HL c Hc N). lia.
        -- intros K. apply is_default_iff in K. congruence.
Qed.

Lemma update_period_covers own l c : In c l -> covers (update_period own l) c.
Proof.
  intros H. split; intros N.
  - now apply (proj1 (update_start own l)).
  - now apply (proj1 (update_end own l)).
Qed.
Lemma update_period_grows own l : covers (update_period own l) own.
Proof.
  split; intros N.
  - now apply (proj1 (proj2 (update_start own l))).
  - now apply (proj1 (proj2 (update_end own l))).
Qed.

(** The start is determined by the set of set times, so order and repetition do not matter. *)
Lemma update_period_ext own l m :
  (forall t, t <> default_time -> (exists c, In c l /\ p_start c = t) <-> (exists c, In c m /\ p_start c = t)) ->
  (forall t, t <> default_time -> (exists c, In c l /\ p_end c = t) <-> (exists c, In c m /\ p_end c = t)) ->
  update_period own l = update_period own m.
Proof.
  intros HS HE.
  assert (p_start (update_period own l) = p_start (update_period own m)) as E1.
  { cbn [update_period p_start]. fold (set_times p_start l) (set_times p_start m).
    pose proof (In_set_times p_start l) as A. pose proof (In_set_times p_start m) as B.
    destruct (set_times p_start l) as [|x r], (set_times p_start m) as [|y q].
    - reflexivity.
    - destruct (proj2 (A y)). destruct (proj1 (B y)) as [N X]; [now left|]. split; auto. now apply HS.
    - destruct (proj2 (B x)). destruct (proj1 (A x)) as [N X]; [now left|]. split; auto. now apply HS.
    - assert (zmin x r = zmin y q) as ->; [|reflexivity].
      destruct (zmin_spec r x) as (a1 & a2 & a3). destruct (zmin_spec q y) as (b1 & b2 & b3).
      apply A in a3. apply B in b3. destruct a3 as [Na Xa], b3 as [Nb Xb].
      apply HS in Xa; auto. apply HS in Xb; auto.
      destruct (proj2 (A (zmin y q)) (conj Nb Xb)) as [I1|I1];
      destruct (proj2 (B (zmin x r)) (conj Na Xa)) as [I2|I2];
      try (apply a2 in I1); try (apply b2 in I2); lia. }
  assert (p_end (update_period own l) = p_end (update_period own m)) as E2.
  { cbn [update_period p_end]. fold (set_times p_end l) (set_times p_end m).
    pose proof (In_set_times p_end l) as A. pose proof (In_set_times p_end m) as B.
    destruct (set_times p_end l) as [|x r], (set_times p_end m) as [|y q].
    - reflexivity.
    - destruct (proj2 (A y)). destruct (proj1 (B y)) as [N X]; [now left|]. split; auto. now apply HE.
    - destruct (proj2 (B x)). destruct (proj1 (A x)) as [N X]; [now left|]. split; auto. now apply HE.
    - assert (zmax x r = zmax y q) as ->; [|reflexivity].
      destruct (zmax_spec r x) as (a1 & a2 & a3). destruct (zmax_spec q y) as (b1 & b2 & b3).
      apply A in a3. apply B in b3. destruct a3 as [Na Xa], b3 as [Nb Xb].
      apply HE in Xa; auto. apply HE in Xb; auto.
      destruct (proj2 (A (zmax y q)) (conj Nb Xb)) as [I1|I1];
      destruct (proj2 (B (zmax x r)) (conj Na Xa)) as [I2|I2];
      try (apply a2 in I1); try (apply b2 in I2); lia. }
  destruct (update_period own l), (update_period own m). cbn in *. now subst.
Qed.
End Periods.

(** * Runs *)

Lemma keyed_nil : keyed [].
Proof. split; [constructor|intros ? ? []]. Qed.

Lemma In_dset {V} (d : dict V) k v a w : In (a, w) (sset k v d) -> (a = k /\ w = v) \/ In (a, w) d.
Proof.
  induction d as [|[x y] d IH]; simpl.
  - intros [E|[]]. injection E as <- <-. now left.
  - destruct (string_dec k x) as [<-|n]; simpl.
    + intros [E|H]; [injection E as <- <-; now left|right; now right].
    + intros [E|H]; [right; now left|]. apply IH in H. tauto.
Qed.
Lemma In_ddel {V} (d : dict V) k a w : In (a, w) (sdel k d) -> In (a, w) d.
Proof.
  induction d as [|[x y] d IH]; simpl; [tauto|].
  destruct (string_dec k x); simpl; tauto.
Qed.

Lemma keyed_sset d c ch : keyed d -> ch_comp ch = c -> keyed (sset c ch d).
Proof.
  intros [ND HK] E. split; [now apply NoDup_dset|]. intros k x H.
  apply In_dset in H. destruct H as [[-> ->]|H]; auto.
Qed.
Lemma keyed_sdel d c : keyed d -> keyed (sdel c d).
Proof.
  intros [ND HK]. split; [now apply NoDup_ddel|]. intros k x H. apply HK. now apply In_ddel in H.
Qed.
Lemma keyed_dupdate d m : keyed d -> keyed m -> keyed (dupdate string_dec d m).
Proof.
  intros Hd [_ Hm]. unfold dupdate. revert d Hd. induction m as [|[k ch] m IH]; intros d Hd; auto.
  cbn [fold_left fst snd]. apply IH.
  - intros a b H. apply Hm. now right.
  - apply keyed_sset; auto. apply Hm. now left.
Qed.

Lemma components_keys d : keyed d -> map ch_comp (dvals d) = dkeys d.
Proof.
  intros [_ H]. unfold dvals, dkeys. rewrite map_map. apply map_ext_in. intros [k ch] HI. cbn. now apply H.
Qed.
Lemma has_channel_keys r c : keyed (r_channels r) ->
  has_channel r c = true <-> In c (dkeys (r_channels r)).
Proof.
  intros H. unfold has_channel, recorded_all, components. rewrite smem_In, In_sorted.
  now rewrite components_keys.
Qed.
Lemma has_channel_get r c : keyed (r_channels r) ->
  has_channel r c = match sget c (r_channels r) with Some _ => true | None => false end.
Proof.
  intros H. destruct (sget c (r_channels r)) eqn:E.
  - apply has_channel_keys; auto. apply dget_In in E. unfold dkeys. apply in_map_iff.
    exists (c, c0). auto.
  - apply dget_None in E. destruct (has_channel r c) eqn:F; auto.
    apply has_channel_keys in F; auto. contradiction.
Qed.

(** The dictionary after each call. *)
Definition add_dict (d : dict chan) (ch : chan) : dict chan :=
  sset (ch_comp ch) (match sget (ch_comp ch) d with Some old => chan_update old ch | None => ch end) d.
Lemma chan_update_comp a b : ch_comp (chan_update a b) = ch_comp a.
Proof. unfold chan_update. now destruct (kind_eqb _ _). Qed.
Lemma chan_update_kind a b : ch_kind (chan_update a b) = ch_kind a.
Proof. unfold chan_update. now destruct (kind_eqb _ _). Qed.

Lemma run_update_period_channels r : r_channels (run_update_period r) = r_channels r.
Proof. unfold run_update_period. now destruct (r_channels r) eqn:E. Qed.
Lemma run_update_period_id r : r_id (run_update_period r) = r_id r.
Proof. unfold run_update_period. now destruct (r_channels r) eqn:E. Qed.
Lemma run_update_period_recorded k r : recorded k (run_update_period r) = recorded k r.
Proof. unfold run_update_period. destruct (r_channels r) eqn:E, k; reflexivity. Qed.

Lemma add_channel_dict r ch u : keyed (r_channels r) ->
  r_channels (add_channel r ch u) = add_dict (r_channels r) ch.
Proof.
  intros K. unfold add_channel, add_dict. rewrite has_channel_get by auto.
  destruct u; rewrite ?run_update_period_channels; cbn [r_channels update_recorded with_channels];
    destruct (sget (ch_comp ch) (r_channels r)); reflexivity.
Qed.
Lemma keyed_add_dict d ch : keyed d -> keyed (add_dict d ch).
Proof.
  intros K. apply keyed_sset; auto. destruct (sget (ch_comp ch) d) as [old|] eqn:E; auto.
  rewrite chan_update_comp. apply K. now apply dget_In in E.
Qed.
Lemma remove_channel_dict r c : keyed (r_channels r) ->
  r_channels (remove_channel r c) = sdel c (r_channels r).
Proof.
  intros K. unfold remove_channel. rewrite has_channel_get by auto.
  destruct (sget c (r_channels r)) eqn:E; [reflexivity|].
  apply dget_None in E. clear K. induction (r_channels r) as [|[a b] d IH]; auto. cbn [ddel].
  destruct (string_dec c a) as [->|n]; [exfalso; apply E; now left|]. f_equal. apply IH.
  intros H. apply E. now right.
Qed.
Lemma merge_run_dict r other b :
  r_channels (merge_run r other b) = dupdate string_dec (r_channels r) (r_channels other).
Proof. unfold merge_run. destruct b; rewrite ?run_update_period_channels; reflexivity. Qed.

Lemma make_comp k s ch : make k s = Ok ch -> ch_comp ch = slower s /\ ch_kind ch = k /\ ch_period ch = default_period.
Proof. unfold make. destruct (pattern k (slower s)); [|discriminate]. intros E. injection E as <-. auto. Qed.

Lemma add_missing_keyed k names : forall r r', keyed (r_channels r) -> add_missing k r names = Ok r' ->
  keyed (r_channels r').
Proof.
  induction names as [|n ns IH]; intros r r' K; cbn [add_missing].
  - intros E. injection E as <-. auto.
  - destruct (smem n (dkeys (r_channels r))); [now apply IH|].
    destruct (make k n) as [ch|]; cbn [bindR]; [|discriminate]. apply IH.
    rewrite add_channel_dict by auto. now apply keyed_add_dict.
Qed.
Lemma validate_recorded_keyed r r' : keyed (r_channels r) -> validate_recorded r = Ok r' -> keyed (r_channels r').
Proof.
  intros K. unfold validate_recorded. destruct (add_missing Electric _ _) as [r1|] eqn:E1; cbn [bindR]; [|discriminate].
  destruct (add_missing Magnetic _ _) as [r2|] eqn:E2; cbn [bindR]; [|discriminate]. intros E3.
  eapply add_missing_keyed; [|exact E3]. eapply add_missing_keyed; [|exact E2].
  eapply add_missing_keyed; [|exact E1]. exact K.
Qed.
Lemma assign_recorded_keyed r k l r' : keyed (r_channels r) -> assign_recorded r k l = Ok r' -> keyed (r_channels r').
Proof. intros K. unfold assign_recorded. destruct k; apply validate_recorded_keyed; exact K. Qed.

Lemma fold_add_keyed l : forall r, keyed (r_channels r) ->
  keyed (r_channels (fold_left (fun acc ch => add_channel acc ch true) l r)).
Proof.
  induction l as [|ch l IH]; intros r K; auto. cbn [fold_left]. apply IH.
  rewrite add_channel_dict by auto. now apply keyed_add_dict.
Qed.
Lemma update_run_keyed r other r' : keyed (r_channels r) -> update_run r other = Ok r' -> keyed (r_channels r').
Proof.
  intros K. unfold update_run.
  assert (H : forall r k l r', keyed (r_channels r) -> assign_nonempty r k l = Ok r' -> keyed (r_channels r')).
  { intros a k l b Ka. unfold assign_nonempty. destruct l; [intros E; injection E as <-; auto|].
    now apply assign_recorded_keyed. }
  destruct (assign_nonempty r _ _) as [r1|] eqn:E1; cbn [bindR]; [|discriminate].
  destruct (assign_nonempty r1 _ _) as [r2|] eqn:E2; cbn [bindR]; [|discriminate].
  destruct (assign_nonempty r2 _ _) as [r3|] eqn:E3; cbn [bindR]; [|discriminate].
  intros E. injection E as <-. apply fold_add_keyed. cbn. eauto.
Qed.

Lemma user_run_keyed r : user_run r -> keyed (r_channels r).
Proof.
  induction 1 as [i|r ch u _ IH|r s u r' _ IH E|r c _ IH|r o b _ IH1 _ IH2|r k l r' _ IH E|r o r' _ IH1 _ IH2 E].
  - apply keyed_nil.
  - rewrite add_channel_dict by auto. now apply keyed_add_dict.
  - unfold add_name in E. destruct (from_name s); cbn [bindR] in E; [|discriminate]. injection E as <-.
    rewrite add_channel_dict by auto. now apply keyed_add_dict.
  - rewrite remove_channel_dict by auto. now apply keyed_sdel.
  - rewrite merge_run_dict. now apply keyed_dupdate.
  - exact (assign_recorded_keyed r k l r' IH E).
  - exact (update_run_keyed r o r' IH1 E).
Qed.

Lemma run_step_keyed r o r' : keyed (r_channels r) -> good_op o -> run_step r o = Ok r' -> keyed (r_channels r').
Proof.
  intros K G. destruct o; cbn [run_step]; intros E.
  - injection E as <-. rewrite add_channel_dict by auto. now apply keyed_add_dict.
  - unfold add_name in E. destruct (from_name s); cbn [bindR] in E; [|discriminate]. injection E as <-.
    rewrite add_channel_dict by auto. now apply keyed_add_dict.
  - injection E as <-. rewrite remove_channel_dict by auto. now apply keyed_sdel.
  - injection E as <-. rewrite merge_run_dict. apply keyed_dupdate; auto. now apply user_run_keyed.
Qed.

Lemma dkeys_dupdate_In {V} (m d : dict V) c :
  In c (dkeys (dupdate string_dec d m)) <-> In c (dkeys d) \/ In c (dkeys m).
Proof.
  unfold dupdate. revert d. induction m as [|[k v] m IH]; intros d; cbn [fold_left fst snd].
  - cbn. tauto.
  - rewrite IH. rewrite dkeys_dset. cbn [dkeys map fst In].
    destruct (in_dec string_dec k (dkeys d)) as [E|E].
    + split; [tauto|]. intros [H|[->|H]]; auto.
    + rewrite in_app_iff. cbn. tauto.
Qed.
Lemma In_dkeys_sdel {V} (d : dict V) c a : NoDup (dkeys d) ->
  In a (dkeys (sdel c d)) <-> a <> c /\ In a (dkeys d).
Proof.
  intros ND. destruct (string_dec a c) as [->|n].
  - split; [|tauto]. intros H. exfalso. pose proof (dget_ddel_eq string_dec c d ND) as E.
    now apply dget_None in E.
  - pose proof (dget_ddel_neq string_dec a c d n) as E. split.
    + intros H. split; auto. destruct (in_dec string_dec a (dkeys d)) as [|N]; auto.
      apply (dget_None string_dec) in N. rewrite <- E in N. now apply dget_None in N.
    + intros [_ H]. destruct (in_dec string_dec a (dkeys (sdel c d))) as [|N]; auto.
      apply (dget_None string_dec) in N. rewrite E in N. now apply dget_None in N.
Qed.

Lemma run_step_keys r o r' c : keyed (r_channels r) -> good_op o -> run_step r o = Ok r' ->
  In c (dkeys (r_channels r')) <->
  adds c o \/ (In c (dkeys (r_channels r)) /\ o <> RemoveChannel c).
Proof.
  intros K G.
  assert (HA : forall ch, In c (dkeys (add_dict (r_channels r) ch)) <->
                          ch_comp ch = c \/ In c (dkeys (r_channels r))).
  { intros ch. unfold add_dict. rewrite dkeys_dset.
    destruct (in_dec string_dec (ch_comp ch) (dkeys (r_channels r))) as [I|I].
    - split; [tauto|]. intros [<-|]; auto.
    - rewrite in_app_iff. cbn. tauto. }
  destruct o; cbn [run_step adds]; intros E.
  - injection E as <-. rewrite add_channel_dict by auto. rewrite HA. intuition discriminate.
  - unfold add_name in E. destruct (from_name s) as [ch|] eqn:F; cbn [bindR] in E; [|discriminate].
    injection E as <-. rewrite add_channel_dict by auto. rewrite HA.
    apply make_comp in F. destruct F as [-> _]. intuition discriminate.
  - injection E as <-. rewrite remove_channel_dict by auto. rewrite In_dkeys_sdel by apply K.
    split; [|intros [[]|[H N]]; split; auto; congruence].
    intros [N H]. right. split; auto. congruence.
  - injection E as <-. rewrite merge_run_dict, dkeys_dupdate_In.
    rewrite has_channel_keys by (now apply user_run_keyed). intuition discriminate.
Qed.

Lemma run_steps_keyed ops : forall r r', keyed (r_channels r) -> Forall good_op ops ->
  run_steps r ops = Ok r' -> keyed (r_channels r').
Proof.
  induction ops as [|o ops IH]; intros r r' K G; cbn [run_steps].
  - intros E. injection E as <-. auto.
  - inversion G; subst. destruct (run_step r o) as [r1|] eqn:E; cbn [bindR]; [|discriminate].
    apply IH; auto. eapply run_step_keyed; eauto.
Qed.

Lemma run_steps_history ops : forall r r' c, keyed (r_channels r) -> Forall good_op ops ->
  run_steps r ops = Ok r' ->
  In c (dkeys (r_channels r')) <->
  ((exists pre o post, ops = (pre ++ o :: post)%list /\ adds c o /\ ~ In (RemoveChannel c) post)
   \/ (In c (dkeys (r_channels r)) /\ ~ In (RemoveChannel c) ops)).
Proof.
  induction ops as [|o ops IH]; intros r r' c K G; cbn [run_steps].
  - intros E. injection E as <-. split.
    + intros H. right. split; auto.
    + intros [(pre & o & post & E & _)|[H _]]; auto. destruct pre; discriminate.
  - inversion G as [|? ? G1 G2]; subst. destruct (run_step r o) as [r1|] eqn:E; cbn [bindR]; [|discriminate].
    intros E2. rewrite (IH r1 r' c (run_step_keyed _ _ _ K G1 E) G2 E2).
    rewrite (run_step_keys r o r1 c K G1 E). split.
    + intros [(pre & x & post & -> & A & N)|[[A|[H N]] N2]].
      * left. exists (o :: pre)%list, x, post. auto.
      * left. exists [], o, ops. auto.
      * right. split; auto. intros [H2|H2]; auto.
    + intros [(pre & x & post & EE & A & N)|[H N]].
      * destruct pre as [|y pre]; cbn in EE; injection EE as <- ->.
        -- right. auto.
        -- left. exists pre, x, post. auto.
      * right. split; [|intros H2; apply N; now right]. right. split; auto. intros ->. apply N. now left.
Qed.

(** ** Lists of recorded channels *)
Lemma recorded_update k r :
  recorded k (update_recorded r) = recorded_of k (r_channels (update_recorded r)).
Proof. now destruct k. Qed.

Definition in_step (r : run) : Prop := forall k, recorded k r = recorded_of k (r_channels r).

Lemma in_step_add r ch u : in_step (add_channel r ch u).
Proof.
  intros k. unfold add_channel. destruct u.
  - rewrite run_update_period_recorded, run_update_period_channels. apply recorded_update.
  - apply recorded_update.
Qed.
Lemma run_step_in_step r o r' : in_step r -> run_step r o = Ok r' -> in_step r'.
Proof.
  intros H. destruct o; cbn [run_step]; intros E.
  - injection E as <-. apply in_step_add.
  - unfold add_name in E. destruct (from_name s); cbn [bindR] in E; [|discriminate]. injection E as <-.
    apply in_step_add.
  - injection E as <-. unfold remove_channel. destruct (has_channel r c); auto.
    intros k. apply recorded_update.
  - injection E as <-. intros k. unfold merge_run. destruct inplace.
    + rewrite run_update_period_recorded, run_update_period_channels. apply recorded_update.
    + apply recorded_update.
Qed.
Lemma run_steps_in_step ops : forall r r', in_step r -> run_steps r ops = Ok r' -> in_step r'.
Proof.
  induction ops as [|o ops IH]; intros r r' H; cbn [run_steps].
  - intros E. injection E as <-. auto.
  - destruct (run_step r o) as [r1|] eqn:E; cbn [bindR]; [|discriminate].
    apply IH. eapply run_step_in_step; eauto.
Qed.
Lemma in_step_new i : in_step (new_run i).
Proof. intros k. now destruct k. Qed.

Lemma kind_eqb_iff a b : kind_eqb a b = true <-> a = b.
Proof. destruct a, b; cbn; split; congruence. Qed.

Lemma In_dvals (d : dict chan) ch : keyed d -> In ch (dvals d) <-> sget (ch_comp ch) d = Some ch.
Proof.
  intros [ND HK]. unfold dvals. rewrite in_map_iff. split.
  - intros ([k x] & <- & H). cbn. rewrite (HK _ _ H). apply In_dget; auto.
  - intros H. apply dget_In in H. exists (ch_comp ch, ch). auto.
Qed.
Lemma recorded_of_spec k d c : keyed d ->
  In c (recorded_of k d) <-> exists ch, sget c d = Some ch /\ ch_kind ch = k /\ c <> default_component k.
Proof.
  intros K. unfold recorded_of. rewrite In_sorted, in_map_iff. split.
  - intros (ch & <- & H). apply filter_In in H. destruct H as [H B]. apply andb_true_iff in B.
    destruct B as [B1 B2]. exists ch. rewrite In_dvals in H by auto. rewrite kind_eqb_iff in B1.
    repeat split; auto. intros E. rewrite E in B2. rewrite String.eqb_refl in B2. discriminate.
  - intros (ch & H & B1 & B2). assert (ch_comp ch = c) as E by (apply K; now apply dget_In in H).
    exists ch. split; auto. apply filter_In. split; [apply In_dvals; auto; now rewrite E|].
    apply andb_true_iff. split; [now apply kind_eqb_iff|]. rewrite E.
    destruct (String.eqb_spec c (default_component k)); auto.
Qed.
Lemma NoDup_map_filter {A B} (f : A -> B) p l : NoDup (map f l) -> NoDup (map f (filter p l)).
Proof.
  induction l as [|x l IH]; cbn; auto. intros H. inversion H as [|? ? Hn ND]; subst.
  destruct (p x); cbn; auto. constructor; auto. intros I. apply Hn. rewrite in_map_iff in *.
  destruct I as (y & E & Hy). exists y. split; auto. now apply filter_In in Hy.
Qed.
Lemma recorded_of_sorted k d : keyed d -> StronglySorted string_lt (recorded_of k d).
Proof.
  intros K. apply strictly_sorted, NoDup_map_filter. rewrite components_keys by auto. apply K.
Qed.

Lemma get_channel_spec r c ch : keyed (r_channels r) ->
  get_channel r c = Ok (Some ch) <-> sget c (r_channels r) = Some ch.
Proof.
  intros K. unfold get_channel. rewrite has_channel_get by auto.
  destruct (sget c (r_channels r)); split; intros E; try congruence; try discriminate.
Qed.

(** ** The period of a run *)

Definition covers_all (r : run) : Prop :=
  forall ch, In ch (dvals (r_channels r)) -> covers (r_period r) (ch_period ch).

Lemma run_update_period_covers r : covers_all (run_update_period r).
Proof.
  intros ch. rewrite run_update_period_channels. unfold run_update_period.
  destruct (r_channels r) as [|x d] eqn:E; [intros []|]. cbn [r_period with_run_period].
  intros H. apply update_period_covers. now apply in_map.
Qed.
Lemma run_step_covers r o r' : covers_all r -> updates o -> run_step r o = Ok r' -> covers_all r'.
Proof.
  intros H U. destruct o; cbn [run_step]; cbn in U; intros E.
  - injection E as <-. subst. apply run_update_period_covers.
  - unfold add_name in E. destruct (from_name s); cbn [bindR] in E; [|discriminate]. injection E as <-.
    subst. apply run_update_period_covers.
  - injection E as <-. unfold remove_channel. destruct (has_channel r c); auto.
    intros ch. cbn. intros I. apply H. unfold dvals in *. rewrite in_map_iff in *.
    destruct I as ([a b] & <- & I). exists (a, b). split; auto. now apply In_ddel in I.
  - injection E as <-. subst. apply run_update_period_covers.
Qed.
Lemma run_steps_covers ops : forall r r', covers_all r -> Forall updates ops ->
  run_steps r ops = Ok r' -> covers_all r'.
Proof.
  induction ops as [|o ops IH]; intros r r' H U; cbn [run_steps].
  - intros E. injection E as <-. auto.
  - inversion U; subst. destruct (run_step r o) as [r1|] eqn:E; cbn [bindR]; [|discriminate].
    apply IH; auto. eapply run_step_covers; eauto.
Qed.
Lemma covers_all_encloses r : keyed (r_channels r) -> covers_all r <-> encloses r.
Proof.
  intros K. split.
  - intros H c ch E. apply get_channel_spec in E; auto. apply H.
    rewrite In_dvals by auto. assert (ch_comp ch = c) as -> by (apply K; now apply dget_In in E). auto.
  - intros H ch I. rewrite In_dvals in I by auto. apply (H (ch_comp ch)). now apply get_channel_spec.
Qed.

Lemma run_update_period_grows r : covers (r_period (run_update_period r)) (r_period r).
Proof.
  unfold run_update_period. destruct (r_channels r); [split; lia|]. apply update_period_grows.
Qed.
Lemma run_update_period_grows_from r p :
  r_period r = p -> covers (r_period (run_update_period r)) p.
Proof. intros <-. apply run_update_period_grows. Qed.
Lemma run_step_period r o r' : run_step r o = Ok r' -> covers (r_period r') (r_period r).
Proof.
  assert (R : forall p, covers p p) by (split; lia).
  destruct o; cbn [run_step]; intros E.
  - injection E as <-. unfold add_channel. destruct upd; [|apply R]. now apply run_update_period_grows_from.
  - unfold add_name in E. destruct (from_name s); cbn [bindR] in E; [|discriminate]. injection E as <-.
    unfold add_channel. destruct upd; [|apply R]. now apply run_update_period_grows_from.
  - injection E as <-. unfold remove_channel. destruct (has_channel r c); apply R.
  - injection E as <-. unfold merge_run. destruct inplace; [|apply R]. now apply run_update_period_grows_from.
Qed.

(** * Stations *)
Lemma In_uniq x l : In x (uniq l) <-> In x l.
Proof.
  induction l as [|a l IH]; cbn [uniq]; [tauto|]. destruct (smem a l) eqn:E.
  - rewrite IH. apply smem_In in E. cbn. split; [tauto|]. intros [<-|]; auto.
  - cbn. rewrite IH. tauto.
Qed.
Lemma NoDup_uniq l : NoDup (uniq l).
Proof.
  induction l as [|a l IH]; cbn [uniq]; [constructor|]. destruct (smem a l) eqn:E; auto.
  constructor; auto. rewrite In_uniq. now apply smem_nIn.
Qed.
Lemma estimate_sorted s : StronglySorted string_lt (estimate s).
Proof. apply strictly_sorted, NoDup_uniq. Qed.
Lemma estimate_spec s c :
  In c (estimate s) <-> exists r, In r (dvals (s_runs s)) /\ has_channel r c = true.
Proof.
  unfold estimate. rewrite In_sorted, In_uniq, in_flat_map. unfold has_channel.
  split; intros (r & H & I); exists r; split; auto; now apply smem_In.
Qed.

Lemma list_eqb_iff a b : list_eqb a b = true <-> a = b.
Proof. unfold list_eqb. destruct (list_eq_dec _ a b); split; congruence. Qed.
Lemma list_eqb_refl a : list_eqb a a = true.
Proof. now apply list_eqb_iff. Qed.

Lemma sublist_length l m : StronglySorted string_lt l -> incl l m -> (length l <= length m)%nat.
Proof. intros H I. apply NoDup_incl_length; auto. now apply StronglySorted_NoDup. Qed.

Lemma with_recorded_same s l : s_channels s = l -> with_recorded s l = s.
Proof. destruct s. cbn. intros <-. reflexivity. Qed.

(** The validator on a station whose run list is up to date and whose recorded channels all exist. *)
Lemma validate_grow f s :
  s_run_list s = dkeys (s_runs s) ->
  StronglySorted string_lt (s_channels s) -> incl (s_channels s) (estimate s) ->
  validate_station (S (S f)) s = Ok (with_recorded s (estimate s)).
Proof.
  intros HR HS HI. cbn [validate_station]. rewrite HR, list_eqb_refl. cbn [bindR].
  destruct (list_eqb (s_channels s) (estimate s)) eqn:E.
  - apply list_eqb_iff in E. now rewrite with_recorded_same.
  - pose proof (sublist_length _ _ HS HI) as L. destruct (Nat.ltb_spec (length (estimate s)) (length (s_channels s))); [lia|].
    cbn [s_run_list s_runs with_recorded]. rewrite HR, list_eqb_refl. cbn [bindR s_channels with_recorded].
    change (estimate (with_recorded s (estimate s))) with (estimate s). now rewrite list_eqb_refl.
Qed.

(** The validator when recorded channels exceed the existing ones and there is a run. *)
Lemma validate_phantom f s i r0 rest :
  s_run_list s = dkeys (s_runs s) -> s_runs s = (i, r0) :: rest ->
  (length (estimate s) < length (s_channels s))%nat ->
  validate_station (S f) s =
  bindR (add_phantoms r0 (estimate s) (s_channels s)) (fun r0' => Ok (with_runs s ((i, r0') :: rest))).
Proof.
  intros HR HD HL. cbn [validate_station]. rewrite HR, list_eqb_refl. cbn [bindR].
  destruct (list_eqb (s_channels s) (estimate s)) eqn:E.
  - apply list_eqb_iff in E. rewrite E in HL. lia.
  - destruct (Nat.ltb_spec (length (estimate s)) (length (s_channels s))); [|lia]. now rewrite HD.
Qed.

Lemma add_phantoms_none r known names : incl names known -> add_phantoms r known names = Ok r.
Proof.
  induction names as [|n ns IH]; intros H; auto. cbn [add_phantoms].
  rewrite (proj2 (smem_In n known)) by (apply H; now left). apply IH. intros x Hx. apply H. now right.
Qed.

Lemma consistent_new : consistent new_station.
Proof. repeat split; try constructor; destruct H. Qed.

Lemma runs_ok_sset d r : runs_ok d -> run_ok r -> runs_ok (sset (r_id r) r d).
Proof.
  intros [ND H] K. split; [now apply NoDup_dset|]. intros i x I. apply In_dset in I.
  destruct I as [[-> ->]|I]; auto.
Qed.

(** ** [Run.update] keeps the channels and the id *)
Lemma add_channel_keys r ch u c : keyed (r_channels r) -> In c (dkeys (r_channels r)) ->
  In c (dkeys (r_channels (add_channel r ch u))).
Proof.
  intros K H. rewrite add_channel_dict by auto. unfold add_dict. rewrite dkeys_dset.
  destruct (in_dec _ _ _); auto. apply in_or_app. now left.
Qed.
Lemma add_channel_id r ch u : r_id (add_channel r ch u) = r_id r.
Proof. unfold add_channel. destruct u; rewrite ?run_update_period_id; reflexivity. Qed.

Lemma add_missing_keeps k names : forall r r', keyed (r_channels r) -> add_missing k r names = Ok r' ->
  r_id r' = r_id r /\ incl (dkeys (r_channels r)) (dkeys (r_channels r')).
Proof.
  induction names as [|n ns IH]; intros r r' K; cbn [add_missing].
  - intros E. injection E as <-. split; [auto|apply incl_refl].
  - destruct (smem n (dkeys (r_channels r))); [now apply IH|].
    destruct (make k n) as [ch|]; cbn [bindR]; [|discriminate]. intros E. apply IH in E.
    + destruct E as [E1 E2]. rewrite add_channel_id in E1. split; auto. intros c H. apply E2.
      now apply add_channel_keys.
    + rewrite add_channel_dict by auto. now apply keyed_add_dict.
Qed.
Lemma assign_recorded_keeps r k l r' : keyed (r_channels r) -> assign_recorded r k l = Ok r' ->
  r_id r' = r_id r /\ incl (dkeys (r_channels r)) (dkeys (r_channels r')).
Proof.
  intros K. unfold assign_recorded, validate_recorded.
  set (r0 := match k with Electric => _ | Magnetic => _ | Auxiliary => _ end).
  assert (r_id r0 = r_id r /\ r_channels r0 = r_channels r) as [I0 C0] by (unfold r0; now destruct k).
  destruct (add_missing Electric _ _) as [r1|] eqn:E1; cbn [bindR]; [|discriminate].
  destruct (add_missing Magnetic _ _) as [r2|] eqn:E2; cbn [bindR]; [|discriminate]. intros E3.
  assert (K0 : keyed (r_channels r0)) by now rewrite C0.
  pose proof (add_missing_keyed _ _ _ _ K0 E1) as K1. pose proof (add_missing_keyed _ _ _ _ K1 E2) as K2.
  apply add_missing_keeps in E1; auto. apply add_missing_keeps in E2; auto. apply add_missing_keeps in E3; auto.
  destruct E1 as [A1 B1], E2 as [A2 B2], E3 as [A3 B3]. split; [congruence|].
  rewrite <- C0. eapply incl_tran; [exact B1|]. eapply incl_tran; [exact B2|exact B3].
Qed.
Lemma fold_add_keeps l : forall r, keyed (r_channels r) ->
  let r' := fold_left (fun acc ch => add_channel acc ch true) l r in
  r_id r' = r_id r /\ incl (dkeys (r_channels r)) (dkeys (r_channels r')) /\
  forall ch, In ch l -> In (ch_comp ch) (dkeys (r_channels r')).
Proof.
  induction l as [|ch l IH]; intros r K; cbn [fold_left].
  - repeat split; [apply incl_refl|intros ? []].
  - assert (K1 : keyed (r_channels (add_channel r ch true)))
      by (rewrite add_channel_dict by auto; now apply keyed_add_dict).
    destruct (IH _ K1) as (A & B & C). rewrite add_channel_id in A. repeat split; auto.
    + intros c H. apply B. now apply add_channel_keys.
    + intros x [<-|H]; auto. apply B. rewrite add_channel_dict by auto. unfold add_dict. rewrite dkeys_dset.
      destruct (in_dec _ _ _); auto. apply in_or_app. right. now left.
Qed.
Lemma update_run_keeps r other r' : keyed (r_channels r) -> update_run r other = Ok r' ->
  r_id r' = r_id r /\ incl (dkeys (r_channels r)) (dkeys (r_channels r')) /\
  forall ch, In ch (dvals (r_channels other)) -> In (ch_comp ch) (dkeys (r_channels r')).
Proof.
  intros K. unfold update_run.
  assert (H : forall r k l r', keyed (r_channels r) -> assign_nonempty r k l = Ok r' ->
     keyed (r_channels r') /\ r_id r' = r_id r /\ incl (dkeys (r_channels r)) (dkeys (r_channels r'))).
  { intros a k l b Ka. unfold assign_nonempty.
    destruct l; [intros E; injection E as <-; repeat split; auto; try apply Ka; apply incl_refl|].
    intros E. split; [exact (assign_recorded_keyed _ _ _ _ Ka E)|exact (assign_recorded_keeps _ _ _ _ Ka E)]. }
  destruct (assign_nonempty r _ _) as [r1|] eqn:E1; cbn [bindR]; [|discriminate].
  destruct (assign_nonempty r1 _ _) as [r2|] eqn:E2; cbn [bindR]; [|discriminate].
  destruct (assign_nonempty r2 _ _) as [r3|] eqn:E3; cbn [bindR]; [|discriminate].
  intros E. apply (f_equal (fun x => match x with Ok a => a | Err _ => r end)) in E. cbn beta iota in E.
  apply H in E1; auto. destruct E1 as (K1 & I1 & C1).
  apply H in E2; auto. destruct E2 as (K2 & I2 & C2).
  apply H in E3; auto. destruct E3 as (K3 & I3 & C3).
  subst r'. set (r4 := mkRun _ _ _ _ _ _ _).
  destruct (fold_add_keeps (dvals (r_channels other)) r4 K3) as (A & B & C).
  split; [rewrite A; cbn; congruence|]. split; [|exact C].
  eapply incl_tran; [|exact B]. cbn. eapply incl_tran; [exact C1|]. eapply incl_tran; [exact C2|exact C3].
Qed.

Lemma estimate_mono s s' :
  (forall i r, In (i, r) (s_runs s) -> exists r', In r' (dvals (s_runs s')) /\
      forall c, has_channel r c = true -> has_channel r' c = true) ->
  incl (estimate s) (estimate s').
Proof.
  intros H c Hc. apply estimate_spec in Hc. destruct Hc as (r & I & C). unfold dvals in I.
  apply in_map_iff in I. destruct I as ([i x] & <- & I). cbn in C.
  apply H in I. destruct I as (r' & I' & M). apply estimate_spec. exists r'. auto.
Qed.

Lemma In_sset_other {V} (d : dict V) k v a w : a <> k -> In (a, w) d -> In (a, w) (sset k v d).
Proof.
  intros N. induction d as [|[x y] d IH]; cbn; [tauto|]. destruct (string_dec k x) as [<-|n]; cbn.
  - intros [E|H]; [injection E as -> ->; congruence|auto].
  - intros [E|H]; auto.
Qed.
Lemma In_sset_same {V} (d : dict V) k v : In (k, v) (sset k v d).
Proof. apply (dget_In string_dec). apply dget_dset_eq. Qed.

(** What [add_run] with an update does to a station whose lists agree with its runs. *)
Lemma update_all_grow s : s_run_list s = s_run_list s ->
  StronglySorted string_lt (s_channels s) -> incl (s_channels s) (estimate s) ->
  update_all s = Ok (mkStation (s_runs s) (dkeys (s_runs s)) (estimate s)
                        (update_period (s_period s) (map r_period (dvals (s_runs s))))).
Proof.
  intros _ H1 H2. unfold update_all, update_run_list, fuel. rewrite validate_grow; auto.
Qed.

Lemma add_run_inv s r : consistent s -> run_ok r -> forall s', add_run s r true = Ok s' ->
  exists n, r_id n = r_id r /\ run_ok n /\
    (sget (r_id r) (s_runs s) = None -> n = r) /\
    (forall old, sget (r_id r) (s_runs s) = Some old -> update_run old r = Ok n) /\
    s_runs s' = sset (r_id r) n (s_runs s) /\
    s_run_list s' = dkeys (s_runs s') /\ s_channels s' = estimate s' /\
    s_period s' = update_period (s_period s) (map r_period (dvals (s_runs s'))).
Proof.
  intros (HR & HL & HC) Hr s'. unfold add_run, has_run. rewrite HL.
  assert (INC : forall n d, r_id n = r_id r -> d = sset (r_id r) n (s_runs s) ->
      (forall old, sget (r_id r) (s_runs s) = Some old -> forall c, has_channel old c = true -> has_channel n c = true) ->
      incl (s_channels (with_runs s d)) (estimate (with_runs s d))).
  { intros n d I -> HM. cbn [with_runs s_channels]. rewrite HC. apply estimate_mono. cbn [s_runs with_runs].
    intros i x Hx. destruct (string_dec i (r_id r)) as [->|N].
    - exists n. split; [unfold dvals; apply in_map_iff; exists (r_id r, n); split; auto; apply In_sset_same|].
      apply HM. apply In_dget; auto. apply HR.
    - exists x. split; auto. unfold dvals. apply in_map_iff. exists (i, x). split; auto.
      now apply In_sset_other. }
  destruct (smem (r_id r) (dkeys (s_runs s))) eqn:M.
  - apply smem_In in M. destruct (sget (r_id r) (s_runs s)) as [old|] eqn:G;
      [|apply dget_None in G; contradiction].
    destruct (update_run old r) as [n|] eqn:U; cbn [bindR]; [|discriminate].
    pose proof G as G'. apply dget_In in G'. destruct (proj2 HR _ _ G') as [Io Ko].
    destruct (update_run_keeps _ _ _ Ko U) as (I & C & _).
    pose proof (update_run_keyed _ _ _ Ko U) as Kn.
    assert (In1 : r_id n = r_id r) by congruence.
    rewrite update_all_grow; [|auto|cbn; rewrite HC; apply estimate_sorted
                             |apply (INC n); auto; intros o Eo c; injection Eo as <-;
                              rewrite !has_channel_keys by auto; apply C].
    intros E. injection E as <-. cbn [s_runs s_run_list s_channels s_period with_runs].
    exists n. repeat split; auto; try apply Kn; try discriminate.
    intros o Eo. congruence.
  - apply smem_nIn in M. apply (dget_None string_dec) in M. rewrite M. cbn [bindR].
    rewrite update_all_grow; [|auto|cbn; rewrite HC; apply estimate_sorted
                             |apply (INC r); auto; intros o Eo; congruence].
    intros E. injection E as <-. cbn [s_runs s_run_list s_channels s_period with_runs].
    exists r. repeat split; auto; try apply Hr. discriminate.
Qed.

Lemma add_run_consistent s r s' : consistent s -> run_ok r -> add_run s r true = Ok s' -> consistent s'.
Proof.
  intros HC Hr E. destruct (add_run_inv s r HC Hr s' E) as (n & I & K & _ & _ & D & L & C & _).
  split; [|auto]. rewrite D, <- I. apply runs_ok_sset; auto. apply HC.
Qed.

(** Add-only histories. *)
Fixpoint add_runs (s : station) (rs : list run) : result station :=
  match rs with
  | [] => Ok s
  | r :: rest => bindR (add_run s r true) (fun s' => add_runs s' rest)
  end.
Lemma add_runs_steps rs : forall s, add_runs s rs = station_steps s (map (fun r => AddRun r true) rs).
Proof.
  induction rs as [|r rs IH]; intros s; auto. cbn. destruct (add_run s r true); cbn; auto.
Qed.

Lemma add_runs_list rs : forall s s', consistent s -> Forall run_ok rs -> add_runs s rs = Ok s' ->
  consistent s' /\
  s_run_list s' = (s_run_list s ++ first_occurrences (s_run_list s) (map r_id rs))%list.
Proof.
  induction rs as [|r rs IH]; intros s s' HC HF; cbn [add_runs map first_occurrences].
  - intros E. injection E as <-. rewrite app_nil_r. auto.
  - inversion HF as [|? ? F1 F2]; subst. destruct (add_run s r true) as [s1|] eqn:E; cbn [bindR]; [|discriminate].
    intros E2. pose proof (add_run_consistent _ _ _ HC F1 E) as HC1.
    destruct (IH _ _ HC1 F2 E2) as [HC' L]. split; auto.
    destruct (add_run_inv s r HC F1 s1 E) as (n & I & K & _ & _ & D & L1 & _).
    rewrite L1, D, dkeys_dset in L. destruct HC as (_ & L0 & _). rewrite <- L0 in L.
    destruct (in_dec string_dec (r_id r) (s_run_list s)) as [H|H]; auto.
    rewrite L, <- app_assoc. cbn [app]. f_equal. f_equal.
    (* [seen] as a set *)
    assert (forall a b l, (forall x, In x a <-> In x b) -> first_occurrences a l = first_occurrences b l) as FO.
    { intros a b l. revert a b. induction l as [|x l IHl]; intros a b AB; auto. cbn [first_occurrences].
      destruct (in_dec string_dec x a) as [Ha|Ha], (in_dec string_dec x b) as [Hb|Hb].
      - auto. - exfalso. apply Hb, AB, Ha. - exfalso. apply Ha, AB, Hb.
      - f_equal. apply IHl. intros y. cbn. rewrite AB. tauto. }
    apply FO. intros x. rewrite in_app_iff. cbn. tauto.
Qed.

(** ** Removing a run *)
Lemma add_phantoms_adds known names : forall r r', keyed (r_channels r) -> add_phantoms r known names = Ok r' ->
  keyed (r_channels r') /\ incl (dkeys (r_channels r)) (dkeys (r_channels r')) /\
  forall n, In n names -> ~ In n known -> In (slower n) (dkeys (r_channels r')).
Proof.
  induction names as [|n ns IH]; intros r r' K; cbn [add_phantoms].
  - intros E. injection E as <-. repeat split; try apply K; [apply incl_refl|intros ? []].
  - destruct (smem n known) eqn:M.
    + intros E. destruct (IH _ _ K E) as (A & B & C). repeat split; auto; try apply A.
      intros x [<-|H] N; auto. apply smem_In in M. contradiction.
    + unfold add_name. destruct (from_name n) as [ch|] eqn:F; cbn [bindR]; [|discriminate]. intros E.
      apply make_comp in F. destruct F as [F _].
      assert (K1 : keyed (r_channels (add_channel r ch true)))
        by (rewrite add_channel_dict by auto; now apply keyed_add_dict).
      destruct (IH _ _ K1 E) as (A & B & C). repeat split; try apply A.
      * intros c H. apply B. now apply add_channel_keys.
      * intros x [<-|H] N; auto. apply B. rewrite add_channel_dict by auto. unfold add_dict.
        rewrite dkeys_dset, F. destruct (in_dec _ _ _); auto. apply in_or_app. right. now left.
Qed.

Lemma incl_dec (a b : list string) : {incl a b} + {~ incl a b}.
Proof.
  destruct (forallb (fun x => smem x b) a) eqn:E.
  - left. intros x H. rewrite forallb_forall in E. now apply smem_In, E.
  - right. intros H. assert (forallb (fun x => smem x b) a = true); [|congruence].
    apply forallb_forall. intros x Hx. now apply smem_In, H.
Qed.

Lemma remove_run_inv s i s' : consistent s -> In i (dkeys (s_runs s)) -> remove_run s i true = Ok s' ->
  dkeys (s_runs s') = dkeys (sdel i (s_runs s)) /\ s_run_list s' = dkeys (s_runs s') /\
  s_period s' = update_period (s_period s) (map r_period (dvals (sdel i (s_runs s)))) /\
  let left := with_runs s (sdel i (s_runs s)) in
  ( (incl (s_channels s) (estimate left) -> s_runs s' = sdel i (s_runs s) /\ s_channels s' = estimate s') /\
    (~ incl (s_channels s) (estimate left) ->
       match sdel i (s_runs s) with
       | [] => s_runs s' = [] /\ s_channels s' = s_channels s
       | (j, r0) :: rest => exists r0', s_runs s' = (j, r0') :: rest /\ s_channels s' = s_channels s /\
                            add_phantoms r0 (estimate left) (s_channels s) = Ok r0'
       end) ).
Proof.
  intros (HR & HL & HC) HI. unfold remove_run, has_run. rewrite HL, (proj2 (smem_In i _) HI).
  destruct (sget i (s_runs s)) as [old|] eqn:G; [|apply dget_None in G; contradiction].
  set (left := with_runs s (sdel i (s_runs s))).
  unfold update_all, update_run_list.
  set (u := with_run_list (station_update_period left) (dkeys (s_runs (station_update_period left)))).
  assert (EU : estimate u = estimate left) by reflexivity.
  assert (SUB : incl (estimate left) (s_channels s)).
  { rewrite HC. apply estimate_mono. intros j r Hj. exists r. split; auto. unfold dvals. apply in_map_iff.
    exists (j, r). split; auto. cbn in Hj. now apply In_ddel in Hj. }
  assert (SS : StronglySorted string_lt (s_channels s)) by (rewrite HC; apply estimate_sorted).
  destruct (incl_dec (s_channels s) (estimate left)) as [INC|NINC].
  - unfold fuel. rewrite validate_grow; auto. intros E. injection E as <-.
    cbn [s_runs s_run_list s_channels s_period with_recorded].
    repeat split; auto; try (intros; contradiction).
  - assert (LT : (length (estimate u) < length (s_channels u))%nat).
    { rewrite EU. change (s_channels u) with (s_channels s).
      pose proof (sublist_length _ _ (estimate_sorted left) SUB) as LE.
      destruct (Nat.eq_dec (length (estimate left)) (length (s_channels s))) as [EQ|]; [|lia].
      exfalso. apply NINC. apply NoDup_length_incl; auto; [apply StronglySorted_NoDup, estimate_sorted|lia]. }
    destruct (sdel i (s_runs s)) as [|[j r0] rest] eqn:D.
    + assert (RU : s_runs u = []) by reflexivity.
      unfold fuel. cbn [validate_station]. change (s_run_list u) with (dkeys (s_runs u)).
      rewrite list_eqb_refl. cbn [bindR].
      destruct (list_eqb (s_channels u) (estimate u)) eqn:E.
      { apply list_eqb_iff in E. rewrite E in LT. lia. }
      destruct (Nat.ltb_spec (length (estimate u)) (length (s_channels u))); [|lia]. rewrite RU.
      intros E'. injection E' as <-. cbn. repeat split; auto; contradiction.
    + assert (RU : s_runs u = (j, r0) :: rest) by reflexivity.
      unfold fuel. rewrite (validate_phantom _ u j r0 rest) by auto.
      rewrite EU. change (s_channels u) with (s_channels s).
      destruct (add_phantoms r0 (estimate left) (s_channels s)) as [r0'|] eqn:P; cbn [bindR]; [|discriminate].
      intros E. injection E as <-. cbn. repeat split; auto; try contradiction.
      intros _. exists r0'. auto.
Qed.

(** ** Assigning a list of recorded channels *)
Lemma add_missing_nop k names r : incl names (dkeys (r_channels r)) -> add_missing k r names = Ok r.
Proof.
  induction names as [|n ns IH]; intros H; auto. cbn [add_missing].
  rewrite (proj2 (smem_In n _)) by (apply H; now left). apply IH. intros x Hx. apply H. now right.
Qed.
Lemma add_missing_in_step k names : forall r r', in_step r -> add_missing k r names = Ok r' -> in_step r'.
Proof.
  induction names as [|n ns IH]; intros r r' H; cbn [add_missing].
  - intros E. injection E as <-. auto.
  - destruct (smem n _); [now apply IH|]. destruct (make k n); cbn [bindR]; [|discriminate].
    apply IH, in_step_add.
Qed.
Lemma add_missing_result k names : forall r r', add_missing k r names = Ok r' ->
  (incl names (dkeys (r_channels r)) /\ r' = r) \/ in_step r'.
Proof.
  induction names as [|n ns IH]; intros r r'; cbn [add_missing].
  - intros E. injection E as <-. left. split; auto. intros x [].
  - destruct (smem n _) eqn:M.
    + intros E. apply IH in E. destruct E as [[I ->]|]; auto. left. split; auto.
      apply smem_In in M. intros x [<-|]; auto.
    + destruct (make k n); cbn [bindR]; [|discriminate]. intros E. right.
      eapply add_missing_in_step; [apply in_step_add|exact E].
Qed.
Lemma add_missing_covers_names k names : forall r r', keyed (r_channels r) -> add_missing k r names = Ok r' ->
  forall n, In n names -> In (slower n) (dkeys (r_channels r')) \/ In n (dkeys (r_channels r')).
Proof.
  induction names as [|a ns IH]; intros x x' Kx; cbn [add_missing].
  - intros _ n0 [].
  - destruct (smem a (dkeys (r_channels x))) eqn:M.
    + intros E n0 [<-|H]; [|eauto]. right. apply smem_In in M. now apply (add_missing_keeps _ _ _ _ Kx E).
    + destruct (make k a) as [ch|] eqn:F; cbn [bindR]; [|discriminate]. apply make_comp in F.
      destruct F as [F _].
      assert (K1 : keyed (r_channels (add_channel x ch true)))
        by (rewrite add_channel_dict by auto; now apply keyed_add_dict).
      intros E n0 [<-|H]; [|eapply IH; eauto]. left. apply (add_missing_keeps _ _ _ _ K1 E).
      rewrite add_channel_dict by auto. unfold add_dict. rewrite dkeys_dset, F.
      destruct (in_dec _ _ _); auto. apply in_or_app. right. now left.
Qed.

(** Every recorded name is a key. *)
Definition named (r : run) : Prop := forall k, incl (recorded k r) (dkeys (r_channels r)).
Lemma in_step_named r : keyed (r_channels r) -> in_step r -> named r.
Proof.
  intros K H k c. rewrite H, recorded_of_spec by auto. intros (ch & S & _). apply dget_In in S.
  unfold dkeys. apply in_map_iff. exists (c, ch). auto.
Qed.
Definition set_recorded (r : run) (k : kind) (l : list string) : run :=
  match k with
  | Electric => mkRun (r_id r) (r_channels r) l (r_magnetic r) (r_auxiliary r) (r_period r) (r_info r)
  | Magnetic => mkRun (r_id r) (r_channels r) (r_electric r) l (r_auxiliary r) (r_period r) (r_info r)
  | Auxiliary => mkRun (r_id r) (r_channels r) (r_electric r) (r_magnetic r) l (r_period r) (r_info r)
  end.
Lemma assign_simple r k l : keyed (r_channels r) -> named r ->
  assign_recorded r k l = add_missing k (set_recorded r k l) l.
Proof.
  intros K N. unfold assign_recorded. fold (set_recorded r k l). set (r0 := set_recorded r k l).
  assert (C0 : r_channels r0 = r_channels r) by (unfold r0; now destruct k).
  assert (K0 : keyed (r_channels r0)) by now rewrite C0.
  assert (AFTER : forall r', add_missing k r0 l = Ok r' -> forall k', k' <> k ->
            incl (recorded k' r') (dkeys (r_channels r'))).
  { intros r' E k' NE. pose proof (add_missing_keyed _ _ _ _ K0 E) as K'.
    destruct (add_missing_result _ _ _ _ E) as [[_ ->]|IS]; [|now apply in_step_named].
    rewrite C0. unfold r0. specialize (N k'). destruct k, k'; cbn; try exact N; congruence. }
  unfold validate_recorded. destruct k.
  - change (r_electric r0) with l. destruct (add_missing Electric r0 l) as [r1|] eqn:E; cbn [bindR]; auto.
    rewrite add_missing_nop by (apply (AFTER r1 eq_refl Magnetic); discriminate). cbn [bindR].
    apply add_missing_nop. apply (AFTER r1 eq_refl Auxiliary); discriminate.
  - rewrite add_missing_nop by (rewrite C0; apply (N Electric)). cbn [bindR].
    change (r_magnetic r0) with l. destruct (add_missing Magnetic r0 l) as [r1|] eqn:E; cbn [bindR]; auto.
    apply add_missing_nop. apply (AFTER r1 eq_refl Auxiliary); discriminate.
  - rewrite add_missing_nop by (rewrite C0; apply (N Electric)). cbn [bindR].
    rewrite add_missing_nop by (rewrite C0; apply (N Magnetic)). reflexivity.
Qed.
Lemma assign_named r k l r' : keyed (r_channels r) -> named r -> assign_recorded r k l = Ok r' -> named r'.
Proof.
  intros K N. rewrite assign_simple by auto. intros E.
  assert (C0 : r_channels (set_recorded r k l) = r_channels r) by now destruct k.
  assert (K0 : keyed (r_channels (set_recorded r k l))) by now rewrite C0.
  pose proof (add_missing_keyed _ _ _ _ K0 E) as K'.
  destruct (add_missing_result _ _ _ _ E) as [[I ->]|IS]; [|now apply in_step_named].
  intros k'. rewrite C0 in *. specialize (N k'). destruct k, k'; cbn in *; auto.
Qed.
Lemma run_step_named r o r' : keyed (r_channels r) -> good_op o -> named r -> run_step r o = Ok r' -> named r'.
Proof.
  intros K G N E. pose proof (run_step_keyed _ _ _ K G E) as K'.
  destruct o; cbn [run_step] in E.
  - injection E as <-. apply in_step_named; auto. apply in_step_add.
  - unfold add_name in E. destruct (from_name s); cbn [bindR] in E; [|discriminate]. injection E as <-.
    apply in_step_named; auto. apply in_step_add.
  - injection E as <-. unfold remove_channel in *. destruct (has_channel r c); auto.
    apply in_step_named; auto. intros k. apply recorded_update.
  - injection E as <-. apply in_step_named; auto. intros k. unfold merge_run. destruct inplace.
    + rewrite run_update_period_recorded, run_update_period_channels. apply recorded_update.
    + apply recorded_update.
Qed.
Lemma fold_add_named l : forall r, keyed (r_channels r) -> named r ->
  named (fold_left (fun acc ch => add_channel acc ch true) l r).
Proof.
  induction l as [|ch l IH]; intros r K N; auto. cbn [fold_left].
  assert (K1 : keyed (r_channels (add_channel r ch true)))
    by (rewrite add_channel_dict by auto; now apply keyed_add_dict).
  apply IH; auto. apply in_step_named; auto. apply in_step_add.
Qed.
Lemma update_run_named r other r' : keyed (r_channels r) -> named r -> update_run r other = Ok r' -> named r'.
Proof.
  intros K N. unfold update_run.
  assert (H : forall r k l r', keyed (r_channels r) -> named r -> assign_nonempty r k l = Ok r' ->
                keyed (r_channels r') /\ named r').
  { intros a k l b Ka Na. unfold assign_nonempty. destruct l; [intros E; injection E as <-; auto|].
    intros E. split; [eapply assign_recorded_keyed; eauto|eapply assign_named; eauto]. }
  destruct (assign_nonempty r _ _) as [r1|] eqn:E1; cbn [bindR]; [|discriminate].
  destruct (assign_nonempty r1 _ _) as [r2|] eqn:E2; cbn [bindR]; [|discriminate].
  destruct (assign_nonempty r2 _ _) as [r3|] eqn:E3; cbn [bindR]; [|discriminate].
  intros E. injection E as <-. apply H in E1; auto. destruct E1 as [K1 N1].
  apply H in E2; auto. destruct E2 as [K2 N2]. apply H in E3; auto. destruct E3 as [K3 N3].
  now apply fold_add_named.
Qed.
Lemma user_run_named r : user_run r -> named r.
Proof.
  induction 1 as [i|r ch u U IH|r s u r' U IH E|r c U IH|r o b U IH1 U2 IH2|r k l r' U IH E|r o r' U IH1 U2 IH2 E];
    try (pose proof (user_run_keyed _ U) as K).
  - intros k. destruct k; apply incl_refl.
  - exact (run_step_named r (AddChannel ch u) _ K I IH eq_refl).
  - exact (run_step_named r (AddName s u) _ K I IH E).
  - exact (run_step_named r (RemoveChannel c) _ K I IH eq_refl).
  - exact (run_step_named r (MergeRun o b) _ K U2 IH1 eq_refl).
  - exact (assign_named _ _ _ _ K IH E).
  - exact (update_run_named _ _ _ K IH1 E).
Qed.

(* ---------------------------------------------------------------- updating a station *)

Lemma bindR_Ok {A B} (x : result A) (f : A -> result B) b :
  bindR x f = Ok b -> exists a, x = Ok a /\ f a = Ok b.
Proof. destruct x as [a|e]; cbn; [now exists a|discriminate]. Qed.
Lemma station_Ok_inj (a b : station) : Ok a = Ok b -> a = b.
Proof. congruence. Qed.


Lemma append_runs_incl ids d : incl (dkeys d) (dkeys (append_runs d ids)).
Proof.
  revert d. induction ids as [|i r IH]; intros d; cbn [append_runs]; [apply incl_refl|].
  destruct (smem i (dkeys d)); [apply IH|]. intros a H. apply IH. rewrite dkeys_dset.
  destruct (in_dec string_dec i (dkeys d)); [assumption|]. apply in_or_app. now left.
Qed.
Lemma validate_runs_incl f s s' : validate_station f s = Ok s' -> incl (dkeys (s_runs s)) (dkeys (s_runs s')).
Proof.
  revert s s'. induction f as [|f IH]; intros s s'; cbn [validate_station]; [discriminate|].
  intros H. apply bindR_Ok in H as (s1 & H1 & H2).
  assert (A : incl (dkeys (s_runs s)) (dkeys (s_runs s1))).
  { destruct (list_eqb (s_run_list s) (dkeys (s_runs s))).
    - apply station_Ok_inj in H1. subst s1. apply incl_refl.
    - destruct (_ <? _)%nat.
      + apply station_Ok_inj in H1. subst s1. cbn [with_runs s_runs]. apply append_runs_incl.
      + apply IH in H1. exact H1. }
  apply (incl_tran A). clear A H1. cbv zeta in H2.
  destruct (list_eqb (s_channels s1) (estimate s1)).
  - apply station_Ok_inj in H2. subst s'. apply incl_refl.
  - destruct (_ <? _)%nat.
    + destruct (s_runs s1) as [|[i r0] rest] eqn:E.
      * apply station_Ok_inj in H2. subst s'. rewrite E. apply incl_refl.
      * apply bindR_Ok in H2 as (r0' & _ & H2). apply station_Ok_inj in H2. subst s'. cbn. apply incl_refl.
    + apply IH in H2. exact H2.
Qed.
Lemma station_update_incl s other s' : station_update s other = Ok s' ->
  incl (dkeys (s_runs s)) (dkeys (s_runs s')).
Proof.
  unfold station_update. intros H. apply bindR_Ok in H as (s1 & H1 & H). apply bindR_Ok in H as (s2 & H2 & H).
  apply station_Ok_inj in H. subst s'. cbn [s_runs].
  assert (A : incl (dkeys (s_runs s)) (dkeys (s_runs s1))).
  { destruct (s_channels other); [apply station_Ok_inj in H1; subst s1; apply incl_refl|].
    apply validate_runs_incl in H1. exact H1. }
  apply (incl_tran A).
  destruct (s_run_list other); [apply station_Ok_inj in H2; subst s2; apply incl_refl|].
  apply validate_runs_incl in H2. exact H2.
Qed.
