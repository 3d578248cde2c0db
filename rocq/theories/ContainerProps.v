(** C22-C25 and C69: runs and stations. *)
From Coq Require Import Permutation Sorted.
From Verif Require Import PyBase PyFacts PyText ContainerModel ContainerSpec ContainerProofs.
Open Scope string_scope.

(* ================================================================ C22 *)

(** After any sequence of calls on a run a user can have, [has_channel c] holds exactly when [c] was
    added and not removed since, or was there from the start and never removed. *)
Theorem C22_history :
  forall r ops r' c,
    user_run r -> Forall good_op ops -> run_steps r ops = Ok r' ->
    has_channel r' c = true <->
    ((exists pre o post, ops = (pre ++ o :: post)%list /\ adds c o /\ ~ In (RemoveChannel c) post)
     \/ (has_channel r c = true /\ ~ In (RemoveChannel c) ops)).
Proof.
  intros r ops r' c U G E. pose proof (user_run_keyed r U) as K.
  rewrite has_channel_keys by (eapply run_steps_keyed; eauto).
  rewrite (run_steps_history ops r r' c K G E). now rewrite has_channel_keys.
Qed.

(** [get_channel] answers exactly for those names, with a channel of that name, and never raises. *)
Theorem C22_get :
  forall r c, user_run r ->
    exists o, get_channel r c = Ok o /\
              (has_channel r c = true -> exists ch, o = Some ch /\ ch_comp ch = c) /\
              (has_channel r c = false -> o = None).
Proof.
  intros r c U. pose proof (user_run_keyed r U) as K. unfold get_channel.
  rewrite has_channel_get by auto. destruct (sget c (r_channels r)) as [ch|] eqn:E.
  - exists (Some ch). repeat split; [|discriminate]. intros _. exists ch. split; auto. apply K.
    now apply dget_In in E.
  - exists None. repeat split; discriminate.
Qed.

(** The three lists of a run built by calls: each is strictly increasing (so without duplicates) and
    holds exactly the channels of its type, apart from the placeholder name of that type. *)
Theorem C22_recorded_lists :
  forall i ops r' k,
    Forall good_op ops -> run_steps (new_run i) ops = Ok r' ->
    StronglySorted string_lt (recorded k r') /\
    forall c, In c (recorded k r') <->
              exists ch, get_channel r' c = Ok (Some ch) /\ ch_kind ch = k /\ c <> default_component k.
Proof.
  intros i ops r' k G E.
  pose proof (run_steps_keyed ops (new_run i) r' keyed_nil G E) as K.
  pose proof (run_steps_in_step ops (new_run i) r' (in_step_new i) E k) as R. rewrite R. split.
  - now apply recorded_of_sorted.
  - intros c. rewrite recorded_of_spec by auto.
    split; intros (ch & H & X); exists ch; split; auto; now apply get_channel_spec.
Qed.

(** Hence they partition the channels with proper names. *)
Theorem C22_partition :
  forall i ops r' c,
    Forall good_op ops -> run_steps (new_run i) ops = Ok r' -> has_channel r' c = true ->
    (forall k, c <> default_component k) ->
    exists k, In c (recorded k r') /\ forall k', In c (recorded k' r') -> k' = k.
Proof.
  intros i ops r' c G E H N.
  pose proof (run_steps_keyed ops (new_run i) r' keyed_nil G E) as K.
  rewrite has_channel_get in H by auto. destruct (sget c (r_channels r')) as [ch|] eqn:S; [|discriminate].
  exists (ch_kind ch). split.
  - apply (C22_recorded_lists i ops r' (ch_kind ch) G E). exists ch.
    split; [now apply get_channel_spec|auto].
  - intros k' I. apply (C22_recorded_lists i ops r' k' G E) in I. destruct I as (ch' & S' & <- & _).
    apply get_channel_spec in S'; auto. congruence.
Qed.

(** No channel is listed twice in the list of all channels. *)
Theorem C22_no_duplicates :
  forall r, user_run r -> StronglySorted string_lt (recorded_all r) /\
    forall c, In c (recorded_all r) <-> has_channel r c = true.
Proof.
  intros r U. pose proof (user_run_keyed r U) as K. split.
  - apply strictly_sorted. unfold components. rewrite components_keys by auto. apply K.
  - intros c. unfold has_channel. now rewrite smem_In.
Qed.

(** Adding a channel that is there already changes no other channel, adds none, and keeps the class
    of the one that is there; its set times and attributes are taken over if the class agrees. *)
Theorem C22_readd :
  forall r ch old u, user_run r -> get_channel r (ch_comp ch) = Ok (Some old) ->
    let r' := add_channel r ch u in
    recorded_all r' = recorded_all r /\
    (forall c, c <> ch_comp ch -> get_channel r' c = get_channel r c) /\
    exists new, get_channel r' (ch_comp ch) = Ok (Some new) /\ ch_kind new = ch_kind old /\
      (ch_kind ch <> ch_kind old -> new = old) /\
      (ch_kind ch = ch_kind old ->
         (p_start (ch_period ch) <> default_time -> p_start (ch_period new) = p_start (ch_period ch)) /\
         (p_start (ch_period ch) = default_time -> p_start (ch_period new) = p_start (ch_period old)) /\
         (ch_info ch <> "" -> ch_info new = ch_info ch) /\ (ch_info ch = "" -> ch_info new = ch_info old)).
Proof.
  intros r ch old u U G r'. pose proof (user_run_keyed r U) as K.
  apply get_channel_spec in G; auto.
  assert (D : r_channels r' = sset (ch_comp ch) (chan_update old ch) (r_channels r)).
  { unfold r'. rewrite add_channel_dict by auto. unfold add_dict. now rewrite G. }
  assert (K' : keyed (r_channels r')).
  { unfold r'. rewrite add_channel_dict by auto. now apply keyed_add_dict. }
  split; [|split].
  - unfold recorded_all, components. rewrite !components_keys by auto. f_equal. rewrite D.
    rewrite dkeys_dset. destruct (in_dec _ _ _) as [|N]; auto. exfalso. apply N.
    apply dget_In in G. unfold dkeys. apply in_map_iff. exists (ch_comp ch, old). auto.
  - intros c N. unfold get_channel. rewrite !has_channel_get by auto. rewrite D.
    rewrite dget_dset_neq by auto. reflexivity.
  - exists (chan_update old ch). split; [apply get_channel_spec; auto; rewrite D; apply dget_dset_eq|].
    split; [apply chan_update_kind|]. unfold chan_update. split.
    + intros N. destruct (kind_eqb (ch_kind old) (ch_kind ch)) eqn:B; auto.
      apply kind_eqb_iff in B. congruence.
    + intros E. rewrite (proj2 (kind_eqb_iff _ _)) by auto.
      cbn [ch_period ch_info overwrite_period p_start]. unfold overwrite_time, overwrite_info.
      repeat split; intros H.
      * destruct (is_default _) eqn:B; auto. apply is_default_iff in B. contradiction.
      * now rewrite (proj2 (is_default_iff _)).
      * destruct (String.eqb_spec (ch_info ch) ""); [contradiction|auto].
      * rewrite H. reflexivity.
Qed.

(** Example histories. *)
Definition day (n : Z) : Z := (n * 86400000000000)%Z.
Definition ex_chan : chan := mkChan Electric "ex" (mkPeriod (day 18000) (day 18001)) "a".
Definition hy_chan : chan := mkChan Magnetic "hy" (mkPeriod (day 17999) (day 18000)) "b".
Definition history : list run_op :=
  [AddChannel ex_chan true; AddName "Temperature" true; AddChannel hy_chan true; AddName "EX" true;
   RemoveChannel "temperature"].
Example C22_history_hyp :
  exists r', Forall good_op history /\ run_steps (new_run "a") history = Ok r' /\
             recorded_all r' = ["ex"; "hy"] /\ r_electric r' = ["ex"] /\ r_magnetic r' = ["hy"].
Proof.
  eexists. repeat split.
  - repeat constructor.
Qed.

(** A channel with the placeholder name of its type is present but in none of the three lists. *)
Theorem C22_placeholder_refuted :
  ~ (forall i ops r' c, Forall good_op ops -> run_steps (new_run i) ops = Ok r' ->
       has_channel r' c = true -> exists k, In c (recorded k r')).
Proof.
  intros H. destruct (H "a" [AddName "e_default" true] _ "e_default" ltac:(repeat constructor) eq_refl eq_refl)
    as (k & I). destruct k; cbn in I; tauto.
Qed.

(** Assigning a shorter list of recorded channels does not remove the channel, so the list and the
    channels disagree. *)
Theorem C22_assignment_refuted :
  ~ (forall r k l r', user_run r -> assign_recorded r k l = Ok r' ->
       forall c ch, get_channel r' c = Ok (Some ch) -> ch_kind ch = k -> In c (recorded k r')).
Proof.
  intros H.
  assert (U : user_run (add_channel (add_channel (new_run "a") ex_chan true)
                          (mkChan Electric "ey" default_period "") true)) by repeat constructor.
  specialize (H _ Electric ["ex"] _ U eq_refl "ey" _ eq_refl eq_refl). cbn in H.
  destruct H as [H|[]]. discriminate.
Qed.

(** Assigning a list of recorded names makes every one of them (in lower case, unless the run already
    has it as given) a channel of the run, and drops no channel. *)
Theorem C22_assignment_adds :
  forall r k l r', user_run r -> assign_recorded r k l = Ok r' ->
    (forall n, In n l -> has_channel r' (slower n) = true \/ has_channel r' n = true) /\
    (forall c, has_channel r c = true -> has_channel r' c = true).
Proof.
  intros r k l r' U E. pose proof (user_run_keyed r U) as K. pose proof (user_run_named r U) as N.
  pose proof (assign_recorded_keyed _ _ _ _ K E) as K'. split.
  - intros n I. rewrite !has_channel_keys by auto. rewrite assign_simple in E by auto.
    eapply add_missing_covers_names; [|exact E|exact I]. now destruct k.
  - intros c. rewrite !has_channel_keys by auto. apply (assign_recorded_keeps _ _ _ _ K E).
Qed.
Example C22_assignment_adds_hyp :
  exists r', user_run (new_run "a") /\ assign_recorded (new_run "a") Magnetic ["Hx"; "hy"] = Ok r' /\ recorded_all r' = ["hx"; "hy"].
Proof. eexists. repeat split; constructor. Qed.

(** [update] with another run: nothing is lost and everything of the other run is there. *)
Theorem C22_update_union :
  forall r other r' c, user_run r -> user_run other -> update_run r other = Ok r' ->
    has_channel r c = true \/ has_channel other c = true -> has_channel r' c = true.
Proof.
  intros r other r' c U U2 E. pose proof (user_run_keyed r U) as K. pose proof (user_run_keyed other U2) as K2.
  pose proof (update_run_keyed _ _ _ K E) as K'. rewrite !has_channel_keys by auto.
  destruct (update_run_keeps _ _ _ K E) as (_ & A & B). intros [H|H]; auto.
  unfold dkeys in H. apply in_map_iff in H. destruct H as ([x ch] & <- & H). cbn.
  rewrite <- (proj2 K2 _ _ H). apply B. unfold dvals. apply in_map_iff. exists (x, ch). auto.
Qed.

(** A component name given as a string or in a dictionary without a type gets its class from the first
    letter.  For dictionaries the letter h is not recognised. *)
Theorem C22_class_from_name :
  forall s ch, from_name s = Ok ch ->
    ch_comp ch = slower s /\
    (ch_kind ch = Electric <-> starts_in ["e"%char] (slower s) = true) /\
    (ch_kind ch = Magnetic <-> starts_in ["h"%char; "b"%char] (slower s) = true).
Proof.
  intros s ch E. unfold from_name in E. pose proof E as P. apply make_comp in E. destruct E as (-> & E & _).
  split; auto. rewrite E. unfold make in P. destruct (pattern (kind_of_name s) (slower s)) eqn:PT; [|discriminate].
  clear P E. unfold kind_of_name in *. destruct (slower s) as [|c t]; cbn in *; [intuition discriminate|].
  destruct (Ascii.eqb_spec c "e") as [->|N]; cbn in *; [intuition discriminate|].
  destruct (Ascii.eqb_spec c "h") as [->|N1]; cbn in *; [intuition discriminate|].
  destruct (Ascii.eqb_spec c "b") as [->|N2]; cbn in *; [intuition discriminate|].
  destruct (Ascii.eqb_spec c "m") as [->|N3]; cbn in *; [|intuition discriminate].
  destruct (String.eqb t "agnetic"); cbn in *; intuition discriminate.
Qed.
Example C22_class_from_name_hyp :
  from_name "HX01" = Ok (mkChan Magnetic "hx01" default_period "") /\
  from_name "temp" = Ok (mkChan Auxiliary "temp" default_period "").
Proof. split; reflexivity. Qed.

(** A dictionary with component "hx" and no type becomes an auxiliary channel, a string a magnetic one. *)
Theorem C22_class_from_dict_refuted :
  ~ (forall s a b, from_name s = Ok a -> from_dict None s = Ok b -> ch_kind a = ch_kind b).
Proof. intros H. specialize (H "hx" _ _ eq_refl eq_refl). discriminate. Qed.
(** It is right for every other letter. *)
Theorem C22_class_from_dict_partial :
  forall s a b, from_name s = Ok a -> from_dict None s = Ok b -> starts_in ["h"%char] (slower s) = false ->
    ch_kind a = ch_kind b.
Proof.
  intros s a b A B N. pose proof (C22_class_from_name s a A) as (_ & HE & HM). unfold from_dict in B.
  destruct (kind_of_dict None s) as [k|] eqn:K; cbn [bindR] in B; [|discriminate].
  apply make_comp in B. destruct B as (_ & -> & _). unfold kind_of_dict in K.
  destruct s as [|c t]; [discriminate|]. injection K as <-. unfold slower in *. cbn in *.
  destruct (Ascii.eqb_spec (to_lower c) "e") as [->|N0]; cbn in *; [now apply HE|].
  destruct (Ascii.eqb_spec (to_lower c) "h") as [->|N1]; cbn in *; [discriminate|].
  destruct (Ascii.eqb_spec (to_lower c) "b") as [->|N2]; cbn in *; [now apply HM|].
  destruct (Ascii.eqb_spec (to_lower c) "m") as [E|_]; cbn.
  all: destruct (ch_kind a); auto; [destruct HE as [HE _]|destruct HM as [HM _]];
    [discriminate HE|discriminate HM]; auto.
Qed.


(* ================================================================ C23 *)

(** The period of a container after an update: it covers every child and the old period; each of its
    ends is the old one or one of a child, so nothing is invented. *)
Theorem C23_update_period :
  forall own children,
    let p := update_period own children in
    (forall c, In c children -> covers p c) /\ no_smaller p own /\
    (p_start p = p_start own \/ exists c, In c children /\ p_start c = p_start p /\ p_start p <> default_time) /\
    (p_end p = p_end own \/ exists c, In c children /\ p_end c = p_end p /\ p_end p <> default_time).
Proof.
  intros own l p. split; [|split; [|split]].
  - intros c H. now apply update_period_covers.
  - apply update_period_grows.
  - destruct (update_start own l) as (_ & _ & [H|[N (c & Hc & E)]] & _); [now left|].
    right. exists c. auto.
  - destruct (update_end own l) as (_ & _ & [H|[N (c & Hc & E)]] & _); [now left|].
    right. exists c. auto.
Qed.

(** Children without a set start (end) have no influence on the start (end). *)
Theorem C23_default_ignored :
  forall own children,
    p_start (update_period own children) =
      p_start (update_period own (filter (fun c => negb (p_start c =? default_time)%Z) children)) /\
    p_end (update_period own children) =
      p_end (update_period own (filter (fun c => negb (p_end c =? default_time)%Z) children)).
Proof.
  intros own l.
  assert (F : forall f : period -> Z,
             filter (fun t => negb (is_default t)) (map f (filter (fun c => negb (f c =? default_time)%Z) l))
             = filter (fun t => negb (is_default t)) (map f l)).
  { intros f. induction l as [|c r IH]; auto. cbn [filter map]. unfold is_default at 2.
    destruct (f c =? default_time)%Z eqn:E; cbn [negb]; auto. cbn [filter map].
    unfold is_default at 1. rewrite E. cbn [negb]. now rewrite IH. }
  split; cbn [update_period p_start p_end]; now rewrite F.
Qed.

(** The order of the children does not matter, and updating twice is the same as once. *)
Theorem C23_order_irrelevant :
  forall own l m, Permutation l m -> update_period own l = update_period own m.
Proof.
  intros own l m P. apply update_period_ext; intros t _;
    split; intros (c & H & E); exists c; split; auto;
    [apply (Permutation_in _ P)|apply (Permutation_in _ (Permutation_sym P))
    |apply (Permutation_in _ P)|apply (Permutation_in _ (Permutation_sym P))]; auto.
Qed.
Theorem C23_idempotent :
  forall own l, update_period (update_period own l) l = update_period own l.
Proof.
  intros own l. set (p := update_period own l).
  destruct (update_start own l) as (A1 & A2 & A3 & A4). destruct (update_end own l) as (B1 & B2 & B3 & B4).
  destruct (update_start p l) as (C1 & C2 & C3 & C4). destruct (update_end p l) as (D1 & D2 & D3 & D4).
  fold p in A1, A2, A3, A4, B1, B2, B3, B4.
  assert (p_start (update_period p l) = p_start p).
  { destruct C3 as [|[N (c & Hc & E)]]; auto.
    destruct (Z.eq_dec (p_start p) default_time) as [D|D].
    - exfalso. destruct A3 as [A3|[A3 _]]; [|congruence]. rewrite D in A3.
      apply (A4 (eq_sym A3)); [exists c; split; congruence|auto].
    - specialize (C2 D). assert (p_start p <= p_start c)%Z by (apply A1; congruence). lia. }
  assert (p_end (update_period p l) = p_end p).
  { destruct D3 as [|[N (c & Hc & E)]]; auto.
    destruct (Z.eq_dec (p_end p) default_time) as [D|D].
    - exfalso. destruct B3 as [B3|[B3 _]]; [|congruence]. rewrite D in B3.
      apply (B4 (eq_sym B3)); [exists c; split; congruence|auto].
    - specialize (D2 D). assert (p_end c <= p_end p)%Z by (apply B1; congruence). lia. }
  destruct (update_period p l), p. cbn in *. congruence.
Qed.

(** A run built with updating calls encloses its channels after every history. *)
Theorem C23_run :
  forall i ops r', Forall good_op ops -> Forall updates ops -> run_steps (new_run i) ops = Ok r' -> encloses r'.
Proof.
  intros i ops r' G U E. pose proof (run_steps_keyed ops (new_run i) r' keyed_nil G E) as K.
  apply covers_all_encloses; auto. eapply run_steps_covers; [|exact U|exact E]. intros ch [].
Qed.
(** No call makes the period of a run smaller. *)
Theorem C23_run_never_shrinks :
  forall r o r', run_step r o = Ok r' -> no_smaller (r_period r') (r_period r).
Proof. intros r o r' E. eapply run_step_period; eauto. Qed.
Example C23_run_hyp :
  exists r', run_steps (new_run "a") history = Ok r' /\ Forall updates history /\
             r_period r' = mkPeriod (day 17999) (day 18001).
Proof. eexists. repeat split; repeat constructor. Qed.

(** [Run.update] is not covered by this: it takes over the times of the other run, so a run that has
    channels may end up with a period that does not cover them. *)
Theorem C23_update_run_refuted :
  ~ (forall r other r', user_run r -> user_run other -> encloses r -> encloses other ->
       update_run r other = Ok r' -> encloses r').
Proof.
  intros H.
  assert (U : user_run (add_channel (new_run "a") ex_chan true)) by repeat constructor.
  (* a run whose own time was set by [update] with a channel that was then removed *)
  set (late := mkChan Electric "ex" (mkPeriod (day 18010) (day 18011)) "").
  assert (U2 : user_run (remove_channel (add_channel (new_run "a") late true) "ex")) by repeat constructor.
  assert (E1 : encloses (add_channel (new_run "a") ex_chan true)).
  { apply (C23_run "a" [AddChannel ex_chan true]); repeat constructor. }
  assert (E2 : encloses (remove_channel (add_channel (new_run "a") late true) "ex")).
  { apply (C23_run "a" [AddChannel late true; RemoveChannel "ex"]); repeat constructor. }
  specialize (H _ _ _ U U2 E1 E2 eq_refl "ex" _ eq_refl). destruct H as [H _]. cbn in H.
  assert (day 18000 <> default_time) as N by (unfold day, default_time; lia). specialize (H N).
  unfold day in H. lia.
Qed.

(** A station built by adding runs covers the period of each of its runs, and its own earlier period. *)
Theorem C23_station :
  forall s r s', consistent s -> user_run r -> add_run s r true = Ok s' ->
    no_smaller (s_period s') (s_period s) /\
    forall i x, get_run s' i = Ok (Some x) -> covers (s_period s') (r_period x).
Proof.
  intros s r s' HC U E. pose proof (user_run_keyed r U) as K.
  destruct (add_run_inv s r HC K s' E) as (n & _ & _ & _ & _ & D & L & _ & P). rewrite P. split.
  - apply update_period_grows.
  - intros i x G. unfold get_run in G. destruct (has_run s' i); [|discriminate].
    destruct (sget i (s_runs s')) as [y|] eqn:S; [|discriminate]. injection G as <-.
    apply update_period_covers. apply in_map. unfold dvals. apply in_map_iff. exists (i, y).
    split; auto. now apply dget_In in S.
Qed.

(* ================================================================ C25 *)

(** Adding runs one after the other to a new station: [run_list] is the ids in the order of their
    first occurrence; there is no duplicate; [get_run] answers exactly for these ids with a run of
    that id; the recorded channels are the channels of the runs, sorted. *)
Theorem C25_add_runs :
  forall rs s', Forall user_run rs ->
    station_steps new_station (map (fun r => AddRun r true) rs) = Ok s' ->
    s_run_list s' = first_occurrences [] (map r_id rs) /\ NoDup (s_run_list s') /\
    (forall i, In i (s_run_list s') -> exists r, get_run s' i = Ok (Some r) /\ r_id r = i) /\
    (forall i, ~ In i (s_run_list s') -> get_run s' i = Ok None) /\
    StronglySorted string_lt (s_channels s') /\
    (forall c, In c (s_channels s') <-> exists i r, get_run s' i = Ok (Some r) /\ has_channel r c = true).
Proof.
  intros rs s' U E. rewrite <- add_runs_steps in E.
  assert (F : Forall run_ok rs) by (eapply Forall_impl; [|exact U]; apply user_run_keyed).
  destruct (add_runs_list rs new_station s' consistent_new F E) as [((ND & HK) & HL & HC) L].
  cbn [new_station s_run_list app] in L.
  assert (GET : forall i r, sget i (s_runs s') = Some r <-> get_run s' i = Ok (Some r)).
  { intros i r. unfold get_run, has_run. rewrite HL. split.
    - intros S. rewrite (proj2 (smem_In i _)); [now rewrite S|]. apply dget_In in S. unfold dkeys.
      apply in_map_iff. exists (i, r). auto.
    - destruct (smem i _); [|discriminate]. destruct (sget i (s_runs s')); [|discriminate]. congruence. }
  split; [auto|]. split; [rewrite HL; auto|]. split; [|split; [|split]].
  - intros i I. rewrite HL in I. destruct (sget i (s_runs s')) as [r|] eqn:S; [|apply dget_None in S; contradiction].
    exists r. split; [now apply GET|]. apply HK. now apply dget_In in S.
  - intros i N. unfold get_run, has_run. now rewrite (proj2 (smem_nIn i _) N).
  - rewrite HC. apply estimate_sorted.
  - intros c. rewrite HC, estimate_spec. split.
    + intros (r & I & C). unfold dvals in I. apply in_map_iff in I. destruct I as ([i x] & <- & I).
      exists i, x. split; auto. apply GET. now apply In_dget.
    + intros (i & r & G & C). apply GET in G. apply dget_In in G. exists r. split; auto. unfold dvals.
      apply in_map_iff. exists (i, r). auto.
Qed.

(** A run added under a new id is stored as it is; under an existing id the stored run is updated; no
    other run changes. *)
Theorem C25_add_run_effect :
  forall s r s', consistent s -> user_run r -> add_run s r true = Ok s' ->
    (forall i, i <> r_id r -> sget i (s_runs s') = sget i (s_runs s)) /\
    (sget (r_id r) (s_runs s) = None -> sget (r_id r) (s_runs s') = Some r) /\
    (forall old, sget (r_id r) (s_runs s) = Some old ->
       exists new, update_run old r = Ok new /\ sget (r_id r) (s_runs s') = Some new) /\
    consistent s'.
Proof.
  intros s r s' HC U E. pose proof (user_run_keyed r U) as K.
  destruct (add_run_inv s r HC K s' E) as (n & _ & _ & N1 & N2 & D & _). rewrite D.
  split; [|split; [|split]].
  - intros i N. now apply dget_dset_neq.
  - intros H. rewrite dget_dset_eq. f_equal. auto.
  - intros old H. exists n. split; auto. apply dget_dset_eq.
  - eapply add_run_consistent; eauto.
Qed.

Definition run_a : run := add_channel (add_channel (new_run "a") ex_chan true) hy_chan true.
Definition run_b : run := add_channel (new_run "b") ex_chan true.
Lemma run_a_user : user_run run_a. Proof. repeat constructor. Qed.
Lemma run_b_user : user_run run_b. Proof. repeat constructor. Qed.
Definition station_ab : station :=
  match station_steps new_station (map (fun r => AddRun r true) [run_a; run_b; run_a]) with
  | Ok s => s | Err _ => new_station end.
Example C25_add_runs_hyp :
  Forall user_run [run_a; run_b; run_a] /\
  station_steps new_station (map (fun r => AddRun r true) [run_a; run_b; run_a]) = Ok station_ab /\
  s_run_list station_ab = ["a"; "b"] /\ s_channels station_ab = ["ex"; "hy"].
Proof.
  split; [repeat constructor|]. split; [vm_compute; reflexivity|]. split; vm_compute; reflexivity.
Qed.
Lemma station_ab_consistent : consistent station_ab.
Proof.
  apply (add_runs_list [run_a; run_b; run_a] new_station station_ab consistent_new).
  - apply Forall_forall. intros r [<-|[<-|[<-|[]]]]; apply user_run_keyed; [apply run_a_user|apply run_b_user|apply run_a_user].
  - vm_compute. reflexivity.
Qed.

(* ================================================================ C24 *)

(** Removing a run from a station whose lists agree with its runs: the run is gone, [run_list] lists
    the remaining ids in order, and every run but the first remaining one is untouched.  If every
    channel of the removed run is also in another run, then all of them are untouched and the
    recorded channels agree with the runs. *)
Theorem C24_remove_run_partial :
  forall s i s', consistent s -> In i (s_run_list s) -> remove_run s i true = Ok s' ->
    s_run_list s' = filter (fun j => negb (String.eqb j i)) (s_run_list s) /\
    map fst (s_runs s') = s_run_list s' /\
    get_run s' i = Ok None /\
    (forall j, j <> i -> hd_error (s_run_list s') <> Some j -> sget j (s_runs s') = sget j (s_runs s)) /\
    ((forall r c, sget i (s_runs s) = Some r -> has_channel r c = true ->
        exists j r', j <> i /\ sget j (s_runs s) = Some r' /\ has_channel r' c = true) ->
     (forall j, j <> i -> sget j (s_runs s') = sget j (s_runs s)) /\ consistent s').
Proof.
  intros s i s' HC I E. pose proof HC as ((ND & HK) & HL & HCH). rewrite HL in I.
  destruct (remove_run_inv s i s' HC I E) as (D1 & D2 & _ & D3 & D4).
  assert (KS : dkeys (sdel i (s_runs s)) = filter (fun j => negb (String.eqb j i)) (dkeys (s_runs s))).
  { clear - ND. induction (s_runs s) as [|[a b] d IH]; auto. cbn [ddel dkeys map fst filter] in *.
    inversion ND as [|? ? Hn ND']; subst. destruct (string_dec i a) as [->|N].
    - rewrite String.eqb_refl. cbn [negb]. fold (dkeys d). symmetry. clear - Hn.
      change (map fst d) with (dkeys d) in Hn. induction (dkeys d) as [|x l IHl]; auto. cbn [filter].
      destruct (String.eqb_spec x a) as [->|N]; [exfalso; apply Hn; now left|]. cbn [negb]. f_equal.
      apply IHl. intros H. apply Hn. now right.
    - destruct (String.eqb_spec a i); [congruence|]. cbn [negb dkeys map fst]. f_equal. now apply IH. }
  assert (GONE : ~ In i (dkeys (sdel i (s_runs s)))).
  { rewrite In_dkeys_sdel by auto. tauto. }
  split; [rewrite D2, D1, KS, HL; auto|]. split; [now rewrite D2|].
  split; [unfold get_run, has_run; rewrite D2, D1, (proj2 (smem_nIn i _) GONE); reflexivity|].
  set (lf := with_runs s (sdel i (s_runs s))) in *.
  split.
  - intros j N NF. destruct (incl_dec (s_channels s) (estimate lf)) as [INC|NINC].
    + destruct (D3 INC) as [-> _]. now apply dget_ddel_neq.
    + specialize (D4 NINC). rewrite <- (dget_ddel_neq string_dec j i (s_runs s) N).
      destruct (sdel i (s_runs s)) as [|[a r0] rest].
      * destruct D4 as [-> _]. reflexivity.
      * destruct D4 as (r0' & E1 & _). rewrite E1. cbn [dget]. destruct (string_dec j a) as [->|]; auto.
        exfalso. apply NF. rewrite D2, E1. reflexivity.
  - intros ALL.
    assert (INC : incl (s_channels s) (estimate lf)).
    { rewrite HCH. intros c Hc. apply estimate_spec in Hc. destruct Hc as (r & Ir & Hr). unfold dvals in Ir.
      apply in_map_iff in Ir. destruct Ir as ([j x] & <- & Ij). cbn in Hr. apply estimate_spec.
      assert (EX : exists j' r', j' <> i /\ sget j' (s_runs s) = Some r' /\ has_channel r' c = true).
      { destruct (string_dec j i) as [->|N].
        - apply (ALL x c); auto. apply In_dget; auto.
        - exists j, x. split; auto. split; auto. apply In_dget; auto. }
      destruct EX as (j' & r' & N' & S' & C'). exists r'. split; auto. unfold lf, dvals. cbn.
      rewrite <- (dget_ddel_neq string_dec j' i (s_runs s) N') in S'. apply dget_In in S'.
      apply in_map_iff. exists (j', r'). auto. }
    destruct (D3 INC) as [R C]. split; [intros j N; rewrite R; now apply dget_ddel_neq|].
    split; [|split; auto]. rewrite R. split; [now apply NoDup_ddel|].
    intros a b H. apply HK. now apply In_ddel in H.
Qed.
Example C24_remove_run_partial_hyp :
  exists s', consistent station_ab /\ In "b" (s_run_list station_ab) /\ remove_run station_ab "b" true = Ok s' /\
    (forall r c, sget "b" (s_runs station_ab) = Some r -> has_channel r c = true ->
        exists j r', j <> "b" /\ sget j (s_runs station_ab) = Some r' /\ has_channel r' c = true).
Proof.
  eexists. split; [apply station_ab_consistent|]. split; [right; now left|]. split; [vm_compute; reflexivity|].
  intros r c S H. exists "a". eexists. split; [discriminate|]. split; [vm_compute; reflexivity|].
  vm_compute in S. injection S as <-. apply smem_In in H. vm_compute in H. destruct H as [<-|[]]. reflexivity.
Qed.

(** Removing the only run that has a channel makes that channel reappear in the first remaining run. *)
Theorem C24_phantom_channel_refuted :
  ~ (forall s i s' j, consistent s -> In i (s_run_list s) -> remove_run s i true = Ok s' -> j <> i ->
       sget j (s_runs s') = sget j (s_runs s)).
Proof.
  intros H. destruct (remove_run station_ab "a" true) as [s'|] eqn:E; [|vm_compute in E; discriminate].
  specialize (H station_ab "a" s' "b" station_ab_consistent (or_introl eq_refl) E ltac:(discriminate)).
  vm_compute in E. injection E as <-. vm_compute in H. discriminate.
Qed.
(** In general: whenever a channel of the removed run is in no other run and a run remains. *)
Theorem C24_phantom_channel_always :
  forall s i r c s' j, consistent s -> sget i (s_runs s) = Some r -> has_channel r c = true -> slower c = c ->
    (forall k r', k <> i -> sget k (s_runs s) = Some r' -> has_channel r' c = false) ->
    remove_run s i true = Ok s' -> hd_error (s_run_list s') = Some j ->
    exists r', get_run s' j = Ok (Some r') /\ has_channel r' c = true.
Proof.
  intros s i r c s' j HC S C LOW NONE E HD. pose proof HC as ((ND & HK) & HL & HCH).
  assert (I : In i (dkeys (s_runs s))).
  { apply dget_In in S. unfold dkeys. apply in_map_iff. exists (i, r). auto. }
  destruct (remove_run_inv s i s' HC I E) as (D1 & D2 & _ & D3 & D4).
  set (lf := with_runs s (sdel i (s_runs s))) in *.
  assert (INS : In c (s_channels s)).
  { rewrite HCH. apply estimate_spec. exists r. split; auto. unfold dvals. apply in_map_iff. exists (i, r).
    split; auto. now apply dget_In in S. }
  assert (NIN : ~ In c (estimate lf)).
  { intros X. apply estimate_spec in X. destruct X as (x & Ix & Cx). unfold lf, dvals in Ix. cbn in Ix.
    apply in_map_iff in Ix. destruct Ix as ([k y] & <- & Ik). cbn in Cx.
    assert (K : k <> i).
    { intros ->. destruct (proj1 (In_dkeys_sdel (s_runs s) i i ND)) as [NE _]; [|congruence].
      unfold dkeys. apply in_map_iff. exists (i, y). auto. }
    rewrite (NONE k y K) in Cx; [discriminate|]. apply In_dget; auto. now apply In_ddel in Ik. }
  assert (NINC : ~ incl (s_channels s) (estimate lf)) by (intros X; apply NIN, X, INS).
  specialize (D4 NINC).
  destruct (sdel i (s_runs s)) as [|[a r0] rest] eqn:DD.
  - destruct D4 as [R _]. rewrite D2, R in HD. discriminate.
  - destruct D4 as (r0' & R & _ & P). rewrite D2, R in HD. cbn in HD. injection HD as <-.
    assert (K0 : keyed (r_channels r0)).
    { apply (HK a r0). apply (In_ddel (s_runs s) i). rewrite DD. now left. }
    destruct (add_phantoms_adds _ _ _ _ K0 P) as (K' & _ & A). exists r0'. split.
    + unfold get_run, has_run. rewrite D2, R. cbn [dkeys map fst]. rewrite (proj2 (smem_In a _)) by (now left).
      cbn [dget]. destruct (string_dec a a); [auto|congruence].
    + apply has_channel_keys; auto. rewrite <- LOW. apply A; auto.
Qed.
Example C24_phantom_channel_always_hyp :
  exists r s', consistent station_ab /\ sget "a" (s_runs station_ab) = Some r /\ has_channel r "hy" = true /\
    slower "hy" = "hy" /\ remove_run station_ab "a" true = Ok s' /\ hd_error (s_run_list s') = Some "b" /\
    (forall k r', k <> "a" -> sget k (s_runs station_ab) = Some r' -> has_channel r' "hy" = false).
Proof.
  do 2 eexists. split; [apply station_ab_consistent|]. do 5 (split; [vm_compute; reflexivity|]).
  intros k r' N S. change (s_runs station_ab) with [("a", match sget "a" (s_runs station_ab) with Some x => x | None => run_a end); ("b", run_b)] in S.
  cbn [dget] in S. destruct (string_dec k "a"); [contradiction|]. destruct (string_dec k "b"); [|discriminate].
  injection S as <-. reflexivity.
Qed.

(** Removing the only run of a station leaves the recorded channels as they were ... *)
Theorem C24_recorded_after_last_run_refuted :
  ~ (forall s i s', consistent s -> In i (s_run_list s) -> remove_run s i true = Ok s' -> consistent s').
Proof.
  intros H.
  destruct (add_run new_station run_a true) as [s|] eqn:E1; [|vm_compute in E1; discriminate].
  assert (C1 : consistent s).
  { apply (add_run_consistent new_station run_a); [apply consistent_new|apply (user_run_keyed _ run_a_user)|auto]. }
  vm_compute in E1. injection E1 as <-.
  match type of C1 with consistent ?s0 =>
    destruct (remove_run s0 "a" true) as [s'|] eqn:E; [|vm_compute in E; discriminate] end.
  specialize (H _ "a" s' C1 (or_introl eq_refl) E). vm_compute in E. injection E as <-.
  destruct H as (_ & _ & H). vm_compute in H. discriminate.
Qed.
(** ... and the next run added then receives channels it never had. *)
Theorem C25_add_after_removal_refuted :
  ~ (forall s1 i r s2 s3, consistent s1 -> user_run r -> remove_run s1 i true = Ok s2 -> add_run s2 r true = Ok s3 ->
       get_run s2 (r_id r) = Ok None -> get_run s3 (r_id r) = Ok (Some r)).
Proof.
  intros H.
  destruct (add_run new_station run_a true) as [s|] eqn:E1; [|vm_compute in E1; discriminate].
  assert (C1 : consistent s).
  { apply (add_run_consistent new_station run_a); [apply consistent_new|apply (user_run_keyed _ run_a_user)|auto]. }
  vm_compute in E1. injection E1 as <-.
  match type of C1 with consistent ?s0 =>
    destruct (remove_run s0 "a" true) as [s2|] eqn:E; [|vm_compute in E; discriminate] end.
  pose proof E as E'. vm_compute in E'. injection E' as <-.
  match type of E with _ = Ok ?s0 =>
    destruct (add_run s0 run_b true) as [s3|] eqn:F; [|vm_compute in F; discriminate];
    assert (G : get_run s0 (r_id run_b) = Ok None) by (vm_compute; reflexivity) end.
  specialize (H _ "a" run_b _ s3 C1 run_b_user E F G).
  vm_compute in F. injection F as <-. vm_compute in H. discriminate.
Qed.

(** Removing a run can raise: the phantom channel is made from the name alone, and an auxiliary
    component may have a name that an electric channel must not have. *)
Theorem C24_remove_raises_refuted :
  ~ (forall s i, consistent s -> In i (s_run_list s) -> exists s', remove_run s i true = Ok s').
Proof.
  intros H.
  set (odd := add_channel (new_run "c") (mkChan Auxiliary "e temp" default_period "") true).
  assert (U : user_run odd) by repeat constructor.
  destruct (add_run station_ab odd true) as [s|] eqn:E; [|vm_compute in E; discriminate].
  destruct (H s "c") as (s' & X).
  - eapply add_run_consistent; [apply station_ab_consistent|apply (user_run_keyed _ U)|exact E].
  - vm_compute in E. injection E as <-. cbn. tauto.
  - vm_compute in E. injection E as <-. vm_compute in X. discriminate.
Qed.

(* ================================================================ C69 *)

(** [sort_runs_by_time] raises for every station that has a run. *)
Theorem C69_sort_runs_by_time_refuted :
  forall s i r, get_run s i = Ok (Some r) -> sort_runs_by_time s = Err AttributeError.
Proof.
  intros s i r. unfold get_run, sort_runs_by_time. destruct (has_run s i); [|discriminate].
  destruct (s_runs s); [discriminate|auto].
Qed.
Example C69_hyp : exists r, get_run station_ab "a" = Ok (Some r).
Proof. eexists. vm_compute. reflexivity. Qed.

(* ================================================================ C70 *)

(** Adding a station to a survey that has it already ([MetadataBase.update]) loses no run. *)
Theorem C70_update_keeps_runs :
  forall s other s' i, station_update s other = Ok s' -> In i (dkeys (s_runs s)) -> In i (dkeys (s_runs s')).
Proof. intros s other s' i E. exact (station_update_incl _ _ _ E i). Qed.
Definition station_b : station :=
  match add_run new_station run_b true with Ok s => s | Err _ => new_station end.
Lemma station_b_consistent : consistent station_b.
Proof.
  apply (add_run_consistent new_station run_b); [apply consistent_new|apply (user_run_keyed _ run_b_user)|].
  vm_compute. reflexivity.
Qed.
Example C70_update_keeps_runs_hyp :
  exists s', station_update station_b station_ab = Ok s' /\ In "b" (dkeys (s_runs station_b)).
Proof. eexists. split; [vm_compute; reflexivity|]. vm_compute. tauto. Qed.

(** Not so: the runs of the other station arrive.  Only their names do, with empty runs. *)
Theorem C70_runs_arrive_refuted :
  ~ (forall s other s' i r, consistent s -> consistent other -> station_update s other = Ok s' ->
       get_run s i = Ok None -> get_run other i = Ok (Some r) -> get_run s' i = Ok (Some r)).
Proof.
  intros H. destruct (station_update station_b station_ab) as [s'|] eqn:E; [|vm_compute in E; discriminate].
  destruct (get_run station_ab "a") as [[r|]|] eqn:R; [|vm_compute in R; discriminate|vm_compute in R; discriminate].
  assert (N : get_run station_b "a" = Ok None) by (vm_compute; reflexivity).
  specialize (H station_b station_ab s' "a" r station_b_consistent station_ab_consistent E N R).
  vm_compute in E. injection E as <-. vm_compute in R. injection R as <-. vm_compute in H. discriminate.
Qed.
(** Not so: a run keeps its channels.  A channel recorded only by the other station is added to the
    first run of this one. *)
Theorem C70_runs_unchanged_refuted :
  ~ (forall s other s' i r, consistent s -> consistent other -> station_update s other = Ok s' ->
       get_run s i = Ok (Some r) -> exists r', get_run s' i = Ok (Some r') /\ dkeys (r_channels r') = dkeys (r_channels r)).
Proof.
  intros H. destruct (station_update station_b station_ab) as [s'|] eqn:E; [|vm_compute in E; discriminate].
  destruct (get_run station_b "b") as [[r|]|] eqn:R; [|vm_compute in R; discriminate|vm_compute in R; discriminate].
  destruct (H station_b station_ab s' "b" r station_b_consistent station_ab_consistent E R) as (r' & G & K).
  vm_compute in E. injection E as <-. vm_compute in R. injection R as <-. vm_compute in G. injection G as <-.
  vm_compute in K. discriminate.
Qed.

Print Assumptions C22_history.
Print Assumptions C23_station.
Print Assumptions C24_remove_run_partial.
Print Assumptions C25_add_runs.
Print Assumptions C70_update_keeps_runs.
Print Assumptions C70_runs_arrive_refuted.
Print Assumptions C70_runs_unchanged_refuted.
