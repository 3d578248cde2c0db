(** Fourier coefficient metadata: C41, C42, C76. *)
From Coq Require Import Permutation.
From Verif Require Import PyBase PyFacts ContainerModel ContainerProofs FcModel FcSpec FcProofs.
Open Scope Z_scope.

(* ---------------------------------------------------------------- C41 *)

(** At least one window asked for, windows not advancing backwards: the series is accepted exactly when
    all the windows fit. *)
Theorem C41_valid_iff_windows_fit : forall len overlap m n,
  1 <= m -> overlap <= len ->
  (is_valid_length len overlap m n = true <-> windows_fit len (len - overlap) n m).
Proof.
  intros len ov m n M O. rewrite valid_iff. unfold windows_fit, window_fits. split.
  - intros H k K. split; [nia|]. assert (k * (len - ov) <= (m - 1) * (len - ov)) by nia. lia.
  - intros H. destruct (H (m - 1)); lia.
Qed.

(** Counted: with a positive advance, [(n - len) / advance + 1] windows fit into a series of at least one
    window, and the minimum is compared with that number. *)
Theorem C41_number_of_windows : forall len overlap m n,
  overlap < len -> len <= n ->
  (is_valid_length len overlap m n = true <-> m <= (n - len) / (len - overlap) + 1).
Proof.
  intros len ov m n O N. rewrite valid_iff.
  assert (P : 0 < len - ov) by lia. split; intros H.
  - assert ((m - 1) <= (n - len) / (len - ov)) by (apply Z.div_le_lower_bound; nia). lia.
  - assert (E := Z.mul_div_le (n - len) (len - ov) P). nia.
Qed.

(** Longer series stay valid; asking for more windows never makes a series valid. *)
Theorem C41_monotone : forall len overlap m m' n n',
  overlap <= len -> n <= n' -> m' <= m ->
  is_valid_length len overlap m n = true -> is_valid_length len overlap m' n' = true.
Proof. intros len ov m m' n n' O N M. rewrite !valid_iff. intros H. nia. Qed.

(** With no window required (the default) a short series is still refused. *)
Theorem C41_no_window_required_refuted : exists len overlap n,
  0 < overlap < len /\ 0 <= n /\ windows_fit len (len - overlap) n 0 /\ is_valid_length len overlap 0 n = false.
Proof.
  exists 256, 32, 10. split; [lia|]. split; [lia|]. split; [intros k K; lia|reflexivity].
Qed.
(** With windows overlapping by more than their length an empty series is accepted. *)
Theorem C41_overlap_too_long_refuted : exists len overlap m,
  1 <= m /\ 0 < len /\ is_valid_length len overlap m 0 = true /\ ~ windows_fit len (len - overlap) 0 m.
Proof.
  exists 10, 30, 3. split; [lia|]. split; [lia|]. split; [reflexivity|]. intros H. destruct (H 0); lia.
Qed.
Example C41_hyp : is_valid_length 256 32 4 928 = true /\ is_valid_length 256 32 4 927 = false /\
  (928 - 256) / (256 - 32) + 1 = 4.
Proof. repeat split. Qed.

(* ---------------------------------------------------------------- C42: channels *)

(** A channel that is not yet listed is stored but neither reported nor returned, and cannot be removed. *)
Theorem C42_added_channel_not_reported : forall d ch d',
  ~ In (fch_comp ch) (fd_estimated d) -> fd_add d ch = Ok d' ->
  fd_has d' (fch_comp ch) = false /\ fd_get d' (fch_comp ch) = Ok None /\
  sget (fch_comp ch) (fd_channels d') = Some ch /\
  exists d'', fd_remove d' (fch_comp ch) = Ok d'' /\ sget (fch_comp ch) (fd_channels d'') = Some ch.
Proof.
  intros d ch d' N H. assert (M : smem (fch_comp ch) (fd_estimated d) = false) by now apply smem_nIn.
  unfold fd_add, fd_has in H. rewrite M in H. injection H as <-.
  unfold fd_get, fd_remove, fd_has, fd_update_period, with_fd_channels. cbn [fd_estimated fd_channels]. rewrite M.
  repeat split; [apply dget_dset_eq|]. eexists. split; [reflexivity|]. cbn [fd_channels]. apply dget_dset_eq.
Qed.
Theorem C42_added_channel_present_refuted : exists d ch d',
  fd_add d ch = Ok d' /\ fd_has d' (fch_comp ch) = false.
Proof.
  exists (mkFcdec [] [] default_period), (blank_chan "ex"). eexists. split; reflexivity.
Qed.

(** The next assignment of any attribute lists it: from then on it is found, as it was added. *)
Theorem C42_found_after_an_assignment : forall set_order d ch d',
  (forall l, Permutation l (set_order l)) ->
  ~ In (fch_comp ch) (fd_estimated d) -> fd_add d ch = Ok d' ->
  fd_has (fd_sync set_order d') (fch_comp ch) = true /\
  fd_get (fd_sync set_order d') (fch_comp ch) = Ok (Some ch).
Proof.
  intros so d ch d' P N H. destruct (C42_added_channel_not_reported d ch d' N H) as (_ & _ & G & _).
  apply (sync_get so P) in G as G'.
  assert (I : smem (fch_comp ch) (fd_estimated (fd_sync so d')) = true).
  { apply smem_In. apply (sync_listed so P d'). exists ch. now apply dget_In in G'. }
  unfold fd_get, fd_has. rewrite I, G'. auto.
Qed.

(** Any assignment brings the list of names and the channels together, keeping every channel that was there
    and every name that was listed, and making an empty channel for a name without one. *)
Theorem C42_assignment_synchronises : forall set_order d,
  (forall l, Permutation l (set_order l)) ->
  let d' := fd_sync set_order d in
  listed (fd_estimated d') (fd_channels d') /\
  (forall k ch, sget k (fd_channels d) = Some ch -> sget k (fd_channels d') = Some ch) /\
  (forall k, In k (fd_estimated d) -> In k (fd_estimated d')) /\
  (forall k, In k (fd_estimated d) -> sget k (fd_channels d) = None -> sget k (fd_channels d') = Some (blank_chan k)) /\
  (NoDup (fd_estimated d) -> NoDup (fd_estimated d')).
Proof.
  intros so d P d'. subst d'. split; [now apply sync_listed|]. split; [intros; now apply sync_get|].
  split; [intros; now apply sync_keeps|]. split; [|now apply sync_nodup].
  intros k I N. apply sync_blank; auto. now apply dget_None in N.
Qed.

(** A listed channel is merged: what is set in the new one replaces the old, the rest stays. *)
Theorem C42_listed_channel_updated : forall d ch,
  listed (fd_estimated d) (fd_channels d) -> In (fch_comp ch) (fd_estimated d) ->
  exists d' old, fd_add d ch = Ok d' /\ sget (fch_comp ch) (fd_channels d) = Some old /\
    fd_get d' (fch_comp ch) = Ok (Some (fchan_update old ch)) /\
    (forall k, k <> fch_comp ch -> fd_get d' k = fd_get d k) /\
    listed (fd_estimated d') (fd_channels d').
Proof.
  intros d ch S I. pose proof (proj1 (listed_keys _ _) S) as S'. destruct (sget_in _ _ (proj1 (S' _) I)) as [old G].
  assert (M : smem (fch_comp ch) (fd_estimated d) = true) by now apply smem_In.
  exists (fd_update_period (with_fd_channels d (sset (fch_comp ch) (fchan_update old ch) (fd_channels d)))), old.
  unfold fd_add, fd_get, fd_has. rewrite M, G. split; [reflexivity|]. split; [reflexivity|].
  unfold fd_update_period, with_fd_channels. cbn [fd_estimated fd_channels]. split; [|split].
  - now rewrite M, dget_dset_eq.
  - intros k K. rewrite dget_dset_neq by exact K. reflexivity.
  - apply listed_keys. intros k. rewrite in_keys_sset, S'. intuition (subst; auto). now apply S'.
Qed.

(** Removing a listed channel removes it and nothing else, when the names are listed once. *)
Theorem C42_remove_channel : forall d c,
  listed (fd_estimated d) (fd_channels d) -> NoDup (fd_estimated d) -> NoDup (map fst (fd_channels d)) ->
  In c (fd_estimated d) ->
  exists d', fd_remove d c = Ok d' /\ fd_has d' c = false /\ fd_get d' c = Ok None /\
    (forall k, k <> c -> fd_get d' k = fd_get d k) /\
    listed (fd_estimated d') (fd_channels d') /\ S (length (fd_channels d')) = length (fd_channels d).
Proof.
  intros d c S ND NK I. pose proof (proj1 (listed_keys _ _) S) as S'.
  assert (M : smem c (fd_estimated d) = true) by now apply smem_In.
  exists (fd_update_period (mkFcdec (remove_first c (fd_estimated d)) (sdel c (fd_channels d)) (fd_period d))).
  unfold fd_remove, fd_has. rewrite M. rewrite (proj2 (dmem_true string_dec c (fd_channels d)) (proj1 (S' c) I)).
  split; [reflexivity|]. unfold fd_get, fd_has, fd_update_period. cbn [fd_estimated fd_channels].
  assert (M' : smem c (remove_first c (fd_estimated d)) = false).
  { apply smem_nIn. rewrite in_remove_first by exact ND. tauto. }
  rewrite M'. split; [reflexivity|]. split; [reflexivity|]. split; [|split].
  - intros k K. rewrite dget_ddel_neq by exact K.
    replace (smem k (remove_first c (fd_estimated d))) with (smem k (fd_estimated d)); [reflexivity|].
    destruct (smem k (fd_estimated d)) eqn:E; symmetry.
    + apply smem_In in E. apply smem_In. rewrite in_remove_first by exact ND. auto.
    + apply smem_nIn in E. apply smem_nIn. rewrite in_remove_first by exact ND. tauto.
  - apply listed_keys. intros k. rewrite in_remove_first by exact ND. rewrite S'.
    rewrite In_dkeys_sdel by exact NK. tauto.
  - pose proof (proj1 (S' c) I) as K. clear - K. induction (fd_channels d) as [|[a b] l IH]; [contradiction|].
    simpl. destruct (string_dec c a); [reflexivity|]. simpl. f_equal. apply IH. simpl in K. destruct K as [E|K]; [congruence|exact K].
Qed.
(** A name listed twice survives its removal: it is still reported, and asking for it raises KeyError. *)
Theorem C42_repeated_name_refuted : exists set_order d d',
  (forall l, Permutation l (set_order l)) /\
  d = fd_assign_estimated set_order (mkFcdec [] [] default_period) ["ex"; "ex"]%string /\
  fd_remove d "ex" = Ok d' /\ fd_has d' "ex" = true /\ fd_get d' "ex" = Err KeyError.
Proof.
  exists (fun l => l). eexists. eexists. split; [reflexivity|]. split; [reflexivity|]. split; [vm_compute; reflexivity|].
  split; reflexivity.
Qed.

Example C42_hyp : let d := fd_assign_estimated (fun l => rev l) (mkFcdec [] [] default_period) ["hy"; "ex"]%string in
  listed (fd_estimated d) (fd_channels d) /\ NoDup (fd_estimated d) /\ length (fd_channels d) = 2%nat /\
  NoDup (map fst (fd_channels d)).
Proof.
  split; [apply C42_assignment_synchronises; intros; apply Permutation_rev|].
  split; [|split]; [vm_compute|reflexivity|vm_compute]; repeat constructor; simpl; intuition discriminate.
Qed.

(* ---------------------------------------------------------------- C42: levels of an FC *)

(** After any history of additions, removals and assignments (no name repeated within one assignment) the
    listed levels are those that were added or named and not removed since, and each can be fetched. *)
Theorem C42_levels_history : forall L (lid : L -> string) lper lupd lblank history k,
  Forall no_repeats history ->
  let f := fc_run lid lper lupd lblank history in
  (fc_has f k = true <-> present lid k history) /\
  (present lid k history -> exists l, fc_get f k = Ok (Some l)) /\
  (~ present lid k history -> fc_get f k = Ok None).
Proof.
  intros L lid lper lupd lblank h k H f. assert (G := fc_run_good lid lper lupd lblank h H).
  assert (P := fc_run_present lid lper lupd lblank h k H). fold f in G, P.
  unfold fc_has at 1. rewrite smem_In. split; [exact P|]. rewrite (fc_get_good f k G).
  rewrite <- P. rewrite (good_keys f k G). split.
  - intros [v ->]. eauto.
  - intros N. destruct (sget k (c_levels f)) eqn:E; [exfalso; apply N; eauto|reflexivity].
Qed.

(** The level just added is the one returned (merged into the one it replaces), all others are untouched. *)
Theorem C42_level_added : forall L (lid : L -> string) lper lupd lblank history l,
  Forall no_repeats history ->
  let f := fc_run lid lper lupd lblank history in
  exists f', fc_add lid lper lupd f l = Ok f' /\ fc_has f' (lid l) = true /\
    fc_get f' (lid l) = Ok (Some (match fc_get f (lid l) with Ok (Some old) => lupd old l | _ => l end)) /\
    (forall k, k <> lid l -> fc_get f' k = fc_get f k) /\
    fc_count f' = (if fc_has f (lid l) then fc_count f else S (fc_count f)).
Proof.
  intros L lid lper lupd lblank h l H f. assert (G := fc_run_good lid lper lupd lblank h H). fold f in G.
  destruct (fc_add_good lid lper lupd lblank f l G) as (f' & E & G' & N & A & O). exists f'. split; [exact E|].
  split; [unfold fc_has; apply smem_In, N; now left|].
  rewrite !(fc_get_good _ _ G'), (fc_get_good _ _ G), A. split; [reflexivity|]. split.
  - intros k K. rewrite (fc_get_good _ _ G'), (fc_get_good _ _ G), O; auto.
  - clear - E G. destruct G as (_ & _ & S). unfold fc_add in E. unfold fc_count, fc_has in *.
    destruct (smem (lid l) (c_names f)) eqn:M.
    + destruct (sget (lid l) (c_levels f)) eqn:E'; [|discriminate]. injection E as <-. cbn.
      apply dset_same_len. apply S. now apply smem_In.
    + injection E as <-. cbn. apply smem_nIn in M. rewrite S in M. rewrite dset_notin by exact M.
      rewrite app_length. simpl. lia.
Qed.

(** Removing a level removes exactly it. *)
Theorem C42_level_removed : forall L (lid : L -> string) lper lupd lblank history k,
  Forall no_repeats history ->
  let f := fc_run lid lper lupd lblank history in
  exists f', fc_remove lper f k = Ok f' /\ fc_has f' k = false /\ fc_get f' k = Ok None /\
    forall j, j <> k -> fc_get f' j = fc_get f j.
Proof.
  intros L lid lper lupd lblank h k H f. assert (G := fc_run_good lid lper lupd lblank h H). fold f in G.
  destruct (fc_remove_good lid lper lupd lblank f k G) as (f' & E & G' & N & A & O). exists f'. split; [exact E|].
  split; [unfold fc_has; apply smem_nIn; rewrite N; tauto|].
  rewrite (fc_get_good _ _ G'), A. split; [reflexivity|].
  intros j J. rewrite (fc_get_good _ _ G'), (fc_get_good _ _ G), O; auto.
Qed.

(** A name repeated in an assignment survives the removal of its level. *)
Theorem C42_repeated_level_refuted : exists f : fc string,
  f = fc_run (fun s => s) (fun _ => default_period) (fun _ s => s) (fun s => s)
        [OpAssign ["1"; "1"]%string; OpRemove "1"%string] /\
  fc_has f "1" = true /\ fc_get f "1" = Err KeyError.
Proof. eexists. split; [reflexivity|]. split; vm_compute; reflexivity. Qed.

Example C42_levels_hyp : exists history : list (@fc_op string),
  Forall no_repeats history /\ present (fun s => s) "2"%string history /\ ~ present (fun s => s) "1"%string history /\
  length history = 4%nat.
Proof.
  exists [OpAdd "1"; OpAssign ["2"; "3"]; OpTouch; OpRemove "1"]%string. split; [|split; [|split]].
  - repeat constructor; simpl; intuition discriminate.
  - unfold present. simpl. split; [discriminate|]. auto.
  - unfold present. simpl. intuition.
  - reflexivity.
Qed.

(* ---------------------------------------------------------------- C76 *)

(** After an update the period covers every child that has a start time... *)
Theorem C76_covers : forall own children c,
  In c children -> p_start c <> default_time -> covers (fc_update_period own children) c.
Proof. exact period_covers. Qed.
(** ... is no longer than it has to be ... *)
Theorem C76_tight : forall own children,
  let p := fc_update_period own children in
  (p_start p = p_start own \/ exists c, In c children /\ p_start c <> default_time /\ p_start p = p_start c) /\
  (p_end p = p_end own \/ exists c, In c children /\ p_start c <> default_time /\ p_end p = p_end c).
Proof. exact period_tight. Qed.
(** ... and never loses a time that was set. *)
Theorem C76_never_shrinks : forall own children,
  let p := fc_update_period own children in
  (p_start own <> default_time -> p_start p <= p_start own) /\ (p_end own <> default_time -> p_end own <= p_end p).
Proof. exact period_grows. Qed.
(** A child whose end is set but whose start is not is left outside. *)
Theorem C76_end_without_start_refuted : exists own c,
  p_end c <> default_time /\ ~ p_end c <= p_end (fc_update_period own [c]).
Proof.
  exists default_period, (mkPeriod default_time (default_time + 1)). split; [discriminate|]. vm_compute. intros H. now apply H.
Qed.
(** Both kinds of parent use it when a child is added. *)
Theorem C76_parents : forall L (lid : L -> string) lper lupd (f f' : fc L) l d d' ch k x,
  (fc_add lid lper lupd f l = Ok f' -> sget k (c_levels f') = Some x -> p_start (lper x) <> default_time ->
   covers (c_period f') (lper x)) /\
  (forall y, fd_add d ch = Ok d' -> sget k (fd_channels d') = Some y -> p_start (fch_period y) <> default_time ->
   covers (fd_period d') (fch_period y)).
Proof.
  assert (V : forall A (m : dict A) k v, sget k m = Some v -> In v (dvals m)).
  { intros A m k v H. apply dget_In in H. unfold dvals. apply in_map_iff. exists (k, v). auto. }
  intros L lid lper lupd f f' l d d' ch k x. split.
  - intros E G N. unfold fc_add in E. destruct (fc_has f (lid l)); [destruct (sget (lid l) (c_levels f)); [|discriminate]|];
    injection E as <-; unfold fc_period_update in *; cbn [c_levels c_period] in *; apply period_covers; auto; apply in_map; eauto.
  - intros y E G N. unfold fd_add in E. destruct (fd_has d (fch_comp ch)); [destruct (sget (fch_comp ch) (fd_channels d)); [|discriminate]|];
    injection E as <-; unfold fd_update_period in *; cbn [fd_channels fd_period] in *; apply period_covers; auto; apply in_map; eauto.
Qed.
Example C76_hyp : let c := mkPeriod (default_time + 5) (default_time + 9) in
  p_start c <> default_time /\ fc_update_period (mkPeriod (default_time + 7) (default_time + 8)) [default_period; c] = c.
Proof. split; [discriminate|reflexivity]. Qed.

Print Assumptions C41_valid_iff_windows_fit.
Print Assumptions C41_number_of_windows.
Print Assumptions C42_assignment_synchronises.
Print Assumptions C42_remove_channel.
Print Assumptions C42_levels_history.
Print Assumptions C42_level_added.
Print Assumptions C42_level_removed.
Print Assumptions C76_covers.
Print Assumptions C76_parents.
