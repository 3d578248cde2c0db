(** Lemmas for C99: epochs as they are read. *)
From Coq Require Import QArith.
From Verif Require Import PyBase PyText PyNum PyFacts TextFacts ContainerModel ContainerSpec ContainerProofs FdsnModel SxmlModel EpochModel EpochSpec EpochProofs ValidatorsProofs.
Local Open Scope Z_scope.
Local Open Scope list_scope.

Lemma str_inj a b : str a = str b -> a = b.
Proof. intros E. apply (f_equal list_ascii_of_string) in E. unfold str in E. now rewrite !list_ascii_of_string_of_list_ascii in E. Qed.

(** ** The period of a run that gets channels of its own period *)
Lemma zmin_same x l : Forall (fun y => y = x) l -> zmin x l = x.
Proof. intros F. destruct (zmin_spec l x) as (_ & _ & [H|H]); [congruence|]. rewrite Forall_forall in F. now apply F. Qed.
Lemma zmax_same x l : Forall (fun y => y = x) l -> zmax x l = x.
Proof. intros F. destruct (zmax_spec l x) as (_ & _ & [H|H]); [congruence|]. rewrite Forall_forall in F. now apply F. Qed.
Lemma filter_same (t : Z) l : Forall (fun y => y = t) l -> Forall (fun y => y = t) (filter (fun y => negb (is_default y)) l).
Proof. intros F. apply Forall_forall. intros y Y. apply filter_In in Y. rewrite Forall_forall in F. now apply F. Qed.
Lemma update_period_same p l : Forall (fun q => q = p) l -> update_period p l = p.
Proof.
  intros F. unfold update_period.
  assert (FS : Forall (fun y => y = p_start p) (map p_start l)) by (apply Forall_map; eapply Forall_impl; [|exact F]; cbn; congruence).
  assert (FE : Forall (fun y => y = p_end p) (map p_end l)) by (apply Forall_map; eapply Forall_impl; [|exact F]; cbn; congruence).
  apply filter_same in FS. apply filter_same in FE.
  destruct p as [s e]. cbn [p_start p_end] in *. f_equal.
  - destruct (filter _ (map p_start l)) as [|x r]; [reflexivity|]. apply Forall_cons_iff in FS. destruct FS as [-> FS]. rewrite zmin_same by exact FS.
    destruct (is_default s); [reflexivity|]. destruct (negb _); reflexivity.
  - destruct (filter _ (map p_end l)) as [|x r]; [reflexivity|]. apply Forall_cons_iff in FE. destruct FE as [-> FE]. rewrite zmax_same by exact FE.
    destruct (is_default e); [reflexivity|]. destruct (e <? e); reflexivity.
Qed.
Lemma overwrite_same p : overwrite_period p p = p.
Proof. destruct p as [s e]. unfold overwrite_period, overwrite_time. cbn. destruct (is_default s), (is_default e); reflexivity. Qed.

Definition one_period (p : period) (d : dict chan) : Prop := forall k ch, In (k, ch) d -> ch_period ch = p.
Lemma add_dict_period p d ch : one_period p d -> ch_period ch = p -> one_period p (add_dict d ch).
Proof.
  intros O E k c H. unfold add_dict in H. apply In_dset in H. destruct H as [[-> ->]|H]; [|eapply O; eauto].
  destruct (sget (ch_comp ch) d) as [old|] eqn:G; [|exact E]. apply dget_In in G. apply O in G. unfold chan_update.
  destruct (kind_eqb _ _); [|exact G]. cbn [ch_period]. rewrite G, E. apply overwrite_same.
Qed.
Lemma add_channel_period r ch : keyed (r_channels r) -> one_period (r_period r) (r_channels r) -> ch_period ch = r_period r ->
  r_period (add_channel r ch true) = r_period r.
Proof.
  intros K O E. assert (D := add_channel_dict r ch false K). unfold add_channel in *. cbv zeta in *.
  set (d := if has_channel r (ch_comp ch) then _ else _) in *. unfold run_update_period. cbn [r_channels update_recorded with_channels] in *.
  destruct d as [|kc d'] eqn:DD; [reflexivity|]. cbn [r_period with_run_period]. apply update_period_same.
  apply Forall_forall. intros q Q. apply in_map_iff in Q. destruct Q as (c & <- & C). unfold dvals in C. apply in_map_iff in C.
  destruct C as ([k c'] & E' & C). cbn in E'. subst c'. apply (add_dict_period _ _ _ O E k c). rewrite <- D. exact C.
Qed.

Section Read.
Variable info : epoch -> string.
(** Runs of which some channels were read: pairs of an epoch and a run. *)
Definition made (p : period) (done : list (epoch * string)) (i : string) (ch : chan) : Prop :=
  exists e ch0, In (e, i) done /\ read_channel info e = Ok ch0 /\ ch_kind ch = ch_kind ch0 /\ ch_comp ch = ch_comp ch0 /\ ch_info ch = info e /\ ch_period ch = p.
Record partly (done : list (epoch * string)) (i : string) (r0 r : run) : Prop := {
  p_id : r_id r = r_id r0;
  p_period : r_period r = r_period r0;
  p_keyed : keyed (r_channels r);
  p_made : forall k ch, In (k, ch) (r_channels r) -> made (r_period r0) done i ch;
  p_has : forall e ch, In (e, i) done -> read_channel info e = Ok ch -> In (ch_comp ch) (dkeys (r_channels r)) }.
Definition reading (s0 s : station) (done : list (epoch * string)) : Prop :=
  s_run_list s = s_run_list s0 /\ dkeys (s_runs s) = dkeys (s_runs s0) /\
  forall i r0, sget i (s_runs s0) = Some r0 -> exists r, sget i (s_runs s) = Some r /\ partly done i r0 r.

Lemma read_channel_info e ch : read_channel info e = Ok ch -> ch_info ch = info e.
Proof.
  unfold read_channel. destruct (kind_of_code _) as [k|]; [|discriminate]. destruct (create_mt_component _) as [c|]; [|discriminate]. cbn [bindR].
  destruct (make k _) as [x|]; [|discriminate]. cbn [bindR]. destruct (match e_comp e with [] => _ | _ => _ end) as [y|]; [|discriminate]. cbn [bindR].
  intros E. apply Ok_inj in E. now subst.
Qed.
Lemma partly_other done i j r0 r e : j <> i -> partly done j r0 r -> partly ((e, i) :: done) j r0 r.
Proof.
  intros N [A B C D E]. split; auto.
  - intros k ch H. destruct (D k ch H) as (e' & ch0 & I & R). exists e', ch0. split; [now right|exact R].
  - intros e' ch [H|H] R; [injection H as _ H; congruence|now apply (E e')].
Qed.
Lemma partly_step done i r0 r e ch : partly done i r0 r -> read_channel info e = Ok ch ->
  partly ((e, i) :: done) i r0 (add_channel r (mkChan (ch_kind ch) (ch_comp ch) (r_period r) (ch_info ch)) true).
Proof.
  intros [A B C D E] R. set (n := mkChan _ _ _ _).
  assert (O : one_period (r_period r) (r_channels r)).
  { intros k x H. destruct (D k x H) as (? & ? & _ & _ & _ & _ & _ & P). congruence. }
  assert (M : made (r_period r0) ((e, i) :: done) i n).
  { exists e, ch. split; [now left|]. split; [exact R|]. unfold n. cbn. repeat split; auto. now apply read_channel_info. }
  assert (old : forall k x, In (k, x) (r_channels r) -> made (r_period r0) ((e, i) :: done) i x).
  { intros k x H. destruct (D k x H) as (e' & ch0 & I & Q). exists e', ch0. split; [now right|exact Q]. }
  split.
  - now rewrite add_channel_id.
  - rewrite add_channel_period; auto.
  - rewrite add_channel_dict by exact C. now apply keyed_add_dict.
  - intros k x H. rewrite add_channel_dict in H by exact C. unfold add_dict in H. apply In_dset in H. destruct H as [[-> ->]|H]; [|eapply old; eauto].
    destruct (sget (ch_comp n) (r_channels r)) as [y|] eqn:G; [|exact M]. apply dget_In in G. unfold chan_update.
    destruct (kind_eqb (ch_kind y) (ch_kind n)) eqn:K; [|eapply old; eauto]. apply kind_eqb_iff in K.
    assert (Y := old _ _ G). assert (YC : ch_comp y = ch_comp n) by (apply C in G; exact G).
    assert (YP : ch_period y = r_period r) by (eapply O; eauto).
    assert (PP : overwrite_period (ch_period y) (ch_period n) = r_period r0) by (rewrite YP; unfold n; cbn [ch_period]; rewrite overwrite_same; exact B).
    unfold overwrite_info. destruct (String.eqb (ch_info n) "") eqn:IE.
    + destruct Y as (e' & ch0 & I & Q1 & Q2 & Q3 & Q4 & Q5). exists e', ch0. cbn. auto 10.
    + destruct M as (e' & ch0 & I & Q1 & Q2 & Q3 & Q4 & Q5). exists e', ch0. cbn. repeat split; auto; congruence.
  - intros e' ch' H R'. rewrite add_channel_dict by exact C. unfold add_dict.
    destruct H as [H|H].
    + injection H as <-. rewrite R in R'. apply Ok_inj in R'. subst ch'. unfold n. cbn [ch_comp]. apply dmem_true with (eqd := string_dec).
      unfold dmem. now rewrite dget_dset_eq.
    + specialize (E _ _ H R'). destruct (in_dec string_dec (ch_comp n) (dkeys (r_channels r))) as [I|I].
      * rewrite dkeys_dset_in; auto.
      * rewrite dset_notin by exact I. unfold dkeys in *. rewrite map_app. apply in_or_app. now left.
Qed.
Lemma put_in_run_step s0 s done e ch i : runs_ok (s_runs s0) -> s_run_list s0 = dkeys (s_runs s0) -> reading s0 s done ->
  read_channel info e = Ok ch -> In i (dkeys (s_runs s0)) ->
  exists s', put_in_run ch s i = Ok s' /\ reading s0 s' ((e, i) :: done).
Proof.
  intros RO RL (A & B & C) R I.
  assert (exists r0, sget i (s_runs s0) = Some r0) as [r0 G0].
  { destruct (sget i (s_runs s0)) eqn:G; [eauto|]. apply dget_None in G. contradiction. }
  destruct (C i r0 G0) as (r & G & P). unfold put_in_run, get_run, has_run.
  assert (H : smem i (s_run_list s) = true) by (apply smem_In; rewrite A, RL; exact I). rewrite H, G. cbn [bindR].
  eexists. split; [reflexivity|]. cbn [s_run_list s_runs with_runs]. split; [exact A|]. split.
  - cbn [s_runs with_runs]. rewrite dkeys_dset_in; [exact B|]. rewrite B. exact I.
  - intros j r1 G1. cbn [s_runs with_runs]. destruct (string_dec j i) as [->|N].
    + rewrite dget_dset_eq. eexists. split; [reflexivity|]. assert (r1 = r0) by congruence. subst r1. now apply partly_step.
    + rewrite dget_dset_neq by exact N. destruct (C j r1 G1) as (r2 & G2 & P2). exists r2. split; [exact G2|]. now apply partly_other.
Qed.
Lemma put_in_runs_steps s0 e ch ids : forall s done, runs_ok (s_runs s0) -> s_run_list s0 = dkeys (s_runs s0) -> reading s0 s done ->
  read_channel info e = Ok ch -> incl ids (dkeys (s_runs s0)) ->
  exists s', put_in_runs ch s ids = Ok s' /\ reading s0 s' (rev (map (pair e) ids) ++ done).
Proof.
  induction ids as [|i ids IH]; intros s done RO RL RD R I; cbn [put_in_runs map rev app].
  - exists s. split; [reflexivity|exact RD].
  - destruct (put_in_run_step s0 s done e ch i RO RL RD R (I i (or_introl eq_refl))) as (s1 & E & RD1). rewrite E. cbn [bindR].
    destruct (IH s1 _ RO RL RD1 R) as (s2 & E2 & RD2); [intros j J; apply I; now right|]. exists s2. split; [exact E2|]. now rewrite <- app_assoc.
Qed.
(** Epochs that can be read into the runs of a station. *)
Definition readable (ids : list string) (e : epoch) : Prop :=
  (exists ch, read_channel info e = Ok ch) /\ run_ids (e_comments e) <> [] /\ incl (run_ids (e_comments e)) ids.
Definition pairs_of (l : list epoch) : list (epoch * string) := flat_map (fun e => map (pair e) (run_ids (e_comments e))) l.
Lemma partly_ext d d' i r0 r : (forall x, In x d <-> In x d') -> partly d i r0 r -> partly d' i r0 r.
Proof.
  intros X [A B C D E]. split; auto.
  - intros k ch H. destruct (D k ch H) as (e & ch0 & I & Q). exists e, ch0. split; [now apply X|exact Q].
  - intros e ch H. apply (E e). now apply X.
Qed.
Lemma reading_ext s0 s d d' : (forall x, In x d <-> In x d') -> reading s0 s d -> reading s0 s d'.
Proof.
  intros X (A & B & C). split; [exact A|]. split; [exact B|]. intros i r0 G. destruct (C i r0 G) as (r & R & P). exists r. split; [exact R|].
  eapply partly_ext; eauto.
Qed.
Lemma read_epochs_steps s0 rates l : forall s done, runs_ok (s_runs s0) -> s_run_list s0 = dkeys (s_runs s0) -> reading s0 s done ->
  Forall (readable (dkeys (s_runs s0))) l ->
  exists s', read_epochs info (s, rates) l = Ok (s', rates) /\ reading s0 s' (pairs_of l ++ done).
Proof.
  induction l as [|e l IH]; intros s done RO RL RD F; cbn [read_epochs].
  - exists s. split; [reflexivity|exact RD].
  - apply Forall_cons_iff in F. destruct F as [((ch & R) & N & I) F]. unfold read_one. rewrite R. cbn [bindR].
    destruct (run_ids (e_comments e)) as [|i0 ids0] eqn:RI; [contradiction|].
    destruct (put_in_runs_steps s0 e ch (sorted (i0 :: ids0)) s done RO RL RD R) as (s1 & E1 & RD1).
    { intros j J. apply I. now apply (proj1 (In_sorted _ _)). }
    cbn [fst snd]. rewrite E1. cbn [bindR].
    destruct (IH s1 _ RO RL RD1 F) as (s2 & E2 & RD2). exists s2. split; [exact E2|].
    eapply reading_ext; [|exact RD2]. intros x. unfold pairs_of. cbn [flat_map]. rewrite RI. rewrite !in_app_iff, <- in_rev.
    assert (In x (map (pair e) (sorted (i0 :: ids0))) <-> In x (map (pair e) (i0 :: ids0))).
    { rewrite !in_map_iff. split; intros (y & Y & Z); exists y; (split; [exact Y|]); now apply In_sorted. }
    tauto.
Qed.
Lemma reading_start s0 : runs_ok (s_runs s0) -> (forall i r, In (i, r) (s_runs s0) -> r_channels r = []) -> reading s0 s0 [].
Proof.
  intros [ND RO] E. split; [reflexivity|]. split; [reflexivity|]. intros i r0 G. exists r0. split; [exact G|]. apply dget_In in G.
  split; [reflexivity|reflexivity|apply (RO _ _ G)| |].
  - intros k ch H. rewrite (E _ _ G) in H. destruct H.
  - intros e ch [].
Qed.
End Read.
