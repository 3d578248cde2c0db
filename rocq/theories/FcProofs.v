(** Lemmas about Fourier coefficient metadata. *)
From Coq Require Import Permutation.
From Verif Require Import PyBase PyFacts ContainerModel ContainerProofs FcModel FcSpec.
Open Scope Z_scope.

(* ---------------------------------------------------------------- lengths *)

Lemma valid_iff len ov m n :
  is_valid_length len ov m n = true <-> len + (m - 1) * (len - ov) <= n.
Proof.
  unfold is_valid_length, num_samples_advance. destruct (Z.ltb_spec n (len + (m - 1) * (len - ov))); split; intros; try discriminate; lia.
Qed.

(* ---------------------------------------------------------------- periods *)

Lemma set_children (l : list period) c :
  In c (filter (fun p => negb (is_default (p_start p))) l) <-> In c l /\ p_start c <> default_time.
Proof.
  rewrite filter_In, negb_true_iff. split; intros [I H]; split; auto.
  - intros E. apply is_default_iff in E. congruence.
  - destruct (is_default (p_start c)) eqn:D; [apply is_default_iff in D; contradiction|reflexivity].
Qed.

Lemma period_covers own l c :
  In c l -> p_start c <> default_time -> covers (fc_update_period own l) c.
Proof.
  intros I N. assert (J := proj2 (set_children l c) (conj I N)). unfold fc_update_period, covers.
  set (set := filter _ l) in *. clearbody set. clear I N. cbn [p_start p_end]. split.
  - destruct (map p_start set) as [|x r] eqn:E; [destruct set; [contradiction|discriminate]|].
    assert (K : In (p_start c) (x :: r)) by (rewrite <- E; now apply in_map).
    destruct (zmin_spec r x) as (A & B & _).
    assert (M : zmin x r <= p_start c) by (destruct K as [<-|K]; auto).
    destruct (is_default (p_start own)); [exact M|]. destruct (Z.ltb_spec (p_start own) (zmin x r)); simpl; lia.
  - destruct (map p_end set) as [|x r] eqn:E; [destruct set; [contradiction|discriminate]|].
    assert (K : In (p_end c) (x :: r)) by (rewrite <- E; now apply in_map).
    destruct (zmax_spec r x) as (A & B & _).
    assert (M : p_end c <= zmax x r) by (destruct K as [<-|K]; auto).
    destruct (is_default (p_end own)); [exact M|]. destruct (Z.ltb_spec (p_end own) (zmax x r)); lia.
Qed.

Lemma period_tight own l :
  (p_start (fc_update_period own l) = p_start own \/
   exists c, In c l /\ p_start c <> default_time /\ p_start (fc_update_period own l) = p_start c) /\
  (p_end (fc_update_period own l) = p_end own \/
   exists c, In c l /\ p_start c <> default_time /\ p_end (fc_update_period own l) = p_end c).
Proof.
  unfold fc_update_period. pose proof (set_children l) as SC. set (set := filter _ l) in *. clearbody set.
  cbn [p_start p_end]. split.
  - destruct (map p_start set) as [|x r] eqn:E; [now left|].
    destruct (zmin_spec r x) as (_ & _ & A). rewrite <- E in A. apply in_map_iff in A.
    destruct A as (c & Ec & Ic). apply SC in Ic. destruct Ic as [Ic Nc].
    destruct (is_default (p_start own)); [right; exists c; auto|].
    destruct (p_start own <? zmin x r); simpl; [now left|right; exists c; auto].
  - destruct (map p_end set) as [|x r] eqn:E; [now left|].
    destruct (zmax_spec r x) as (_ & _ & A). rewrite <- E in A. apply in_map_iff in A.
    destruct A as (c & Ec & Ic). apply SC in Ic. destruct Ic as [Ic Nc].
    destruct (is_default (p_end own)); [right; exists c; auto|].
    destruct (p_end own <? zmax x r); simpl; [right; exists c; auto|now left].
Qed.

Lemma period_grows own l :
  (p_start own <> default_time -> p_start (fc_update_period own l) <= p_start own) /\
  (p_end own <> default_time -> p_end own <= p_end (fc_update_period own l)).
Proof.
  unfold fc_update_period. set (set := filter _ l). clearbody set. cbn [p_start p_end]. split; intros N.
  - destruct (map p_start set) as [|x r]; [lia|].
    destruct (is_default (p_start own)) eqn:D; [apply is_default_iff in D; contradiction|].
    destruct (Z.ltb_spec (p_start own) (zmin x r)); simpl; lia.
  - destruct (map p_end set) as [|x r]; [lia|].
    destruct (is_default (p_end own)) eqn:D; [apply is_default_iff in D; contradiction|].
    destruct (Z.ltb_spec (p_end own) (zmax x r)); simpl; lia.
Qed.

(* ---------------------------------------------------------------- names and objects *)

Lemma listed_keys {A} names (d : dict A) : listed names d <-> forall k, In k names <-> In k (dkeys d).
Proof.
  unfold listed, dkeys. split; intros H k; rewrite H; split.
  - intros [v I]. apply in_map_iff. exists (k, v). auto.
  - intros I. apply in_map_iff in I. destruct I as ([k' v] & E & I). simpl in E. subst. eauto.
  - intros I. apply in_map_iff in I. destruct I as ([k' v] & E & I). simpl in E. subst. eauto.
  - intros [v I]. apply in_map_iff. exists (k, v). auto.
Qed.

Lemma sget_in {A} (d : dict A) k : In k (dkeys d) -> exists v, sget k d = Some v.
Proof.
  intros I. destruct (sget k d) eqn:E; [eauto|]. apply dget_None in E. contradiction.
Qed.

Lemma in_keys_sset {A} (d : dict A) k v a : In a (dkeys (sset k v d)) <-> a = k \/ In a (dkeys d).
Proof.
  induction d as [|[x y] d IH]; simpl; [intuition|].
  destruct (string_dec k x) as [->|N]; simpl; [intuition|]. rewrite IH. intuition.
Qed.

Lemma fold_blank_keys names : forall (d : dict fchan) a,
  In a (dkeys (fold_left (fun acc n => sset n (blank_chan n) acc) names d)) <-> In a names \/ In a (dkeys d).
Proof.
  induction names as [|n names IH]; intros d a; simpl; [intuition|].
  rewrite IH, in_keys_sset. intuition.
Qed.
Lemma fold_blank_get names : forall (d : dict fchan) a, ~ In a names ->
  sget a (fold_left (fun acc n => sset n (blank_chan n) acc) names d) = sget a d.
Proof.
  induction names as [|n names IH]; intros d a N; simpl; [reflexivity|].
  rewrite IH by (intros I; apply N; now right). apply dget_dset_neq. intros ->. apply N. now left.
Qed.
Lemma fold_blank_new names : forall (d : dict fchan) a, In a names ->
  sget a (fold_left (fun acc n => sset n (blank_chan n) acc) names d) = Some (blank_chan a).
Proof.
  induction names as [|n names IH]; intros d a I; simpl; [contradiction|].
  destruct (in_dec string_dec a names) as [J|J]; [now apply IH|].
  rewrite fold_blank_get by exact J. destruct I as [->|I]; [|contradiction]. apply dget_dset_eq.
Qed.

Lemma in_sdiff a b x : In x (nodup string_dec (sdiff a b)) <-> In x a /\ ~ In x b.
Proof. unfold sdiff. rewrite nodup_In, filter_In, negb_true_iff, smem_nIn. reflexivity. Qed.

Section Order.
  Variable set_order : list string -> list string.
  Hypothesis order_perm : forall l, Permutation l (set_order l).
  Lemma in_order l x : In x (set_order l) <-> In x l.
  Proof. split; apply Permutation_in; [apply Permutation_sym|]; apply order_perm. Qed.

  Lemma sync_listed d : listed (fd_estimated (fd_sync set_order d)) (fd_channels (fd_sync set_order d)).
  Proof.
    apply listed_keys. intros k. unfold fd_sync. cbn [fd_estimated fd_channels].
    rewrite in_app_iff, fold_blank_keys, !in_order, !in_sdiff.
    destruct (in_dec string_dec k (fd_estimated d)), (in_dec string_dec k (dkeys (fd_channels d))); tauto.
  Qed.
  Lemma sync_get d k ch : sget k (fd_channels d) = Some ch -> sget k (fd_channels (fd_sync set_order d)) = Some ch.
  Proof.
    intros H. unfold fd_sync. cbn [fd_channels]. rewrite fold_blank_get; [exact H|].
    rewrite in_order, in_sdiff. intros [_ N]. apply N. apply dget_In in H.
    apply in_map_iff. exists (k, ch). auto.
  Qed.
  Lemma sync_blank d k : In k (fd_estimated d) -> ~ In k (dkeys (fd_channels d)) ->
    sget k (fd_channels (fd_sync set_order d)) = Some (blank_chan k).
  Proof.
    intros I N. unfold fd_sync. cbn [fd_channels]. apply fold_blank_new. rewrite in_order, in_sdiff. auto.
  Qed.
  Lemma sync_nodup d : NoDup (fd_estimated d) -> NoDup (fd_estimated (fd_sync set_order d)).
  Proof.
    intros ND. unfold fd_sync. cbn [fd_estimated].
    set (e := nodup string_dec (sdiff (dkeys (fd_channels d)) (fd_estimated d))).
    assert (NE : NoDup (set_order e)) by (eapply Permutation_NoDup; [apply order_perm|apply NoDup_nodup]).
    assert (Dj : forall x, In x (set_order e) -> ~ In x (fd_estimated d)).
    { intros x X. rewrite in_order in X. unfold e in X. rewrite in_sdiff in X. tauto. }
    clearbody e. clear order_perm. induction (fd_estimated d) as [|y l IH]; simpl; [exact NE|].
    inversion ND; subst. constructor.
    - rewrite in_app_iff. intros [I|I]; [contradiction|]. apply (Dj y I). now left.
    - apply IH; [assumption|]. intros x X I. apply (Dj x X). now right.
  Qed.
  Lemma sync_keeps d k : In k (fd_estimated d) -> In k (fd_estimated (fd_sync set_order d)).
  Proof. intros I. unfold fd_sync. cbn [fd_estimated]. apply in_or_app. auto. Qed.
End Order.

Lemma in_remove_first x l k : NoDup l -> (In k (remove_first x l) <-> In k l /\ k <> x).
Proof.
  induction l as [|y l IH]; simpl; intros ND; [tauto|]. inversion ND as [|? ? N ND']; subst.
  destruct (string_dec x y) as [->|Ne].
  - split; [intros I; split; [auto|congruence]|]. intros [[->|I] H]; [congruence|exact I].
  - simpl. rewrite IH by exact ND'. split.
    + intros [->|[I H]]; auto.
    + intros [[->|I] H]; auto.
Qed.
Lemma nodup_remove_first x l : NoDup l -> NoDup (remove_first x l).
Proof.
  induction l as [|y l IH]; simpl; intros ND; [constructor|]. inversion ND as [|? ? N ND']; subst.
  destruct (string_dec x y); [exact ND'|]. constructor; [|auto]. rewrite in_remove_first by exact ND'. tauto.
Qed.

(* ---------------------------------------------------------------- FC *)

Section FCFacts.
  Context {L : Type}.
  Variable lid : L -> string.
  Variable lper : L -> period.
  Variable lupd : L -> L -> L.
  Variable lblank : string -> L.
  Notation fc := (fc L).
  Notation fc_add := (fc_add lid lper lupd).
  Notation fc_remove := (fc_remove lper).
  Notation fc_sync := (fc_sync lblank).

  (** The state kept by every history without repeated names. *)
  Definition good (f : fc) : Prop :=
    NoDup (c_names f) /\ NoDup (dkeys (c_levels f)) /\ forall k, In k (c_names f) <-> In k (dkeys (c_levels f)).

  Lemma fc_get_good f k : good f ->
    fc_get f k = Ok (sget k (c_levels f)).
  Proof.
    intros (_ & _ & S). unfold fc_get, fc_has. destruct (smem k (c_names f)) eqn:M.
    - apply smem_In, S, sget_in in M. destruct M as [v ->]. reflexivity.
    - apply smem_nIn in M. rewrite S in M. apply (dget_None string_dec) in M. now rewrite M.
  Qed.

  Lemma fc_add_good f l : good f ->
    exists f', fc_add f l = Ok f' /\ good f' /\ (forall k, In k (c_names f') <-> k = lid l \/ In k (c_names f)) /\
      sget (lid l) (c_levels f') = Some (match sget (lid l) (c_levels f) with Some old => lupd old l | None => l end) /\
      forall k, k <> lid l -> sget k (c_levels f') = sget k (c_levels f).
  Proof.
    intros G. pose proof G as (N1 & N2 & S). unfold fc_add, fc_has. destruct (smem (lid l) (c_names f)) eqn:M.
    - apply smem_In in M. apply S in M as M'. destruct (sget_in _ _ M') as [old ->].
      eexists. split; [reflexivity|]. unfold fc_period_update. cbn [c_names c_levels]. split; [|split; [|split]].
      + split; [exact N1|]. split; [now apply NoDup_dset|]. intros k. cbn [c_names c_levels]. rewrite in_keys_sset, S. intuition (subst; auto).
      + intros k. intuition (subst; auto).
      + now rewrite dget_dset_eq.
      + intros k K. now apply dget_dset_neq.
    - apply smem_nIn in M. rewrite S in M. pose proof M as M'. apply (dget_None string_dec) in M'. rewrite M'.
      eexists. split; [reflexivity|]. unfold fc_period_update. cbn [c_names c_levels]. split; [|split; [|split]].
      + split; [apply NoDup_snoc; [exact N1|rewrite S; exact M]|]. split; [now apply NoDup_dset|].
        intros k. cbn [c_names c_levels]. rewrite in_app_iff, in_keys_sset, S. simpl. intuition.
      + intros k. rewrite in_app_iff. simpl. intuition.
      + now rewrite dget_dset_eq.
      + intros k K. now apply dget_dset_neq.
  Qed.

  Lemma fc_remove_good f k : good f ->
    exists f', fc_remove f k = Ok f' /\ good f' /\ (forall j, In j (c_names f') <-> In j (c_names f) /\ j <> k) /\
      sget k (c_levels f') = None /\ forall j, j <> k -> sget j (c_levels f') = sget j (c_levels f).
  Proof.
    intros G. pose proof G as (N1 & N2 & S). unfold fc_remove, fc_has. destruct (smem k (c_names f)) eqn:M.
    - apply smem_In in M. apply S in M as M'. rewrite (proj2 (dmem_true string_dec k (c_levels f)) M').
      eexists. split; [reflexivity|]. unfold fc_period_update. cbn [c_names c_levels]. split; [|split; [|split]].
      + split; [now apply nodup_remove_first|]. split; [now apply NoDup_ddel|]. intros j. cbn [c_names c_levels].
        rewrite in_remove_first by exact N1. rewrite S, In_dkeys_sdel by exact N2. tauto.
      + intros j. now apply in_remove_first.
      + now apply dget_ddel_eq.
      + intros j J. now apply dget_ddel_neq.
    - apply smem_nIn in M. eexists. split; [reflexivity|]. unfold fc_period_update. cbn [c_names c_levels].
      split; [exact G|]. split; [|split].
      + intros j. split; [|tauto]. intros I. split; [exact I|]. intros ->. contradiction.
      + apply dget_None. now rewrite <- S.
      + reflexivity.
  Qed.

  Lemma blanks_keys names : forall (d : dict L) a,
    In a (dkeys (fold_left (fc_add_blank lblank) names d)) <-> In a names \/ In a (dkeys d).
  Proof.
    induction names as [|n names IH]; intros d a; simpl; [intuition|]. rewrite IH. unfold fc_add_blank.
    destruct (smem n (dkeys d)) eqn:M.
    - apply smem_In in M. intuition (subst; auto).
    - rewrite in_keys_sset. intuition.
  Qed.
  Lemma blanks_nodup names : forall (d : dict L), NoDup (dkeys d) -> NoDup (dkeys (fold_left (fc_add_blank lblank) names d)).
  Proof.
    induction names as [|n names IH]; intros d ND; simpl; [exact ND|]. apply IH. unfold fc_add_blank.
    destruct (smem n (dkeys d)); [exact ND|now apply NoDup_dset].
  Qed.
  Lemma blanks_get names : forall (d : dict L) a v, sget a d = Some v ->
    sget a (fold_left (fc_add_blank lblank) names d) = Some v.
  Proof.
    induction names as [|n names IH]; intros d a v H; simpl; [exact H|]. apply IH. unfold fc_add_blank.
    destruct (smem n (dkeys d)) eqn:M; [exact H|]. rewrite dget_dset_neq; [exact H|].
    intros ->. apply smem_nIn in M. apply M. apply dget_In in H. apply in_map_iff. exists (n, v). auto.
  Qed.
  Lemma blanks_new names : forall (d : dict L) a, In a names -> ~ In a (dkeys d) ->
    sget a (fold_left (fc_add_blank lblank) names d) = Some (lblank a).
  Proof.
    induction names as [|n names IH]; intros d a I N; [contradiction|]. simpl.
    destruct (string_dec a n) as [->|Ne].
    - apply blanks_get. unfold fc_add_blank. rewrite (proj2 (smem_nIn n (dkeys d)) N). apply dget_dset_eq.
    - apply IH.
      + destruct I as [E|I]; [congruence|exact I].
      + unfold fc_add_blank. destruct (smem n (dkeys d)); [exact N|]. rewrite in_keys_sset. intuition.
  Qed.
  Lemma add_names keys : forall names a,
    In a (fold_left (fun acc n => if smem n acc then acc else (acc ++ [n])%list) keys names) <-> In a names \/ In a keys.
  Proof.
    induction keys as [|k keys IH]; intros names a; simpl; [intuition|]. rewrite IH.
    destruct (smem k names) eqn:M.
    - apply smem_In in M. intuition (subst; auto).
    - rewrite in_app_iff. simpl. intuition.
  Qed.
  Lemma add_names_nodup keys : forall names, NoDup names ->
    NoDup (fold_left (fun acc n => if smem n acc then acc else (acc ++ [n])%list) keys names).
  Proof.
    induction keys as [|k keys IH]; intros names ND; simpl; [exact ND|]. apply IH.
    destruct (smem k names) eqn:M; [exact ND|]. apply NoDup_snoc; [exact ND|]. now apply smem_nIn.
  Qed.

  Lemma fc_sync_listed f : forall k, In k (c_names (fc_sync f)) <-> In k (dkeys (c_levels (fc_sync f))).
  Proof.
    intros k. unfold fc_sync. cbn [c_names c_levels]. rewrite add_names, blanks_keys. tauto.
  Qed.
  Lemma fc_sync_names f k : In k (c_names (fc_sync f)) <-> In k (c_names f) \/ In k (dkeys (c_levels f)).
  Proof. unfold fc_sync. cbn [c_names]. rewrite add_names, blanks_keys. tauto. Qed.
  Lemma fc_sync_good f : NoDup (c_names f) -> NoDup (dkeys (c_levels f)) -> good (fc_sync f).
  Proof.
    intros A B. split; [|split].
    - unfold fc_sync. cbn [c_names]. now apply add_names_nodup.
    - unfold fc_sync. cbn [c_levels]. now apply blanks_nodup.
    - apply fc_sync_listed.
  Qed.

  Lemma good_new : good new_fc.
  Proof. split; [constructor|]. split; [constructor|]. reflexivity. Qed.

  Lemma fc_step_good f o : good f -> no_repeats o -> good (fc_step lid lper lupd lblank f o).
  Proof.
    intros G H. destruct o as [l|k|names|]; cbn [fc_step].
    - destruct (fc_add_good f l G) as (f' & -> & G' & _). exact G'.
    - destruct (fc_remove_good f k G) as (f' & -> & G' & _). exact G'.
    - apply fc_sync_good; [exact H|apply G].
    - apply fc_sync_good; apply G.
  Qed.
  Lemma fc_run_good ops : Forall no_repeats ops -> good (fc_run lid lper lupd lblank ops).
  Proof.
    unfold fc_run. generalize good_new. generalize (@new_fc L) as f. induction ops as [|o ops IH]; intros f G H; simpl; [exact G|].
    inversion H; subst. apply IH; [now apply fc_step_good|assumption].
  Qed.
  Lemma good_keys f k : good f -> In k (c_names f) <-> exists v, sget k (c_levels f) = Some v.
  Proof.
    intros (_ & _ & S). rewrite S. split; [apply sget_in|]. intros [v H]. apply dget_In in H.
    apply in_map_iff. exists (k, v). auto.
  Qed.
  Lemma fc_step_present f o k (P : Prop) : good f -> no_repeats o -> (In k (c_names f) <-> P) ->
    (In k (c_names (fc_step lid lper lupd lblank f o)) <-> present_step lid k P o).
  Proof.
    intros G H I. destruct o as [l|j|names|]; cbn [fc_step present_step].
    - destruct (fc_add_good f l G) as (f' & -> & _ & N & _). rewrite N, I. intuition.
    - destruct (fc_remove_good f j G) as (f' & -> & _ & N & _). rewrite N, I. intuition.
    - rewrite fc_sync_names. cbn [c_names c_levels]. destruct G as (_ & _ & S). rewrite <- S, I. reflexivity.
    - rewrite fc_sync_names. destruct G as (_ & _ & S). rewrite <- S, I. tauto.
  Qed.
  Lemma fc_run_present ops k : Forall no_repeats ops ->
    (In k (c_names (fc_run lid lper lupd lblank ops)) <-> present lid k ops).
  Proof.
    unfold fc_run, present. assert (E : In k (c_names (@new_fc L)) <-> False) by reflexivity.
    revert E. generalize good_new. generalize (@new_fc L) as f. generalize False as P.
    induction ops as [|o ops IH]; intros P f G E H; simpl; [exact E|]. inversion H; subst.
    apply IH; [now apply fc_step_good|now apply fc_step_present|assumption].
  Qed.
End FCFacts.
