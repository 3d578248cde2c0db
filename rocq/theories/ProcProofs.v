(** Lemmas about decimation levels, their rates and their archives. *)
From Coq Require Import Permutation Sorted Qpower Qfield.
From Verif Require Import PyBase PyFacts PyNum BandModel BandSpec BandProofs ProcModel ProcSpec.
Local Open Scope Q_scope.

Lemma Ok_inj {A} (a b : A) : Ok a = Ok b -> a = b.
Proof. congruence. Qed.

Lemma Forall2_len {A B} (R : A -> B -> Prop) l m : Forall2 R l m -> length l = length m.
Proof. induction 1; simpl; congruence. Qed.
Lemma mapR_app {A B} (f : A -> result B) l1 l2 :
  mapR f (l1 ++ l2)%list = bindR (mapR f l1) (fun a => bindR (mapR f l2) (fun b => Ok (a ++ b)%list)).
Proof.
  induction l1 as [|x l1 IH]; simpl; [destruct (mapR f l2); reflexivity|].
  destruct (f x); simpl; [|reflexivity]. rewrite IH. destruct (mapR f l1); simpl; [|reflexivity].
  destruct (mapR f l2); reflexivity.
Qed.
Lemma mapR_map {A B C} (f : B -> result C) (g : A -> B) l : mapR f (map g l) = mapR (fun x => f (g x)) l.
Proof. induction l; simpl; [reflexivity|]. destruct (f (g a)); simpl; [|reflexivity]. now rewrite IHl. Qed.
Lemma mapR_ok {A B} (f : A -> result B) (g : A -> B) l :
  (forall x, In x l -> f x = Ok (g x)) -> mapR f l = Ok (map g l).
Proof.
  induction l as [|x l IH]; simpl; intros H; [reflexivity|].
  rewrite (H x) by auto. simpl. rewrite IH by auto. reflexivity.
Qed.
Lemma mapR_Forall2 {A B} (f : A -> result B) l r : mapR f l = Ok r -> Forall2 (fun x y => f x = Ok y) l r.
Proof.
  revert r. induction l as [|x l IH]; simpl; intros r H.
  - apply Ok_inj in H. subst. constructor.
  - destruct (f x) eqn:E; simpl in H; [|discriminate]. destruct (mapR f l); simpl in H; [|discriminate].
    apply Ok_inj in H. subst. constructor; auto.
Qed.
Lemma mapR_err {A B} (f : A -> result B) l e : mapR f l = Err e -> exists x, In x l /\ f x = Err e.
Proof.
  induction l as [|x l IH]; simpl; intros H; [discriminate|].
  destruct (f x) eqn:E; simpl in H.
  - destruct (mapR f l); simpl in H; [discriminate|].
    destruct IH as (y & I & Y); [congruence|]. eauto.
  - exists x. split; [auto|congruence].
Qed.

(* ---------------------------------------------------------------- decimations *)

Lemma objects_map {D} ls : objects (D:=D) (map EObj ls) = ls.
Proof. induction ls; simpl; congruence. Qed.
Lemma objects_dicts {D} (ds : list D) : objects (map EDict ds) = [].
Proof. induction ds; simpl; auto. Qed.

Lemma dict_snoc decs l : decimations_dict (decs ++ [l])%list = dset onat_dec (l_number l) l (decimations_dict decs).
Proof. unfold decimations_dict, dupdate. now rewrite map_app, fold_left_app. Qed.

Lemma dict_get decs k l :
  dget onat_dec (Some k) (decimations_dict decs) = Some l <-> last_numbered decs k l.
Proof.
  revert k l. induction decs as [|x decs IH] using rev_ind; intros k l.
  - split; [discriminate|]. intros (pre & post & E & _). destruct pre; discriminate.
  - rewrite dict_snoc, dget_dset. destruct (onat_dec (Some k) (l_number x)) as [E|N].
    + split.
      * intros H. injection H as <-. exists decs, []. repeat split; auto.
      * intros (pre & post & Eq & Nl & P). f_equal.
        destruct post as [|y post] using rev_ind.
        -- apply app_inj_tail in Eq. apply Eq.
        -- exfalso. rewrite app_comm_cons, app_assoc in Eq. apply app_inj_tail in Eq. destruct Eq as [_ ->].
           apply (P y); [apply in_or_app; right; now left|congruence].
    + rewrite IH. split; intros (pre & post & Eq & Nl & P).
      * exists pre, (post ++ [x])%list. rewrite Eq, <- app_assoc. repeat split; auto.
        intros y Y. apply in_app_or in Y. destruct Y as [Y|[<-|[]]]; auto.
      * destruct post as [|y post] using rev_ind.
        -- apply app_inj_tail in Eq. destruct Eq as [_ <-]. congruence.
        -- rewrite app_comm_cons, app_assoc in Eq. apply app_inj_tail in Eq. destruct Eq as [-> <-].
           exists pre, post. repeat split; auto. intros z Z. apply P. apply in_or_app. auto.
Qed.

Lemma dict_get_none decs k :
  dget onat_dec (Some k) (decimations_dict decs) = None <-> forall l, In l decs -> l_number l <> Some k.
Proof.
  induction decs as [|x decs IH] using rev_ind.
  - split; [intros _ l []|reflexivity].
  - rewrite dict_snoc, dget_dset. destruct (onat_dec (Some k) (l_number x)) as [E|N].
    + split; [discriminate|]. intros H. exfalso. apply (H x); [apply in_or_app; right; now left|auto].
    + rewrite IH. split; intros H l L.
      * apply in_app_or in L. destruct L as [L|[<-|[]]]; auto.
      * apply H. apply in_or_app. auto.
Qed.

Lemma last_numbered_in decs k l : last_numbered decs k l -> In l decs /\ l_number l = Some k.
Proof. intros (pre & post & -> & N & _). split; [apply in_or_app; right; now left|exact N]. Qed.

Lemma in_distinct_last decs l k :
  distinct_numbers decs -> In l decs -> l_number l = Some k -> last_numbered decs k l.
Proof.
  unfold distinct_numbers. intros ND I N. apply in_split in I. destruct I as (pre & post & ->).
  exists pre, post. repeat split; auto. intros x X E.
  rewrite map_app in ND. simpl in ND. apply NoDup_remove_2 in ND. apply ND.
  apply in_or_app. right. rewrite N, <- E. now apply in_map.
Qed.

Lemma distinct_last_twice ls l k :
  distinct_numbers ls -> In l ls -> l_number l = Some k -> last_numbered (ls ++ ls)%list k l.
Proof.
  intros ND I N. destruct (in_distinct_last ls l k ND I N) as (pre & post & E & _ & P).
  exists (ls ++ pre)%list, post. rewrite E at 2. rewrite <- app_assoc. auto.
Qed.

(* ---------------------------------------------------------------- rates *)

Lemma fc_loop_ok show : forall factors i current,
  (forall j d, nth_error factors j = Some d -> (i + j)%nat <> 0%nat -> ~ d == 0) ->
  exists ls, fc_loop show i current factors = Ok ls /\ length ls = length factors /\
    forall j d, nth_error factors j = Some d ->
      exists l, nth_error ls j = Some l /\ fc_number l = (i + j)%nat /\ fc_id l = show (i + j)%nat /\ fc_factor l = d /\
                fc_rate l == current / product (if Nat.eqb i 0 then firstn j (tl factors) else firstn (S j) factors).
Proof.
  induction factors as [|d r IH]; intros i current NZ.
  - exists []. repeat split. intros [|j] d; discriminate.
  - simpl. assert (St : exists sr, (if Nat.eqb i 0 then Ok (1 * current)
             else if Qeq_bool d 0 then Err ZeroDivisionError else Ok (current / d)) = Ok sr /\
             sr == (if Nat.eqb i 0 then current else current / d)).
    { destruct (Nat.eqb_spec i 0) as [->|N].
      - exists (1 * current). split; [reflexivity|ring].
      - assert (Hd : ~ d == 0) by (apply (NZ 0%nat d eq_refl); lia).
        destruct (Qeq_bool d 0) eqn:E; [apply Qeq_bool_iff in E; contradiction|].
        exists (current / d). split; reflexivity. }
    destruct St as (sr & -> & Hsr). cbn [bindR].
    destruct (IH (S i) sr) as (ls & -> & Len & Each).
    { intros j q Hj _. apply (NZ (S j) q Hj). lia. }
    cbn [bindR]. exists (mkFc i (show i) d sr :: ls). split; [reflexivity|]. split; [simpl; lia|].
    intros [|j] q Hj.
    + injection Hj as <-. eexists. split; [reflexivity|]. cbn [fc_number fc_id fc_factor fc_rate].
      rewrite Nat.add_0_r. repeat split. rewrite Hsr. destruct (Nat.eqb i 0); simpl firstn; unfold product; simpl fold_right.
      * unfold Qdiv. change (/ 1) with 1. ring.
      * unfold Qdiv. rewrite Qmult_1_r. reflexivity.
    + cbn [nth_error] in Hj. destruct (Each j q Hj) as (l & Hl & A & B & C & R).
      exists l. split; [exact Hl|]. rewrite A, B. rewrite <- Nat.add_succ_comm. repeat split; auto.
      rewrite R. change (Nat.eqb (S i) 0) with false. cbv iota. rewrite Hsr.
      destruct (Nat.eqb_spec i 0) as [->|N].
      * reflexivity.
      * change (firstn (S (S j)) (d :: r)) with (d :: firstn (S j) r). unfold product. cbn [fold_right].
        unfold Qdiv. rewrite Qinv_mult_distr. ring.
Qed.

Lemma qpow_0 d : qpow d 0 == 1.
Proof. reflexivity. Qed.
Lemma qpow_S d k : ~ d == 0 -> qpow d (S k) == d * qpow d k.
Proof.
  intros N. unfold qpow. rewrite Nat2Z.inj_succ. unfold Z.succ. rewrite Qpower_plus by exact N.
  simpl (d ^ 1). ring.
Qed.
Lemma qpow_nz d k : ~ d == 0 -> ~ qpow d k == 0.
Proof.
  intros N. induction k as [|k IH]; [discriminate|]. rewrite qpow_S by exact N.
  intros E. apply Qmult_integral in E. destruct E; contradiction.
Qed.
Lemma product_repeat d k : ~ d == 0 -> product (repeat d k) == qpow d k.
Proof.
  intros N. induction k as [|k IH]; [reflexivity|]. simpl repeat. unfold product in *. simpl fold_right.
  rewrite IH, qpow_S by exact N. reflexivity.
Qed.
Lemma firstn_repeat {A} (x : A) n k : (k <= n)%nat -> firstn k (repeat x n) = repeat x k.
Proof. revert n. induction k; intros [|n] L; simpl; auto; [lia|]. f_equal. apply IHk. lia. Qed.

Lemma qpow_pos d k : 0 < d -> 0 < qpow d k.
Proof.
  intros P. assert (N : ~ d == 0) by (intros E; rewrite E in P; discriminate).
  induction k as [|k IH]; [reflexivity|]. rewrite qpow_S by exact N. now apply Qmult_lt_0_compat.
Qed.

(** *** assign_bands *)

(** What one turn of the loop gives. *)
Definition assigned (k : nat) (rows : edges) (sample_rate : Q) (factors : list (nat * Q)) (w : window_arg)
    (n_levels : nat) (l : level) : Prop :=
  exists d sr n freqs bands,
    dget Nat.eq_dec k factors = Some d /\
    (sr == sample_rate / qpow d k /\ (k = 0%nat -> sr = sample_rate)) /\
    window_of w n_levels k = Ok n /\
    freqs = get_fft_harmonics n sr /\ n <> 0%nat /\ ~ sr == 0 /\
    mapR (make_band k freqs) rows = Ok bands /\
    l_bands l = bands /\ l_number l = Some k /\ t_factor (l_dec l) = d /\ t_rate (l_dec l) = sr /\
    w_samples (s_window (l_stft l)) = n.

Lemma assign_one_ok oid k rows sr0 factors w n l :
  assign_one oid k rows sr0 factors w n = Ok l -> assigned k rows sr0 factors w n l.
Proof.
  unfold assign_one, assigned. destruct (dget Nat.eq_dec k factors) as [d|] eqn:D; [|discriminate].
  destruct (match k with O => Ok sr0 | S _ => _ end) as [sr|] eqn:HS; cbn [bindR]; [|discriminate].
  destruct (window_of w n k) as [ws|] eqn:W; cbn [bindR]; [|discriminate].
  unfold freqs_of. destruct (Nat.eqb_spec ws 0) as [|Nw]; simpl orb; [discriminate|].
  destruct (Qeq_bool sr 0) eqn:Z; cbn [bindR]; [discriminate|].
  destruct (mapR _ rows) as [bands|] eqn:B; cbn [bindR]; [|discriminate].
  intros H. apply Ok_inj in H. subst l.
  exists d, sr, ws, (get_fft_harmonics ws sr), bands.
  assert (Zs : ~ sr == 0) by (intros E; apply Qeq_bool_iff in E; congruence).
  split; [reflexivity|]. split; [|repeat split; auto].
  destruct k as [|k].
  - apply Ok_inj in HS. subst sr. split; [|auto]. unfold qpow. simpl Qpower. unfold Qdiv. change (/ 1) with 1. ring.
  - destruct (Qeq_bool (qpow d (S k)) 0); [discriminate|]. apply Ok_inj in HS. subst sr. split; [reflexivity|discriminate].
Qed.

Lemma assign_loop_ok : forall ks be sr fs w n decs out,
  assign_loop ks be sr fs w n decs = (out, None) ->
  exists ls, out = (decs ++ ls)%list /\
    Forall2 (fun k l => exists rows, dget Nat.eq_dec k be = Some rows /\ assigned k rows sr fs w n l) ks ls.
Proof.
  induction ks as [|k ks IH]; intros be sr fs w n decs out H; cbn [assign_loop] in H.
  - injection H as <-. exists []. rewrite app_nil_r. split; [reflexivity|constructor].
  - destruct (dget Nat.eq_dec k be) as [rows|] eqn:R; [|discriminate].
    destruct (assign_one _ k rows sr fs w n) as [l|] eqn:A; [|discriminate].
    apply IH in H. destruct H as (ls & -> & F). exists (l :: ls). rewrite <- app_assoc. split; [reflexivity|].
    constructor; [|exact F]. exists rows. split; [exact R|]. eapply assign_one_ok; eauto.
Qed.

Lemma mapR_bands_edges k freqs rows bands :
  mapR (make_band k freqs) rows = Ok bands ->
  map (fun b => (f_min (lb_band b), f_max (lb_band b))) bands = rows /\
  Forall (fun b => lb_level b = k /\ set_indices (lb_band b) freqs = Ok (lb_lo b, lb_hi b)) bands.
Proof.
  intros H. apply mapR_Forall2 in H. induction H as [|e b rows bands E F [IH1 IH2]]; [split; [reflexivity|constructor]|].
  unfold make_band in E. destruct (set_indices _ freqs) as [[lo hi]|] eqn:S; simpl in E; [|discriminate].
  apply Ok_inj in E. subst b. split.
  - simpl. rewrite IH1. destruct e; reflexivity.
  - constructor; [|exact IH2]. cbn. auto.
Qed.

Lemma sort_leb_perm (l : list nat) : Permutation l (sort_by Nat.leb l).
Proof.
  induction l as [|x l IH]; simpl; [constructor|].
  transitivity (x :: sort_by Nat.leb l); [now constructor|].
  generalize (sort_by Nat.leb l). clear. intros l. induction l as [|y l IH]; simpl; [reflexivity|].
  destruct (Nat.leb x y); [reflexivity|]. transitivity (y :: x :: l); [constructor|now constructor].
Qed.
Lemma sort_leb_sorted (l : list nat) : StronglySorted le (sort_by Nat.leb l).
Proof.
  induction l as [|x l IH]; simpl; [constructor|].
  assert (G : forall l, StronglySorted le l -> StronglySorted le (insert_by Nat.leb x l)).
  { clear. induction l as [|y l IH]; simpl; intros S; [repeat constructor|].
    inversion S as [|? ? S' F]; subst. destruct (Nat.leb_spec x y) as [L|L].
    - constructor; [exact S|]. constructor; [exact L|]. eapply Forall_impl; [|exact F]. simpl. intros; lia.
    - constructor; [now apply IH|]. rewrite Forall_forall in *. intros z Z.
      assert (I : z = x \/ In z l).
      { clear - Z. induction l as [|a l IH]; simpl in Z; [intuition|].
        destruct (Nat.leb x a); simpl in Z; [simpl; intuition|]. simpl. intuition. }
      destruct I as [->|I]; [lia|auto]. }
  now apply G.
Qed.
Lemma sorted_seq : forall n a (l : list nat), StronglySorted le l -> Permutation l (seq a n) -> l = seq a n.
Proof.
  induction n as [|n IH]; intros a l Hs P.
  - apply Permutation_sym, Permutation_nil in P. exact P.
  - destruct l as [|x l]; [apply Permutation_nil in P; discriminate|].
    assert (x = a).
    { assert (I : In x (seq a (S n))) by (eapply Permutation_in; [exact P|now left]). apply in_seq in I.
      assert (J : In a (x :: l)) by (eapply Permutation_in; [apply Permutation_sym; exact P|now left]).
      destruct J as [E|J]; [auto|]. inversion Hs as [|? ? _ F]; subst. rewrite Forall_forall in F.
      specialize (F a J). lia. }
    subst x. simpl seq. f_equal. apply IH; [now inversion Hs|]. simpl in P. now apply Permutation_cons_inv in P.
Qed.

(* ---------------------------------------------------------------- EMTF rates *)

Definition emtf_factor (k : nat) : Q := match k with O => 1 | _ => 4 end.
Definition emtf_sr (r : Q) (k : nat) : Q := match k with O => r | _ => r / qpow 4 k end.
(** Two entries that are the same Python object agree on their number. *)
Definition objects_agree (decs : list level) : Prop :=
  forall x y, In x decs -> In y decs -> l_oid x = l_oid y -> l_number x = l_number y.

Lemma dict_map g decs k :
  (forall l, In l decs -> l_number (g l) = l_number l) ->
  dget onat_dec (Some k) (decimations_dict (map g decs)) =
  option_map g (dget onat_dec (Some k) (decimations_dict decs)).
Proof.
  induction decs as [|x decs IH] using rev_ind; intros H; [reflexivity|].
  rewrite map_app. simpl map. rewrite !dict_snoc, !dget_dset.
  rewrite H by (apply in_or_app; right; now left).
  destruct (onat_dec (Some k) (l_number x)); [reflexivity|]. apply IH. intros. apply H. apply in_or_app. auto.
Qed.

Lemma dget_dict_in decs k l :
  dget onat_dec (Some k) (decimations_dict decs) = Some l -> In l decs /\ l_number l = Some k.
Proof. intros H. apply dict_get in H. now apply last_numbered_in in H. Qed.

Lemma number_set_rate d sr l : l_number (set_rate d sr l) = l_number l.
Proof. reflexivity. Qed.

Lemma emtf_one_facts r decs j :
  objects_agree decs ->
  objects_agree (emtf_one r decs j) /\ map l_number (emtf_one r decs j) = map l_number decs /\
  forall k, dget onat_dec (Some k) (decimations_dict (emtf_one r decs j)) =
    if Nat.eqb k j then option_map (set_rate (emtf_factor j) (emtf_sr r j)) (dget onat_dec (Some k) (decimations_dict decs))
    else dget onat_dec (Some k) (decimations_dict decs).
Proof.
  intros W. unfold emtf_one.
  replace (match j with O => (1, r) | S _ => (4, r / qpow 4 j) end) with (emtf_factor j, emtf_sr r j)
    by (destruct j; reflexivity).
  destruct (dget onat_dec (Some j) (decimations_dict decs)) as [l|] eqn:G.
  - apply dget_dict_in in G as GI. destruct GI as [Il Nl].
    set (g := fun x => if Nat.eqb (l_oid x) (l_oid l) then set_rate (emtf_factor j) (emtf_sr r j) x else x).
    change (on_object (l_oid l) (set_rate (emtf_factor j) (emtf_sr r j)) decs) with (map g decs).
    assert (Gn : forall x, l_number (g x) = l_number x) by (intros x; unfold g; destruct (Nat.eqb _ _); reflexivity).
    assert (Go : forall x, l_oid (g x) = l_oid x) by (intros x; unfold g; destruct (Nat.eqb _ _); reflexivity).
    split; [|split].
    + intros x y X Y E. apply in_map_iff in X. apply in_map_iff in Y.
      destruct X as (x0 & <- & X). destruct Y as (y0 & <- & Y). rewrite !Gn. rewrite !Go in E. auto.
    + rewrite map_map. apply map_ext. exact Gn.
    + intros k. rewrite dict_map by auto. destruct (Nat.eqb_spec k j) as [->|N].
      * rewrite G. simpl. unfold g. now rewrite Nat.eqb_refl.
      * destruct (dget onat_dec (Some k) (decimations_dict decs)) as [x|] eqn:X; [|reflexivity].
        apply dget_dict_in in X. destruct X as [Ix Nx]. simpl. f_equal. unfold g.
        destruct (Nat.eqb_spec (l_oid x) (l_oid l)) as [E|_]; [|reflexivity].
        specialize (W x l Ix Il E). congruence.
  - split; [exact W|]. split; [reflexivity|]. intros k. destruct (Nat.eqb_spec k j) as [->|N]; [|reflexivity].
    now rewrite G.
Qed.

Lemma emtf_fold r : forall ks decs, objects_agree decs -> NoDup ks ->
  map l_number (fold_left (emtf_one r) ks decs) = map l_number decs /\
  forall k, dget onat_dec (Some k) (decimations_dict (fold_left (emtf_one r) ks decs)) =
    if in_dec Nat.eq_dec k ks then option_map (set_rate (emtf_factor k) (emtf_sr r k)) (dget onat_dec (Some k) (decimations_dict decs))
    else dget onat_dec (Some k) (decimations_dict decs).
Proof.
  induction ks as [|j ks IH]; intros decs W ND; [split; reflexivity|].
  simpl fold_left. destruct (emtf_one_facts r decs j W) as (W' & M & G).
  inversion ND as [|? ? Nj ND']; subst. destruct (IH _ W' ND') as [M' G']. split; [congruence|].
  intros k. rewrite G', G. destruct (Nat.eqb_spec k j) as [->|N].
  - destruct (in_dec Nat.eq_dec j ks); [contradiction|].
    destruct (in_dec Nat.eq_dec j (j :: ks)) as [_|N]; [reflexivity|]. exfalso. apply N. now left.
  - destruct (in_dec Nat.eq_dec k ks) as [i|n]; destruct (in_dec Nat.eq_dec k (j :: ks)) as [i'|n']; auto.
    + exfalso. apply n'. now right.
    + destruct i' as [E|i']; [congruence|contradiction].
Qed.

Lemma numbers_some ks l : numbers ks = Some l -> ks = map Some l.
Proof.
  revert l. induction ks as [|[k|] ks IH]; simpl; intros l H; try discriminate.
  - injection H as <-. reflexivity.
  - destruct (numbers ks) eqn:E; [|discriminate]. injection H as <-. simpl. f_equal. auto.
Qed.
Lemma numbers_all ks : (forall k, In k ks -> k <> None) -> exists l, numbers ks = Some l.
Proof.
  induction ks as [|k ks IH]; intros H; [eexists; reflexivity|].
  destruct k as [k|]; [|exfalso; apply (H None); auto; now left].
  destruct IH as [l E]; [intros; apply H; now right|]. simpl. rewrite E. eauto.
Qed.

Lemma dict_keys_in decs k : In k (dkeys (decimations_dict decs)) <-> In k (map l_number decs).
Proof.
  revert k. induction decs as [|x decs IH] using rev_ind; intros k; [reflexivity|].
  rewrite dict_snoc, map_app, in_app_iff. simpl.
  assert (K : forall d : list (option nat * level), In k (dkeys (dset onat_dec (l_number x) x d)) <-> In k (dkeys d) \/ k = l_number x).
  { clear. induction d as [|[a b] d IH]; simpl; [intuition|].
    destruct (onat_dec (l_number x) a) as [->|N]; simpl; [intuition|]. rewrite IH. intuition. }
  rewrite K, IH. intuition.
Qed.
Lemma dict_nodup decs : NoDup (dkeys (decimations_dict decs)).
Proof. apply NoDup_dupdate. constructor. Qed.

(* ---------------------------------------------------------------- archives *)

Lemma subset_spec a b : subset a b = true <-> forall x, In x a -> In x b.
Proof.
  unfold subset. rewrite forallb_forall. split; intros H x X; specialize (H x X); revert H;
  unfold memb; destruct (in_dec string_dec x b); auto; discriminate.
Qed.
Lemma zsubset_spec a b : zsubset a b = true <-> forall x, In x a -> In x b.
Proof.
  unfold zsubset. rewrite forallb_forall. split; intros H x X; specialize (H x X); revert H;
  unfold memb; destruct (in_dec Z.eq_dec x b); auto; discriminate.
Qed.
Lemma ostring_eqb_spec a b : ostring_eqb a b = true <-> a = b.
Proof.
  destruct a, b; simpl; split; intros H; try discriminate; auto.
  - apply String.eqb_eq in H. now subst.
  - injection H as ->. apply String.eqb_refl.
Qed.
Lemma memb_spec {K} (dec : forall a b : K, {a = b} + {a <> b}) k l : memb dec k l = true <-> In k l.
Proof. unfold memb. destruct (in_dec dec k l); split; auto; discriminate. Qed.

Lemma in_level_indices l z :
  In z (level_indices l) <-> exists b i, In b (l_bands l) /\ (lb_lo b <= i <= lb_hi b)%nat /\ z = Z.of_nat i.
Proof.
  unfold level_indices, level_harmonics. rewrite in_map_iff. split.
  - intros (i & <- & I). eapply Permutation_in in I; [|apply Permutation_sym, sort_leb_perm].
    apply in_flat_map in I. destruct I as (p & Ip & I). apply in_map_iff in Ip. destruct Ip as (b & <- & Ib).
    cbn [fst snd] in I. unfold harmonic_indices, arange in I. apply in_seq in I.
    exists b, i. repeat split; auto; lia.
  - intros (b & i & Ib & L & ->). exists i. split; [reflexivity|].
    eapply Permutation_in; [apply sort_leb_perm|]. apply in_flat_map. exists (lb_lo b, lb_hi b). split.
    + apply in_map_iff. eauto.
    + cbn [fst snd]. unfold harmonic_indices, arange. apply in_seq. lia.
Qed.

Lemma consistent_iff l a remote : is_consistent l a remote = Ok true <-> supports a l remote.
Proof.
  unfold is_consistent. split.
  - intros H.
    destruct (subset _ (a_channels a)) eqn:E1; cbn [negb] in H; [|discriminate].
    destruct (ostring_eqb (t_aaf (a_dec a)) (t_aaf (l_dec l)) || _) eqn:E2; cbn [negb] in H; [|discriminate].
    destruct (Qeq_bool _ _) eqn:E3; cbn [negb] in H; [|discriminate].
    destruct (String.eqb (s_method _) _) eqn:E4; cbn [negb] in H; [|discriminate].
    destruct (String.eqb (s_prewhitening _) _) eqn:E5; cbn [negb] in H; [|discriminate].
    destruct (Bool.eqb _ _) eqn:E6; cbn [negb] in H; [|discriminate].
    destruct (String.eqb (s_detrend _) _) eqn:E7; cbn [negb] in H; [|discriminate].
    destruct (Z.eqb _ _) eqn:E8; cbn [negb] in H; [|discriminate].
    destruct (window_dec _ _) as [E9|]; cbn [negb] in H; [|discriminate].
    constructor.
    + apply subset_spec. exact E1.
    + apply orb_true_iff in E2. destruct E2 as [E2|E2]; [left; now apply ostring_eqb_spec|].
      apply andb_true_iff in E2. destruct E2 as [E2 E2']. apply ostring_eqb_spec in E2. apply ostring_eqb_spec in E2'. auto.
    + now apply Qeq_bool_iff.
    + now apply String.eqb_eq.
    + now apply String.eqb_eq.
    + now apply eqb_prop.
    + now apply String.eqb_eq.
    + now apply Z.eqb_eq.
    + exact E9.
    + destruct (s_harmonics (a_stft a)); [exact I|discriminate|].
      destruct (memb _ _ l0) eqn:M; [left; now apply memb_spec in M|]. right.
      apply Ok_inj in H. intros b i Ib L. apply zsubset_spec with (a := level_indices l); [exact H|].
      apply in_level_indices. eauto.
  - intros [C A R M P Rc D MW W Hs].
    change (l_input l ++ l_output l)%list with (local_channels l) in C.
    rewrite (proj2 (subset_spec _ _) C). cbn [negb].
    assert (E2 : ostring_eqb (t_aaf (a_dec a)) (t_aaf (l_dec l)) ||
                 (ostring_eqb (t_aaf (l_dec l)) (Some "default"%string) && ostring_eqb (t_aaf (a_dec a)) None) = true).
    { destruct A as [->|[-> ->]]; [|reflexivity]. rewrite (proj2 (ostring_eqb_spec _ _) eq_refl). reflexivity. }
    rewrite E2. cbn [negb]. rewrite (proj2 (Qeq_bool_iff _ _) R). cbn [negb].
    rewrite M, P, Rc, D, MW, W, !String.eqb_refl, Bool.eqb_reflx, Z.eqb_refl. cbn [negb].
    destruct (window_dec _ _) as [_|N]; [|contradiction]. cbn [negb].
    destruct (s_harmonics (a_stft a)) as [|z|hs]; [reflexivity|contradiction|].
    destruct (memb _ _ hs) eqn:Mb; [reflexivity|]. f_equal. apply zsubset_spec.
    intros x X. apply in_level_indices in X. destruct X as (b & i & Ib & L & ->).
    destruct Hs as [Hs|Hs]; [exfalso; apply (memb_spec Z.eq_dec) in Hs; congruence|eauto].
Qed.
