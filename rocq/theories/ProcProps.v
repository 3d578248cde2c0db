(** Decimation levels of a processing configuration: C38, C39, C40, C74, C75. *)
From Coq Require Import Permutation Sorted Qpower.
From Verif Require Import PyBase PyFacts PyNum BandModel BandSpec BandProofs BandProps ProcModel ProcSpec ProcProofs.
Local Open Scope Q_scope.

(* ---------------------------------------------------------------- C38 *)

(** One level, or a dictionary of levels, is kept as given. *)
Theorem C38_single_and_dictionary : forall D (read : D -> result level) l (named : list (string * level)),
  validate_decimations read (GLevel l) = Ok [l] /\
  validate_decimations read (GDict (map (fun p => (fst p, EObj (snd p))) named)) = Ok (map snd named).
Proof.
  intros D read l named. split; [reflexivity|]. cbn [validate_decimations]. unfold dvals. rewrite map_map.
  rewrite mapR_map. cbn [snd]. rewrite (mapR_ok _ snd); [reflexivity|]. reflexivity.
Qed.

(** A list of dictionaries gives one level for each, in order, or the exception of the first that cannot
    be read. *)
Theorem C38_list_of_dictionaries : forall D (read : D -> result level) ds,
  match validate_decimations read (GList (map EDict ds)) with
  | Ok ls => Forall2 (fun d l => read d = Ok l) ds ls
  | Err e => exists d, In d ds /\ read d = Err e
  end.
Proof.
  intros D read ds. cbn [validate_decimations]. rewrite mapR_map, objects_dicts. cbn [list_entry].
  destruct (mapR (fun x => read x) ds) as [ls|e] eqn:E; cbn [bindR].
  - now apply mapR_Forall2 in E.
  - now apply mapR_err in E.
Qed.

(** A list of level objects is stored twice over. *)
Theorem C38_list_of_levels_doubled : forall D (read : D -> result level) ls,
  validate_decimations read (GList (map EObj ls)) = Ok (ls ++ ls)%list.
Proof.
  intros D read ls. cbn [validate_decimations]. rewrite objects_map, mapR_map. cbn [list_entry].
  rewrite (mapR_ok _ (fun l => l)) by reflexivity. now rewrite map_id.
Qed.
Theorem C38_kept_once_refuted : forall D (read : D -> result level),
  exists ls out, validate_decimations read (GList (map EObj ls)) = Ok out /\
                 num_decimation_levels out <> length ls.
Proof.
  intros D read. exists [new_level 0], [new_level 0; new_level 0]. split; [reflexivity|discriminate].
Qed.

(** Looking a level up by its number still finds the level that was given. *)
Theorem C38_lookup_of_given_levels : forall D (read : D -> result level) ls l k out,
  distinct_numbers ls -> In l ls -> l_number l = Some k ->
  validate_decimations read (GList (map EObj ls)) = Ok out ->
  get_decimation_level out k = Ok l.
Proof.
  intros D read ls l k out ND I N H. rewrite C38_list_of_levels_doubled in H. apply Ok_inj in H. subst out.
  unfold get_decimation_level. rewrite (proj2 (dict_get _ _ _) (distinct_last_twice ls l k ND I N)). reflexivity.
Qed.

(** Lookup in general: the last level with that number; KeyError exactly when there is none. *)
Theorem C38_lookup : forall decs k,
  match get_decimation_level decs k with
  | Ok l => last_numbered decs k l
  | Err e => e = KeyError /\ forall l, In l decs -> l_number l <> Some k
  end.
Proof.
  intros decs k. unfold get_decimation_level.
  destruct (dget onat_dec (Some k) (decimations_dict decs)) as [l|] eqn:G.
  - now apply dict_get.
  - split; [reflexivity|]. now apply dict_get_none.
Qed.

(** Adding a level: one more level, at the end; it is found under its number and nothing else moves. *)
Theorem C38_add : forall D (read : D -> result level) decs l k,
  l_number l = Some k ->
  exists out, add_decimation_level read decs (EObj l) = Ok out /\
    num_decimation_levels out = S (num_decimation_levels decs) /\
    get_decimation_level out k = Ok l /\
    forall j, j <> k -> get_decimation_level out j = get_decimation_level decs j.
Proof.
  intros D read decs l k N. exists (decs ++ [l])%list. split; [reflexivity|]. split.
  - unfold num_decimation_levels. rewrite app_length. simpl. lia.
  - unfold get_decimation_level. rewrite dict_snoc. split.
    + rewrite N, dget_dset_eq. reflexivity.
    + intros j J. rewrite dget_dset_neq by congruence. reflexivity.
Qed.
Theorem C38_add_dictionary : forall D (read : D -> result level) decs d,
  match read d with
  | Ok l => add_decimation_level read decs (EDict d) = Ok (decs ++ [l])%list
  | Err e => add_decimation_level read decs (EDict d) = Err e
  end /\ add_decimation_level read decs EOther = Err TypeError.
Proof. intros. unfold add_decimation_level. cbn [list_entry]. destruct (read d); split; reflexivity. Qed.

(** Anything else raises TypeError, except that a text of at most four characters counts as no levels. *)
Theorem C38_other_values : forall D (read : D -> result level) (s : string) (pre post : list (entry D)) ls,
  validate_decimations read GOther = Err TypeError /\
  ((4 < String.length s)%nat -> validate_decimations read (GStr s) = Err TypeError) /\
  ((String.length s <= 4)%nat -> validate_decimations read (GStr s) = Ok []) /\
  (pre = map EObj ls -> validate_decimations read (GList (pre ++ EOther :: post)) = Err TypeError).
Proof.
  intros D read s pre post ls. repeat split.
  - intros L. cbn [validate_decimations]. apply Nat.ltb_lt in L. now rewrite L.
  - intros L. cbn [validate_decimations]. apply Nat.ltb_ge in L. now rewrite L.
  - intros ->. cbn [validate_decimations]. rewrite mapR_app, mapR_map. cbn [list_entry].
    rewrite (mapR_ok _ (fun l => l)) by reflexivity. reflexivity.
Qed.

Definition three_levels : list level :=
  map (fun k => with_dec (new_level k) (mkTs (Some k) 4 "default" 1 (Some "default"%string))) [0; 1; 2]%nat.
Example C38_hyp : distinct_numbers three_levels /\ length three_levels = 3%nat /\
  get_decimation_level (three_levels ++ three_levels)%list 2 = Ok (nth 2 three_levels (new_level 0)).
Proof. split; [|split; reflexivity]. unfold distinct_numbers. repeat constructor; simpl; intuition discriminate. Qed.

(* ---------------------------------------------------------------- C39 *)

(** fc_decimations_creator: one level per factor, numbered from 0, each with the base rate divided by the
    product of the factors of the steps up to it. *)
Theorem C39_cascade : forall show base factors max_levels,
  factors <> [] -> (forall j d, nth_error factors (S j) = Some d -> ~ d == 0) ->
  exists ls, fc_decimations_creator show base factors max_levels = Ok ls /\ length ls = length factors /\
    forall k d, nth_error factors k = Some d ->
      exists l, nth_error ls k = Some l /\ fc_number l = k /\ fc_id l = show k /\ fc_factor l = d /\
                fc_rate l == cascade_rate base factors k.
Proof.
  intros show base factors m NE NZ.
  destruct (fc_loop_ok show factors 0 base) as (ls & E & Len & Each).
  { intros [|j] d H N; [contradiction|]. eauto. }
  exists ls. split; [|split; [exact Len|]].
  - unfold fc_decimations_creator. destruct factors; [contradiction|exact E].
  - exact Each.
Qed.

(** Without factors: every step divides by four. *)
Theorem C39_cascade_default : forall show base max_levels,
  (0 < max_levels)%nat ->
  exists ls, fc_decimations_creator show base [] max_levels = Ok ls /\ length ls = max_levels /\
    forall k, (k < max_levels)%nat ->
      exists l, nth_error ls k = Some l /\ fc_number l = k /\ fc_rate l == base / 4 ^ (Z.of_nat k).
Proof.
  intros show base [|m] L; [lia|].
  destruct (C39_cascade show base (1 :: repeat 4 m) 0) as (ls & E & Len & Each); [discriminate| |].
  { intros j d H. cbn [nth_error] in H. apply nth_error_In, repeat_spec in H. subst d. discriminate. }
  exists ls. split; [exact E|]. split; [rewrite Len; simpl; now rewrite repeat_length|].
  intros k K. destruct (nth_error (1 :: repeat 4 m) k) as [d|] eqn:H.
  - destruct (Each k d H) as (l & Hl & N & _ & _ & R). exists l. repeat split; auto.
    rewrite R. unfold cascade_rate. simpl tl. rewrite firstn_repeat by lia.
    rewrite product_repeat by discriminate. reflexivity.
  - apply nth_error_None in H. simpl in H. rewrite repeat_length in H. lia.
Qed.

(** A zero factor after the first is refused; no levels at all with [max_levels = 0] and no factors. *)
Theorem C39_zero_factor : forall show base d r max_levels,
  d == 0 -> fc_decimations_creator show base (1 :: d :: r) max_levels = Err ZeroDivisionError /\
  fc_decimations_creator show base [] 0 = Err IndexError.
Proof.
  intros show base d r m H. split; [|reflexivity]. cbn. apply Qeq_bool_iff in H. now rewrite H.
Qed.

(** assign_bands: level [k] gets the base rate divided by the k-th power of its own factor. *)
Theorem C39_assigned_rate : forall be sr factors w out,
  assign_bands be sr factors w [] = (out, None) ->
  Permutation (map l_number out) (map Some (dkeys be)) /\
  forall l k, In l out -> l_number l = Some k ->
    exists d, dget Nat.eq_dec k factors = Some d /\ t_factor (l_dec l) = d /\
              t_rate (l_dec l) == sr / d ^ (Z.of_nat k).
Proof.
  intros be sr factors w out H. unfold assign_bands in H. apply assign_loop_ok in H.
  destruct H as (ls & -> & F). simpl app. split.
  - transitivity (map Some (sort_by Nat.leb (dkeys be))).
    + replace (map l_number ls) with (map Some (sort_by Nat.leb (dkeys be))); [reflexivity|].
      clear - F. induction F as [|k l ks ls (rows & _ & A) F IH]; [reflexivity|]. simpl. f_equal; [|exact IH].
      unfold assigned in A. firstorder.
    + apply Permutation_map, Permutation_sym, sort_leb_perm.
  - intros l k I N. clear - F I N. induction F as [|j x ks ls (rows & _ & A) F IH]; [contradiction|].
    destruct I as [->|I]; [|auto].
    destruct A as (d & s & n & fr & bands & D & (S & _) & _ & _ & _ & _ & _ & _ & N' & Fa & R & _).
    assert (j = k) by congruence. subst j. exists d. rewrite R. auto.
Qed.

(** With one factor for every step this is the cascade's rate... *)
Theorem C39_assign_bands_uniform : forall be sr factors w out d n,
  assign_bands be sr factors w [] = (out, None) -> ~ d == 0 ->
  (forall k, In k (dkeys be) -> (0 < k)%nat -> dget Nat.eq_dec k factors = Some d) ->
  forall l k, In l out -> l_number l = Some k -> (k <= n)%nat ->
    t_rate (l_dec l) == cascade_rate sr (1 :: repeat d n) k.
Proof.
  intros be sr factors w out d n H Nz U l k I N L. destruct (C39_assigned_rate _ _ _ _ _ H) as [P R].
  destruct (R l k I N) as (d' & D & _ & E). rewrite E. unfold cascade_rate. simpl tl.
  rewrite firstn_repeat by exact L. rewrite product_repeat by exact Nz.
  destruct k as [|k]; [reflexivity|].
  assert (K : In (S k) (dkeys be)).
  { assert (J : In (Some (S k)) (map Some (dkeys be))).
    { eapply Permutation_in; [exact P|]. rewrite <- N. now apply in_map. }
    apply in_map_iff in J. destruct J as (j & E' & J). congruence. }
  rewrite (U (S k) K) in D by lia. injection D as <-. reflexivity.
Qed.
(** ... but with different factors it is not: 1, 2, 4 gives 1/16 instead of 1/8 of the rate at level 2. *)
Theorem C39_assign_bands_refuted : exists be factors out l,
  assign_bands be 16 factors (WInt 32) [] = (out, None) /\ In l out /\ l_number l = Some 2%nat /\
  map snd factors = [1; 2; 4] /\ ~ t_rate (l_dec l) == cascade_rate 16 (map snd factors) 2.
Proof.
  exists [(0%nat, []); (1%nat, []); (2%nat, [(1#4, 1#2)])], [(0%nat, 1); (1%nat, 2); (2%nat, 4)].
  set (be := [(0%nat, []); (1%nat, []); (2%nat, [(1#4, 1#2)])]).
  set (fs := [(0%nat, 1); (1%nat, 2); (2%nat, 4)]).
  exists (fst (assign_bands be 16 fs (WInt 32) [])), (nth 2 (fst (assign_bands be 16 fs (WInt 32) [])) (new_level 0)).
  split; [vm_compute; reflexivity|]. split; [vm_compute; auto|]. split; [vm_compute; reflexivity|].
  split; [reflexivity|]. vm_compute. discriminate.
Qed.

(** assign_decimation_level_data_emtf: every level found by its number has the rate r / 4^k and the factor 4
    (1 at level 0); the levels themselves stay. *)
Theorem C39_emtf : forall sr decs,
  objects_agree decs -> (forall l, In l decs -> l_number l <> None) ->
  exists out, assign_emtf sr decs = Ok out /\ map l_number out = map l_number decs /\
    forall l k, In l decs -> l_number l = Some k ->
      exists x, get_decimation_level out k = Ok x /\ l_number x = Some k /\
        t_factor (l_dec x) = (if Nat.eqb k 0 then 1 else 4) /\
        t_rate (l_dec x) == sr / 4 ^ (Z.of_nat k).
Proof.
  intros sr decs W N. unfold assign_emtf.
  destruct (numbers_all (dkeys (decimations_dict decs))) as [ks E].
  { intros k K. apply dict_keys_in, in_map_iff in K. destruct K as (l & <- & L). auto. }
  rewrite E. apply numbers_some in E. eexists. split; [reflexivity|].
  assert (ND : NoDup (sort_by Nat.leb ks)).
  { eapply Permutation_NoDup; [apply sort_leb_perm|]. apply (NoDup_map_inv Some). rewrite <- E. apply dict_nodup. }
  destruct (emtf_fold sr _ decs W ND) as [M G]. split; [exact M|].
  intros l k I K. unfold get_decimation_level. rewrite G.
  destruct (in_dec Nat.eq_dec k (sort_by Nat.leb ks)) as [_|F].
  - destruct (dget onat_dec (Some k) (decimations_dict decs)) as [x|] eqn:X.
    + apply dget_dict_in in X. destruct X as [_ X]. simpl. eexists. split; [reflexivity|]. cbn. split; [exact X|].
      split; [destruct k; reflexivity|]. destruct k as [|k]; [|reflexivity]. simpl. unfold Qdiv. change (/ 1) with 1. ring.
    + exfalso. rewrite dict_get_none in X. exact (X l I K).
  - exfalso. apply F. eapply Permutation_in; [apply sort_leb_perm|].
    assert (J : In (Some k) (map Some ks)) by (rewrite <- E; apply dict_keys_in; rewrite <- K; now apply in_map).
    apply in_map_iff in J. destruct J as (j & E' & J). congruence.
Qed.

Example C39_hyp : objects_agree three_levels /\ (forall l, In l three_levels -> l_number l <> None) /\
  (forall j d, nth_error [1; 4; 2; 5] (S j) = Some d -> ~ d == 0) /\
  snd (assign_bands [(1%nat, [(1#2, 1)]); (0%nat, [(1, 2); (2, 3)])] 8 [(0%nat, 1); (1%nat, 4)] (WInt 32) []) = None.
Proof.
  split; [|split; [|split]].
  - intros x y X Y. simpl in X, Y. intuition (subst; simpl in *; congruence).
  - intros x X. simpl in X. intuition (subst; discriminate).
  - intros [|[|[|[|j]]]] d H; try discriminate; injection H as <-; discriminate.
  - vm_compute. reflexivity.
Qed.

(* ---------------------------------------------------------------- C75 *)

(** The edges given to assign_bands for levels 0..n-1 (in any order) are what band_edges_dict returns. *)
Theorem C75_edges_round_trip : forall be sr factors w out n,
  Permutation (dkeys be) (seq 0 n) -> assign_bands be sr factors w [] = (out, None) ->
  forall k, dget Nat.eq_dec k (band_edges_dict out) = dget Nat.eq_dec k be.
Proof.
  intros be sr factors w out n P H k. unfold assign_bands in H. apply assign_loop_ok in H.
  destruct H as (ls & -> & F). simpl app.
  rewrite (sorted_seq n 0 (sort_by Nat.leb (dkeys be)) (sort_leb_sorted _)) in F
    by (transitivity (dkeys be); [apply Permutation_sym, sort_leb_perm|exact P]).
  assert (Len : length ls = n) by (rewrite <- (seq_length n 0); symmetry; eapply Forall2_len; exact F).
  unfold band_edges_dict. rewrite Len.
  assert (Out : forall a, ~ In k (seq a n) -> forall (m : list edges), dget Nat.eq_dec k (combine (seq a n) m) = None).
  { clear. intros a NI m. revert a m NI. induction n as [|n IH]; intros a [|e m] NI; try reflexivity.
    simpl in *. destruct (Nat.eq_dec k a) as [->|]; [exfalso; apply NI; now left|]. apply IH. intros I. apply NI. now right. }
  destruct (in_dec Nat.eq_dec k (seq 0 n)) as [I|NI].
  - clear - F I. revert F I. generalize 0%nat. revert ls. induction n as [|n IH]; intros ls a F I; [contradiction|].
    inversion F as [|? l ? ls' (rows & R & A) F']; subst. cbn [seq map combine dget].
    destruct (Nat.eq_dec k a) as [->|N].
    + rewrite R. f_equal. destruct A as (d & s & m & fr & bands & _ & _ & _ & _ & _ & _ & B & L & _).
      unfold level_edges. rewrite L. now apply mapR_bands_edges in B.
    + apply IH; [exact F'|]. destruct I as [E|I]; [congruence|exact I].
  - rewrite Out by exact NI. symmetry. apply dget_None. intros I. apply NI. eapply Permutation_in; eauto.
Qed.

(** The harmonics of every assigned band are exactly the FFT harmonics of the level that lie in the band. *)
Theorem C75_harmonics : forall be sr factors w out,
  assign_bands be sr factors w [] = (out, None) -> 0 < sr ->
  (forall k d, dget Nat.eq_dec k factors = Some d -> 0 < d) ->
  forall l b i, In l out -> In b (l_bands l) ->
    let n := w_samples (s_window (l_stft l)) in
    (lb_lo b <= i <= lb_hi b)%nat <->
    (i < n / 2)%nat /\ f_min (lb_band b) <= inject_Z (Z.of_nat i) * t_rate (l_dec l) / inject_Z (Z.of_nat n) < f_max (lb_band b).
Proof.
  intros be sr factors w out H P Pf l b i I B n. unfold assign_bands in H. apply assign_loop_ok in H.
  destruct H as (ls & -> & F). simpl app in I.
  assert (A : exists k rows, assigned k rows sr factors w (length be) l).
  { clear - F I. induction F as [|k x ks ls (rows & _ & A) F IH]; [contradiction|].
    destruct I as [->|I]; [eauto|auto]. }
  destruct A as (k & rows & d & s & m & fr & bands & D & (S & _) & _ & Efr & Nm & Ns & Mb & Lb & _ & _ & R & Wn).
  subst n. rewrite Wn, R. rewrite Lb in B. pose proof (mapR_bands_edges _ _ _ _ Mb) as [_ Mb'].
  rewrite Forall_forall in Mb'. specialize (Mb' b B). destruct Mb' as [_ SI]. subst fr.
  assert (Ps : 0 < s).
  { rewrite S. apply Qlt_shift_div_l; [apply qpow_pos; eauto|]. rewrite Qmult_0_l. exact P. }
  pose proof (C15_fft_harmonics_of_band m s (lb_band b) (lb_lo b) (lb_hi b) Nm Ps SI i) as C.
  unfold harmonic_indices, arange in C. rewrite in_seq in C.
  assert (Cl : b_closed (lb_band b) = CLeft).
  { apply mapR_Forall2 in Mb. clear - Mb B. induction Mb as [|e x rows bands E F IH]; [contradiction|].
    destruct B as [->|B]; [|auto]. unfold make_band in E. destruct (set_indices _ _) as [r|]; simpl in E; [|discriminate].
    apply Ok_inj in E. subst b. reflexivity. }
  unfold in_band in C. rewrite Cl in C. rewrite <- C. lia.
Qed.

(** band_edges_dict is keyed by position, not by level number. *)
Theorem C75_keys_are_positions_refuted : exists decs l k,
  In l decs /\ distinct_numbers decs /\ l_number l = Some k /\ get_decimation_level decs k = Ok l /\
  dget Nat.eq_dec k (band_edges_dict decs) <> Some (level_edges l).
Proof.
  set (l1 := mkLevel 1 [mkLband 1 (mkBand 1 2 CLeft) 3 4] [] [] [] (mkTs (Some 1%nat) 4 "default" 1 None) default_stft "RME" "").
  set (l0 := mkLevel 0 [mkLband 0 (mkBand 5 6 CLeft) 3 4] [] [] [] (mkTs (Some 0%nat) 4 "default" 1 None) default_stft "RME" "").
  exists [l1; l0], l1, 1%nat. split; [now left|]. split.
  - unfold distinct_numbers. repeat constructor; simpl; intuition discriminate.
  - split; [reflexivity|]. split; [reflexivity|]. vm_compute. discriminate.
Qed.

Example C75_hyp : exists out,
  assign_bands [(1%nat, [(1#2, 1)]); (0%nat, [(1, 2); (2, 3)])] 8 [(0%nat, 1); (1%nat, 4)] (WInt 32) [] = (out, None) /\
  Permutation (dkeys [(1%nat, [(1#2, 1)]); (0%nat, [(1, 2); (2, 3)])]) (seq 0 2) /\
  band_edges_dict out = [(0%nat, [(1, 2); (2, 3)]); (1%nat, [(1#2, 1)])] /\
  map (fun l => map (fun b => (lb_lo b, lb_hi b)) (l_bands l)) out = [[(4, 7); (8, 11)]; [(8, 15)]]%nat.
Proof. eexists. split; [vm_compute; reflexivity|]. split; [constructor|split; reflexivity]. Qed.

(* ---------------------------------------------------------------- C40 *)

(** The archive built from a level is accepted by it exactly when its minimum number of windows is the
    default (zero). *)
Theorem C40_own_archive : forall show l remote ignore_indices,
  is_consistent l (to_fc_decimation show l remote ignore_indices) remote =
  Ok (Z.eqb (s_min_windows (l_stft l)) 0).
Proof.
  intros show l remote ig.
  destruct (Z.eqb_spec (s_min_windows (l_stft l)) 0) as [E|N].
  - apply consistent_iff. constructor; cbn; auto.
    + reflexivity.
    + destruct ig; cbn; [exact I|]. right. intros b i B L. apply in_level_indices. eauto.
  - unfold is_consistent, to_fc_decimation. cbn [a_channels a_dec a_stft t_aaf t_rate s_method s_prewhitening
      s_recoloring s_detrend s_min_windows].
    rewrite (proj2 (subset_spec _ _)) by (intros x X; exact X). cbn [negb].
    rewrite (proj2 (ostring_eqb_spec _ _) eq_refl). cbn [negb orb].
    rewrite (proj2 (Qeq_bool_iff _ _)) by reflexivity. cbn [negb].
    rewrite !String.eqb_refl, Bool.eqb_reflx. cbn [negb].
    destruct (Z.eqb_spec (s_min_windows default_stft) (s_min_windows (l_stft l))) as [E|_]; [|reflexivity].
    exfalso. apply N. rewrite <- E. reflexivity.
Qed.
Theorem C40_own_archive_refuted : exists show l,
  is_consistent l (to_fc_decimation show l false true) false = Ok false.
Proof.
  exists (fun _ => ""%string),
    (mkLevel 0 [] [] [] [] default_ts (mkStft HNone "fft" 3 "" "linear" "first difference" true default_window) "RME" "").
  reflexivity.
Qed.
Example C40_hyp : s_min_windows (l_stft (new_level 0)) = 0%Z /\
  is_consistent (new_level 0) (to_fc_decimation (fun _ => "0"%string) (new_level 0) true false) true = Ok true.
Proof. split; reflexivity. Qed.

(* ---------------------------------------------------------------- C74 *)

(** An archive is accepted exactly when it holds the required channels and harmonics and was computed with
    the same parameters. *)
Theorem C74_accepted_iff_same_parameters : forall l a remote,
  is_consistent l a remote = Ok true <-> supports a l remote.
Proof. exact consistent_iff. Qed.

(** It raises only for filters that cannot be compared or for a single harmonic index. *)
Theorem C74_raises : forall l a remote e,
  is_consistent l a remote = Err e ->
  (e = NotImplementedError /\ t_aaf (a_dec a) <> t_aaf (l_dec l)) \/
  (e = TypeError /\ exists z, s_harmonics (a_stft a) = HInt z).
Proof.
  intros l a remote e. unfold is_consistent.
  destruct (subset _ _); cbn [negb]; [|discriminate].
  destruct (ostring_eqb (t_aaf (a_dec a)) (t_aaf (l_dec l))) eqn:E2; cbn [negb orb].
  - destruct (Qeq_bool _ _); cbn [negb]; [|discriminate].
    destruct (String.eqb (s_method _) _); cbn [negb]; [|discriminate].
    destruct (String.eqb (s_prewhitening _) _); cbn [negb]; [|discriminate].
    destruct (Bool.eqb _ _); cbn [negb]; [|discriminate].
    destruct (String.eqb (s_detrend _) _); cbn [negb]; [|discriminate].
    destruct (Z.eqb _ _); cbn [negb]; [|discriminate].
    destruct (window_dec _ _); cbn [negb]; [|discriminate].
    destruct (s_harmonics (a_stft a)); [discriminate| |].
    + intros H. right. split; [congruence|eauto].
    + destruct (memb _ _ _); discriminate.
  - assert (N : t_aaf (a_dec a) <> t_aaf (l_dec l)) by (intros E; apply ostring_eqb_spec in E; congruence).
    destruct (ostring_eqb (t_aaf (l_dec l)) _ && _); cbn [negb].
    + destruct (Qeq_bool _ _); cbn [negb]; [|discriminate].
      destruct (String.eqb (s_method _) _); cbn [negb]; [|discriminate].
      destruct (String.eqb (s_prewhitening _) _); cbn [negb]; [|discriminate].
      destruct (Bool.eqb _ _); cbn [negb]; [|discriminate].
      destruct (String.eqb (s_detrend _) _); cbn [negb]; [|discriminate].
      destruct (Z.eqb _ _); cbn [negb]; [|discriminate].
      destruct (window_dec _ _); cbn [negb]; [|discriminate].
      destruct (s_harmonics (a_stft a)); [discriminate| |].
      * intros H. right. split; [congruence|eauto].
      * destruct (memb _ _ _); discriminate.
    + intros H. left. split; [congruence|exact N].
Qed.

(** And it does raise when the channels are there but the filters cannot be compared. *)
Theorem C74_filter_mismatch : forall (l : level) (a : archive) (remote : bool),
  (forall c : string, In c (if remote then l_reference l else local_channels l) -> In c (a_channels a)) ->
  t_aaf (a_dec a) <> t_aaf (l_dec l) -> ~ (t_aaf (l_dec l) = Some "default"%string /\ t_aaf (a_dec a) = None) ->
  is_consistent l a remote = Err NotImplementedError.
Proof.
  intros l a remote C N D. unfold is_consistent. cbv zeta. rewrite (proj2 (subset_spec _ _)) by exact C. cbn [negb].
  destruct (ostring_eqb (t_aaf (a_dec a)) (t_aaf (l_dec l))) eqn:E; [apply ostring_eqb_spec in E; contradiction|]. cbn [orb].
  destruct (ostring_eqb (t_aaf (l_dec l)) (Some "default"%string)) eqn:E1; [|reflexivity].
  destruct (ostring_eqb (t_aaf (a_dec a)) None) eqn:E2; [|reflexivity].
  exfalso. apply D. split; apply ostring_eqb_spec; assumption.
Qed.
Example C74_filter_mismatch_hyp :
  is_consistent (new_level 0) (mkArchive "0" [] (mkTs (Some 0%nat) 1 "default" 1 (Some "other"%string)) default_stft) false = Err NotImplementedError.
Proof. reflexivity. Qed.

(** The documented comparison of the decimation method is not made: an archive decimated with another method
    is accepted. *)
Theorem C74_decimation_method_refuted : exists l a,
  is_consistent l a false = Ok true /\ t_method (a_dec a) <> t_method (l_dec l).
Proof.
  exists (new_level 0), (mkArchive "0" [] (mkTs (Some 0%nat) 1 "other" 1 (Some "default"%string)) default_stft).
  split; [reflexivity|discriminate].
Qed.

Example C74_hyp : exists l a, supports a l false /\ l_bands l <> [] /\ local_channels l <> [].
Proof.
  exists (mkLevel 0 [mkLband 0 (mkBand 1 2 CLeft) 3 4] ["hx"; "hy"]%string ["ex"]%string [] default_ts default_stft "RME" ""),
    (mkArchive "0" ["ex"; "hy"; "hx"; "hz"]%string default_ts
      (mkStft (HList [2; 3; 4; 5]%Z) "fft" 0 "" "linear" "first difference" true default_window)).
  split; [|split; discriminate]. apply consistent_iff. vm_compute. reflexivity.
Qed.

Print Assumptions C38_list_of_dictionaries.
Print Assumptions C38_list_of_levels_doubled.
Print Assumptions C38_lookup.
Print Assumptions C39_cascade.
Print Assumptions C39_emtf.
Print Assumptions C75_edges_round_trip.
Print Assumptions C75_harmonics.
Print Assumptions C40_own_archive.
Print Assumptions C74_accepted_iff_same_parameters.
