(** C15-C17 frequency bands, C57 harmonics of a decimation level, C58 FFT harmonics. *)
From Coq Require Import Reals Qreals Permutation Sorted Lra.
From Verif Require Import PyBase PyFacts PyNum BandModel BandSpec BandProofs.
Local Open Scope nat_scope.

(** C15.  On a nondecreasing axis the band's harmonic indices are exactly the positions whose frequency
    lies in the band. *)
Theorem C15_indices_exact : forall b freqs lo hi,
  nondecreasing freqs -> set_indices b freqs = Ok (lo, hi) ->
  forall i, In i (harmonic_indices lo hi) <-> exists f, nth_error freqs i = Some f /\ in_band b f.
Proof. exact indices_exact. Qed.

(** The indices are set whenever some harmonic is in the band; otherwise the documented IndexError. *)
Theorem C15_set_indices_total : forall b freqs,
  (f_min b <= f_max b)%Q ->
  ((exists i f, nth_error freqs i = Some f /\ in_band b f) -> exists lo hi, set_indices b freqs = Ok (lo, hi)) /\
  ((forall i f, nth_error freqs i = Some f -> ~ in_band b f) -> set_indices b freqs = Err IndexError).
Proof. exact set_indices_total. Qed.

(** On any axis, sorted or not, in_band_harmonics keeps exactly the frequencies in the band, in order. *)
Theorem C15_in_band_harmonics : forall b freqs l,
  in_band_harmonics b freqs = Ok l ->
  (forall f, In f l <-> In f freqs /\ in_band b f) /\
  exists p : Q -> bool, (forall f, p f = true <-> in_band b f) /\ l = filter p freqs.
Proof.
  intros b freqs l H. apply in_band_harmonics_filter in H. subst. split.
  - intros f. rewrite filter_In, inb_iff. reflexivity.
  - exists (inb b). split; [apply inb_iff|reflexivity].
Qed.

(** On the FFT axis of a window of even length [n] at rate [sr]: harmonic [k] is [k * sr / n]. *)
Theorem C15_fft_harmonics_of_band : forall n sr b lo hi,
  n <> 0 -> (0 < sr)%Q -> set_indices b (get_fft_harmonics n sr) = Ok (lo, hi) ->
  forall k, In k (harmonic_indices lo hi) <->
            k < n / 2 /\ in_band b (inject_Z (Z.of_nat k) * sr / inject_Z (Z.of_nat n))%Q.
Proof.
  intros n sr b lo hi N S H k. rewrite (indices_exact _ _ _ _ (fft_nondecreasing n sr N S) H).
  destruct (fft_harmonics_eq n sr N) as [Len Eq]; [lra|]. split.
  - intros (f & Hf & B). assert (L : k < n / 2) by (rewrite <- Len; apply nth_error_Some; congruence).
    split; [exact L|]. destruct (Eq k L) as (q & Hq & Q). rewrite Hf in Hq. injection Hq as <-.
    now apply (in_band_comp b f).
  - intros [L B]. destruct (Eq k L) as (q & Hq & Q). exists q. split; [assumption|].
    eapply in_band_comp; [apply Qeq_sym, Q|exact B].
Qed.

Example C15_hyp :
  let b := mkBand (1 # 4) (3 # 4) CLeft in
  set_indices b (get_fft_harmonics 16 2) = Ok (2, 5) /\ harmonic_indices 2 5 = [2; 3; 4; 5] /\
  set_indices (mkBand (1 # 4) (3 # 4) CRight) (get_fft_harmonics 16 2) = Ok (3, 6) /\
  nondecreasing (get_fft_harmonics 16 2).
Proof.
  repeat split; try (vm_compute; reflexivity). apply fft_nondecreasing; [discriminate|reflexivity].
Qed.

(** Without the ordering hypothesis the claim fails: the index range covers outside harmonics. *)
Theorem C15_unsorted_axis_refuted : exists b freqs lo hi i f,
  set_indices b freqs = Ok (lo, hi) /\ In i (harmonic_indices lo hi) /\
  nth_error freqs i = Some f /\ ~ in_band b f.
Proof.
  exists (mkBand 1 2 CLeft), [1; 5; 1]%Q, 0, 2, 1, 5%Q. repeat split; try (vm_compute; auto).
  intros [_ H]. vm_compute in H. discriminate.
Qed.

(** C16. *)
Theorem C16_overlaps_symmetric : forall a b r s, overlaps a b = Ok r -> overlaps b a = Ok s -> r = s.
Proof. exact overlaps_sym. Qed.

Theorem C16_overlaps_is_common_point : forall a b r,
  overlaps a b = Ok r -> nonempty_band a -> nonempty_band b ->
  (r = true <-> exists x, in_band a x /\ in_band b x).
Proof. exact overlaps_common. Qed.

Theorem C16_nonempty : forall b,
  nonempty_band b <-> (f_min b < f_max b)%Q \/ (f_min b == f_max b /\ b_closed b = CBoth)%Q.
Proof. exact nonempty_band_iff. Qed.

(** contains: every frequency of the other band, and both of its ends, lie in this band. *)
Theorem C16_contains : forall a b r,
  contains a b = Ok r ->
  (r = true <-> in_band a (f_min b) /\ in_band a (f_max b)) /\
  (r = true -> forall x, in_band b x -> in_band a x).
Proof.
  intros a b r H. pose proof (contains_iff a b r H) as I. split; [exact I|].
  intros ->. destruct (proj1 I eq_refl) as [A B]. intros x X.
  apply (in_band_convex a (f_min b) x (f_max b)); auto; destruct X as [X1 X2]; destruct (b_closed b); lra.
Qed.

Theorem C16_contains_implies_overlaps : forall a b,
  contains a b = Ok true -> nonempty_band b -> overlaps a b = Ok true.
Proof.
  intros a b H N. destruct (C16_contains a b true H) as [_ C]. specialize (C eq_refl).
  assert (exists r, overlaps a b = Ok r) as [r R].
  { unfold overlaps, contains in *. destruct (to_interval a) as [i|]; [|discriminate].
    destruct N as (x & X1 & X2). unfold to_interval.
    assert (L : Qle_bool (f_min b) (f_max b) = true) by (apply Qle_bool_iff; destruct (b_closed b); lra).
    rewrite L. cbn. eauto. }
  rewrite R. f_equal. destruct N as (x & X). apply (overlaps_common a b r R); [exists x; auto|exists x; auto|].
  exists x. auto.
Qed.

Example C16_hyp :
  let a := mkBand 0 4 CLeft in let b := mkBand 1 2 CBoth in
  contains a b = Ok true /\ overlaps a b = Ok true /\ nonempty_band b /\
  overlaps (mkBand 0 1 CLeft) (mkBand 1 2 CLeft) = Ok false /\ overlaps (mkBand 0 1 CBoth) (mkBand 1 2 CLeft) = Ok true.
Proof. repeat split; try (vm_compute; reflexivity). apply C16_nonempty. left. reflexivity. Qed.

(** "every band contains itself" holds exactly for bands closed at both ends; the default closure is left. *)
Theorem C16_contains_self_exactly : forall b,
  (f_min b <= f_max b)%Q -> (contains b b = Ok true <-> b_closed b = CBoth).
Proof.
  intros b L. assert (exists r, contains b b = Ok r) as [r R].
  { unfold contains, to_interval. apply Qle_bool_iff in L. rewrite L. cbn. eauto. }
  rewrite R. pose proof (contains_iff b b r R) as I. split.
  - intros E. injection E as ->. destruct (proj1 I eq_refl) as [[A B] [C D]].
    destruct (b_closed b); auto; exfalso; lra.
  - intros C. f_equal. apply I. unfold in_band. rewrite C. repeat split; lra.
Qed.

Theorem C16_contains_self_refuted : exists b, nonempty_band b /\ contains b b = Ok false.
Proof. exists (mkBand 1 2 CLeft). split; [apply C16_nonempty; left; reflexivity|vm_compute; reflexivity]. Qed.

(** C17. *)
Theorem C17_sort_ascending : forall k rows,
  physical rows -> Permutation rows (fb_sort k true rows) /\ ordered_by (real_key k) (fb_sort k true rows).
Proof. intros k rows P. split; [apply fb_sort_perm|now apply fb_sort_up]. Qed.

Theorem C17_sort_descending : forall k rows,
  physical rows -> Permutation rows (fb_sort k false rows) /\ ordered_down_by (real_key k) (fb_sort k false rows).
Proof. intros k rows P. split; [apply fb_sort_perm|now apply fb_sort_down]. Qed.

(** band(i) is row i, counted from the end when negative; anything else raises IndexError. *)
Theorem C17_band_lookup : forall rows i,
  match fb_band rows i with
  | Ok b => exists n e, nth_error rows n = Some e /\ b = mkBand (fst e) (snd e) CLeft /\
                        (i = Z.of_nat n \/ i = (Z.of_nat n - Z.of_nat (length rows))%Z)
  | Err x => x = IndexError /\ (i < - Z.of_nat (length rows) \/ Z.of_nat (length rows) <= i)%Z
  end.
Proof.
  intros rows i. unfold fb_band.
  set (j := if (i <? 0)%Z then (i + Z.of_nat (length rows))%Z else i).
  destruct ((0 <=? j) && (j <? Z.of_nat (length rows)))%Z eqn:E.
  - apply andb_true_iff in E. destruct E as [E1 E2]. apply Z.leb_le in E1. apply Z.ltb_lt in E2.
    destruct (nth_error rows (Z.to_nat j)) as [e|] eqn:N.
    + exists (Z.to_nat j), e. split; [assumption|]. split; [reflexivity|]. unfold j in *.
      destruct (i <? 0)%Z eqn:I; [right|left]; rewrite Z2Nat.id by assumption; lia.
    + apply nth_error_None in N. lia.
  - split; [reflexivity|]. unfold j in E. destruct (Z.ltb_spec i 0); apply andb_false_iff in E;
    destruct E as [E|E]; (apply Z.leb_gt in E || apply Z.ltb_ge in E); lia.
Qed.

(** bands() lists the rows of the table in the requested order, one band per row. *)
Theorem C17_bands : forall d sortby rows,
  exists l rows', fb_bands d sortby rows = Ok l /\ Permutation rows rows' /\
    map (fun b => (f_min b, f_max b)) l = rows' /\
    (physical rows ->
     match d, sortby with
     | IncPeriod, None => ordered_down_by center rows'
     | IncPeriod, Some k => ordered_down_by (real_key k) rows'
     | IncFrequency, Some k => ordered_by (real_key k) rows'
     | IncFrequency, None => rows' = rows
     end).
Proof.
  intros d sortby rows.
  assert (G : forall rows', map (fun b => (f_min b, f_max b)) (map left_band rows') = rows').
  { intros rows'. rewrite map_map. rewrite <- (map_id rows') at 2. apply map_ext. now intros [a b]. }
  assert (X : forall rows', mapR (fun i => fb_band rows' (Z.of_nat i)) (seq 0 (length rows')) = Ok (map left_band rows'))
    by apply fb_bands_rows.
  unfold fb_bands. destruct sortby as [k|], d.
  - exists (map left_band (fb_sort k true rows)), (fb_sort k true rows). rewrite X, G.
    repeat split; auto using fb_sort_perm, fb_sort_up.
  - exists (map left_band (fb_sort k false rows)), (fb_sort k false rows). rewrite X, G.
    repeat split; auto using fb_sort_perm, fb_sort_down.
  - exists (map left_band rows), rows. rewrite X, G. repeat split; auto.
  - exists (map left_band (fb_sort ByCenter false rows)), (fb_sort ByCenter false rows). rewrite X, G.
    repeat split; auto using fb_sort_perm. exact (fb_sort_down ByCenter rows).
Qed.

(** The default call bands() claims "increasing_frequency" but keeps the order of the table. *)
Theorem C17_bands_default_refuted : exists rows l,
  physical rows /\ fb_bands IncFrequency None rows = Ok l /\
  ~ ordered_by center (map (fun b => (f_min b, f_max b)) l).
Proof.
  exists [(4, 9); (1, 1)]%Q, [mkBand 4 9 CLeft; mkBand 1 1 CLeft]. split; [|split].
  - intros e [<-|[<-|[]]]; split; discriminate.
  - reflexivity.
  - intros H. specialize (H 0 1 _ _ (le_S _ _ (le_n _)) eq_refl eq_refl). unfold center in H. simpl in H.
    assert (E1 : (Q2R 4 * Q2R 9 = 36)%R) by (unfold Q2R; simpl; field).
    assert (E2 : (Q2R 1 * Q2R 1 = 1)%R) by (unfold Q2R; simpl; field).
    rewrite E1, E2 in H. apply sqrt_le_0 in H; Lra.lra.
Qed.

Theorem C17_validate : forall rows,
  physical rows -> Permutation rows (fb_validate rows) /\ ordered_by center (fb_validate rows).
Proof.
  intros rows P. split; [|now apply fb_validate_ordered].
  unfold fb_validate. destruct (strictly_increasing _); [auto|apply fb_sort_perm].
Qed.

Example C17_hyp : physical [(4, 9); (1, 1); (2, 3)]%Q /\ fb_validate [(4, 9); (1, 1); (2, 3)]%Q = [(1, 1); (2, 3); (4, 9)]%Q.
Proof. split; [|vm_compute; reflexivity]. intros e [<-|[<-|[<-|[]]]]; split; discriminate. Qed.

(** C57. *)
Theorem C57_level_harmonics : forall bands,
  StronglySorted le (level_harmonics bands) /\
  forall i, count_occ Nat.eq_dec (level_harmonics bands) i =
            length (filter (fun b => (fst b <=? i) && (i <=? snd b)) bands).
Proof.
  intros bands.
  assert (T : forall a b, Nat.leb a b = false -> Nat.leb b a = true).
  { intros a b H. apply Nat.leb_gt in H. apply Nat.leb_le. lia. }
  assert (R : forall a b c, Nat.leb a b = true -> Nat.leb b c = true -> Nat.leb a c = true).
  { intros a b c H1 H2. apply Nat.leb_le in H1, H2. apply Nat.leb_le. lia. }
  unfold level_harmonics. split.
  - pose proof (sort_by_sorted Nat.leb T R (flat_map (fun b => harmonic_indices (fst b) (snd b)) bands)) as S.
    induction S as [|x l S IH F]; constructor; auto. rewrite Forall_forall in *. intros y Hy.
    apply Nat.leb_le. now apply F.
  - intros i. rewrite <- (proj1 (Permutation_count_occ Nat.eq_dec _ _) (sort_by_perm Nat.leb _)).
    induction bands as [|[a b] bands IH]; [reflexivity|]. cbn [flat_map fst snd filter]. rewrite count_occ_app, IH.
    assert (E : count_occ Nat.eq_dec (harmonic_indices a b) i = if (a <=? i) && (i <=? b) then 1 else 0).
    { unfold harmonic_indices, arange. pose proof (seq_NoDup (b + 1 - a) a) as ND.
      pose proof (in_seq (b + 1 - a) a i) as IS.
      destruct ((a <=? i) && (i <=? b)) eqn:E.
      - apply andb_true_iff in E. destruct E as [E1 E2]. apply Nat.leb_le in E1, E2.
        apply NoDup_count_occ'; [assumption|]. apply IS. lia.
      - apply count_occ_not_In. intros I. apply IS in I. apply andb_false_iff in E.
        destruct E as [E|E]; apply Nat.leb_gt in E; lia. }
    rewrite E. destruct ((a <=? i) && (i <=? b)); reflexivity.
Qed.

Example C57_hyp : level_harmonics [(5, 7); (1, 2); (2, 3)] = [1; 2; 2; 3; 5; 6; 7].
Proof. reflexivity. Qed.

(** The bounds are the bands' smallest and largest indices, sorted. *)
Theorem C57_bounds : forall bands,
  Permutation (map fst bands) (lower_bounds bands) /\ StronglySorted (fun a b => (a <=? b) = true) (lower_bounds bands) /\
  Permutation (map snd bands) (upper_bounds bands) /\ StronglySorted (fun a b => (a <=? b) = true) (upper_bounds bands).
Proof.
  assert (T : forall a b, Nat.leb a b = false -> Nat.leb b a = true).
  { intros a b H. apply Nat.leb_gt in H. apply Nat.leb_le. lia. }
  assert (R : forall a b c, Nat.leb a b = true -> Nat.leb b c = true -> Nat.leb a c = true).
  { intros a b c H1 H2. apply Nat.leb_le in H1, H2. apply Nat.leb_le. lia. }
  intros bands. repeat split; try apply sort_by_perm; apply (sort_by_sorted Nat.leb T R).
Qed.

(** Sorting the two lists separately loses which bound belongs to which band: with nested bands the
    i-th pair is not a band. *)
Theorem C57_bounds_pairing_refuted : exists bands i a b,
  nth_error (lower_bounds bands) i = Some a /\ nth_error (upper_bounds bands) i = Some b /\ ~ In (a, b) bands.
Proof.
  exists [(1, 9); (2, 3)], 0, 1, 3. repeat split. intros [H|[H|[]]]; discriminate.
Qed.

(** C58. *)
Theorem C58_fft_harmonics : forall n sr,
  n <> 0 -> ~ (sr == 0)%Q ->
  length (get_fft_harmonics n sr) = n / 2 /\
  forall k, k < n / 2 -> exists q, nth_error (get_fft_harmonics n sr) k = Some q /\
     (q == inject_Z (Z.of_nat k) * sr / inject_Z (Z.of_nat n))%Q.
Proof. exact fft_harmonics_eq. Qed.

(** Even window length: every multiple [k * sr / n] below the Nyquist frequency is listed. *)
Theorem C58_all_below_nyquist_partial : forall m sr k,
  m <> 0 -> (0 < sr)%Q ->
  ((exists q, nth_error (get_fft_harmonics (2 * m) sr) k = Some q) <->
   (inject_Z (Z.of_nat k) * sr / inject_Z (Z.of_nat (2 * m)) < sr / 2)%Q).
Proof.
  intros m sr k M S. destruct (fft_harmonics_eq (2 * m) sr) as [Len Eq]; [lia|lra|].
  assert (D : 2 * m / 2 = m) by (rewrite Nat.mul_comm; apply Nat.div_mul; discriminate). rewrite D in *.
  assert (P : (0 < inject_Z (Z.of_nat (2 * m)))%Q) by (change 0%Q with (inject_Z 0); rewrite <- Zlt_Qlt; lia).
  assert (E2 : (inject_Z (Z.of_nat (2 * m)) == 2 * inject_Z (Z.of_nat m))%Q).
  { rewrite Nat2Z.inj_mul, inject_Z_mult. reflexivity. }
  transitivity (k < m).
  - split.
    + intros [q H]. rewrite <- Len. apply nth_error_Some. congruence.
    + intros H. destruct (Eq k H) as (q & Hq & _). eauto.
  - split.
    + intros L. apply Qlt_shift_div_r; [exact P|]. rewrite E2.
      assert (X : (inject_Z (Z.of_nat k) < inject_Z (Z.of_nat m))%Q) by (rewrite <- Zlt_Qlt; lia).
      setoid_replace (sr / 2 * (2 * inject_Z (Z.of_nat m)))%Q with (inject_Z (Z.of_nat m) * sr)%Q by field.
      apply Qmult_lt_compat_r; assumption.
    + intros H. destruct (Nat.lt_ge_cases k m) as [L|L]; [exact L|]. exfalso.
      assert (X : (inject_Z (Z.of_nat m) <= inject_Z (Z.of_nat k))%Q) by (apply inject_nat_le; exact L).
      assert (Y : (sr / 2 <= inject_Z (Z.of_nat k) * sr / inject_Z (Z.of_nat (2 * m)))%Q).
      { apply Qle_shift_div_l; [exact P|]. rewrite E2.
        setoid_replace (sr / 2 * (2 * inject_Z (Z.of_nat m)))%Q with (inject_Z (Z.of_nat m) * sr)%Q by field.
        apply Qmult_le_compat_r; [exact X|lra]. }
      lra.
Qed.

Example C58_hyp : get_fft_harmonics 8 4 <> [] /\ length (get_fft_harmonics 8 4) = 4.
Proof. split; [vm_compute; discriminate|reflexivity]. Qed.

(** Odd window length: the last harmonic below Nyquist is missing, for every odd length. *)
Theorem C58_odd_length_refuted : forall m sr,
  (0 < sr)%Q -> m <> 0 ->
  (inject_Z (Z.of_nat m) * sr / inject_Z (Z.of_nat (2 * m + 1)) < sr / 2)%Q /\
  nth_error (get_fft_harmonics (2 * m + 1) sr) m = None.
Proof.
  intros m sr S M.
  assert (P : (0 < inject_Z (Z.of_nat (2 * m + 1)))%Q) by (change 0%Q with (inject_Z 0); rewrite <- Zlt_Qlt; lia).
  split.
  - apply Qlt_shift_div_r; [exact P|].
    assert (E2 : (inject_Z (Z.of_nat (2 * m + 1)) == 2 * inject_Z (Z.of_nat m) + 1)%Q).
    { rewrite Nat2Z.inj_add, inject_Z_plus, Nat2Z.inj_mul, inject_Z_mult. reflexivity. }
    rewrite E2. setoid_replace (sr / 2 * (2 * inject_Z (Z.of_nat m) + 1))%Q
      with (inject_Z (Z.of_nat m) * sr + sr / 2)%Q by field.
    assert (0 < sr / 2)%Q by (apply Qlt_shift_div_l; lra). lra.
  - apply nth_error_None. destruct (fft_harmonics_eq (2 * m + 1) sr) as [-> _]; [lia|lra|].
    rewrite Nat.add_comm, Nat.mul_comm, Nat.div_add by lia. simpl. lia.
Qed.

Print Assumptions C15_fft_harmonics_of_band.
Print Assumptions C16_overlaps_is_common_point.
Print Assumptions C17_bands.
Print Assumptions C57_level_harmonics.
Print Assumptions C58_all_below_nyquist_partial.
