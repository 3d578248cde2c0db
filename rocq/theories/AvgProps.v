(** C98: AVG files. *)
From Coq Require Import Qabs Qreals.
From Verif Require Import PyBase PyText PyNum IsoModel PyFloat PySci PyFacts TextFacts PyFloatFacts PySciFacts ValidatorsModel ValidatorsProofs UnitsModel LocationModel EdiProofs Cplx AvgHeadModel AvgHeadSpec AvgHeadProofs AvgHeadValues AvgHeadProps AvgModel AvgSpec AvgText AvgFile AvgFill AvgReal AvgProofs AvgAgain.
From Coq Require Import Reals Lra.
Local Open Scope nat_scope.

(** An object with arrays: frequencies that are positive and apart, an impedance, and a header that can be read back. *)
Definition with_arrays (o : avg) (freqs : list Q) (z : nat -> bool -> bool -> Q * Q) : Prop :=
  a_rows o = [] /\ a_freq o = Some freqs /\ a_z o = Some z /\ (a_positive o = Down \/ a_positive o = Up) /\ good_head (a_head o) /\
  freqs <> [] /\ (forall f, In f freqs -> (0 < f)%Q) /\ all_apart freqs.
Definition z_size (z : Q * Q) : R := size (Q2R (fst z)) (Q2R (snd z)).

Section Arithmetic.
Variable amp phase : Q -> Q -> Q.
Hypothesis good : accurate amp phase.

(** What is written is read back: the header, the frequencies to five digits and rising, every impedance within 0.0071 percent
    of its size at the place of its frequency, and the tipper (for z positive down). *)
Theorem C98_file o h0 freqs z : with_arrays o freqs z ->
  exists s g, write_file amp phase o = Ok s /\ read_file (a_positive o) h0 s = Ok g /\
    (forall f, comes_back f (h_value (a_head o) f) (h_value (g_head g) f)) /\ freqs_back freqs (g_freqs g) /\
    forall p f, nth_error freqs p = Some f -> exists k f', nth_error (g_freqs g) k = Some f' /\ near_freq f f' /\
      (forall i j, near (z p i j) (g_z g k i j)) /\
      match a_t o with
      | None => g_t g = None
      | Some t => exists T E, g_t g = Some (T, E) /\ (a_positive o = Down -> forall j, near (t p j) (T k false j))
      end.
Proof.
  intros (A1 & A2 & A3 & A4 & A5 & A6 & A7 & A8). destruct (file_core amp phase o h0 freqs z A1 A2 A3 A4 A5 A6 A7 A8) as (secs & g & _ & W & R & H & F & _ & _ & S).
  eexists; exists g. split; [exact W|]. split; [exact R|]. split; [exact H|]. split; [exact F|]. intros p f N. destruct (S p f N) as (k & f' & NK & NF & Z & T). exists k, f'. split; [exact NK|]. split; [exact NF|]. split.
  - intros i j. apply (Z i j (fun c _ => near (z p i j) c)). intros c r' (_ & _ & _ & _ & _ & M & P & _). destruct (z p i j) as [a b]. apply (value_near amp phase good r' a b M P).
  - destruct (a_t o) as [t|]; [|exact T]. destruct T as (T & E & ET & TP). exists T, E. split; [exact ET|]. intros D j. apply (TP j (fun c _ => near (t p j) c)). intros c r' (_ & _ & _ & _ & _ & M & P & _). unfold t_value. rewrite D. destruct (t p j) as [a b]. apply (value_near amp phase good r' a b M P).
Qed.
(** For z positive up the tipper is read with the opposite sign, and no tipper but zero is near its own opposite. *)
Theorem C98_up_tipper_refuted o h0 freqs z t : with_arrays o freqs z -> a_positive o = Up -> a_t o = Some t ->
  exists s g T E, write_file amp phase o = Ok s /\ read_file Up h0 s = Ok g /\ g_t g = Some (T, E) /\
    forall p f, nth_error freqs p = Some f -> exists k f', nth_error (g_freqs g) k = Some f' /\ near_freq f f' /\
      forall j, near (opposite (t p j)) (T k false j) /\ ((0 < z_size (t p j))%R -> ~ near (t p j) (T k false j)).
Proof.
  intros (A1 & A2 & A3 & A4 & A5 & A6 & A7 & A8) U HT. destruct (file_core amp phase o h0 freqs z A1 A2 A3 A4 A5 A6 A7 A8) as (secs & g & _ & W & R & _ & _ & _ & _ & S). rewrite U in R. rewrite HT in S.
  assert (GT : exists T E, g_t g = Some (T, E)). { destruct freqs as [|f0 l]; [congruence|]. destruct (S 0 f0 eq_refl) as (k & f' & _ & _ & _ & T & E & ET & _). exists T, E. exact ET. }
  destruct GT as (T & E & GT). eexists; exists g, T, E. split; [exact W|]. split; [exact R|]. split; [exact GT|]. intros p f N. destruct (S p f N) as (k & f' & NK & NF & _ & T2 & E2 & ET & TP). rewrite GT in ET. injection ET as <- <-. exists k, f'. split; [exact NK|]. split; [exact NF|].
  intros j. assert (NO : near (opposite (t p j)) (T k false j)).
  { apply (TP j (fun c _ => near (opposite (t p j)) c)). intros c r' (_ & _ & _ & _ & _ & M & P & _). unfold t_value. rewrite U. apply near_opp. destruct (t p j) as [a b]. apply (value_near amp phase good r' a b M P). }
  split; [exact NO|]. intros PZ NN. destruct NO as (u & v & EU & NO). destruct NN as (u' & v' & EU' & NN). rewrite EU in EU'. injection EU' as <- <-. unfold z_size in PZ. destruct (t p j) as [a b]. unfold opposite in NO. cbn [fst snd] in *. rewrite !Q2R_opp in NO.
  set (x := Q2R a) in *. set (y := Q2R b) in *. set (n := size x y) in *. assert (NS : size (- x) (- y) = n) by (unfold n, size; f_equal; ring). rewrite NS in NO.
  assert (S1 : (size (u - - x) (v - - y) * size (u - - x) (v - - y) <= (71 / 1000000 * n) * (71 / 1000000 * n))%R) by (apply Rmult_le_compat; try apply size_nonneg; exact NO).
  assert (S2 : (size (u - x) (v - y) * size (u - x) (v - y) <= (71 / 1000000 * n) * (71 / 1000000 * n))%R) by (apply Rmult_le_compat; try apply size_nonneg; exact NN).
  rewrite size_sq in S1, S2. pose proof (size_sq x y) as SN. fold n in SN. assert (0 < n * n)%R by (apply Rmult_lt_0_compat; exact PZ). pose proof (Rle_0_sqr u) as U1. pose proof (Rle_0_sqr v) as V1. unfold Rsqr in U1, V1. lra.
Qed.
(** An error between a thousandth of the impedance and the impedance is read more than a fifth too large. *)
Theorem C98_error_refuted o h0 freqs z e : with_arrays o freqs z -> a_zerr o = Some e ->
  exists s g, write_file amp phase o = Ok s /\ read_file (a_positive o) h0 s = Ok g /\
    forall p f, nth_error freqs p = Some f -> exists k f', nth_error (g_freqs g) k = Some f' /\ near_freq f f' /\
      forall i j, (0 < z_size (z p i j) -> z_size (z p i j) / 1000 <= Q2R (e p i j) <= z_size (z p i j) -> exists x, g_zerr g k i j = Some x /\ 12 / 10 * Q2R (e p i j) <= x)%R.
Proof.
  intros (A1 & A2 & A3 & A4 & A5 & A6 & A7 & A8) HE. destruct (file_core amp phase o h0 freqs z A1 A2 A3 A4 A5 A6 A7 A8) as (secs & g & _ & W & R & _ & _ & _ & _ & S).
  eexists; exists g. split; [exact W|]. split; [exact R|]. intros p f N. destruct (S p f N) as (k & f' & NK & NF & Z & _). exists k, f'. split; [exact NK|]. split; [exact NF|]. intros i j PZ B.
  apply (Z i j (fun _ er => exists x, er = Some x /\ 12 / 10 * Q2R (e p i j) <= x)%R). intros c r' RF. unfold z_error in RF. rewrite HE in RF. unfold z_size in *. destruct (z p i j) as [a b]. cbn [fst snd] in *.
  apply (error_grows amp phase good c f a b (e p i j) r' (A7 f (nth_error_In _ _ N)) PZ B RF).
Qed.
(** An error of at most 0.024 percent of the impedance is read as zero. *)
Theorem C98_small_error_refuted o h0 freqs z e : with_arrays o freqs z -> a_zerr o = Some e ->
  exists s g, write_file amp phase o = Ok s /\ read_file (a_positive o) h0 s = Ok g /\
    forall p f, nth_error freqs p = Some f -> exists k f', nth_error (g_freqs g) k = Some f' /\ near_freq f f' /\
      forall i j, (0 < z_size (z p i j) -> 0 <= Q2R (e p i j) <= 24 / 100000 * z_size (z p i j) -> g_zerr g k i j = Some 0)%R.
Proof.
  intros (A1 & A2 & A3 & A4 & A5 & A6 & A7 & A8) HE. destruct (file_core amp phase o h0 freqs z A1 A2 A3 A4 A5 A6 A7 A8) as (secs & g & _ & W & R & _ & _ & _ & _ & S).
  eexists; exists g. split; [exact W|]. split; [exact R|]. intros p f N. destruct (S p f N) as (k & f' & NK & NF & Z & _). exists k, f'. split; [exact NK|]. split; [exact NF|]. intros i j PZ B.
  apply (Z i j (fun _ er => er = Some 0%R)). intros c r' RF. unfold z_error in RF. rewrite HE in RF. unfold z_size in *. destruct (z p i j) as [a b]. cbn [fst snd] in *.
  apply (error_lost amp phase good c f a b (e p i j) r' (A7 f (nth_error_In _ _ N)) PZ B RF).
Qed.
(** The error of a tipper is read as its size, whatever it was. *)
Theorem C98_tipper_error_refuted o h0 freqs z t : with_arrays o freqs z -> a_t o = Some t ->
  exists s g T E, write_file amp phase o = Ok s /\ read_file (a_positive o) h0 s = Ok g /\ g_t g = Some (T, E) /\
    forall p f, nth_error freqs p = Some f -> exists k f', nth_error (g_freqs g) k = Some f' /\ near_freq f f' /\ forall j, exists x y, T k false j = Some (x, y) /\ E k false j = Some (size x y).
Proof.
  intros (A1 & A2 & A3 & A4 & A5 & A6 & A7 & A8) HT. destruct (file_core amp phase o h0 freqs z A1 A2 A3 A4 A5 A6 A7 A8) as (secs & g & _ & W & R & _ & _ & _ & _ & S). rewrite HT in S.
  assert (GT : exists T E, g_t g = Some (T, E)). { destruct freqs as [|f0 l]; [congruence|]. destruct (S 0 f0 eq_refl) as (k & f' & _ & _ & _ & T & E & ET & _). exists T, E. exact ET. }
  destruct GT as (T & E & GT). eexists; exists g, T, E. split; [exact W|]. split; [exact R|]. split; [exact GT|]. intros p f N. destruct (S p f N) as (k & f' & NK & NF & _ & T2 & E2 & ET & TP). rewrite GT in ET. injection ET as <- <-. exists k, f'. split; [exact NK|]. split; [exact NF|].
  intros j. apply (TP j (fun c er => exists x y, c = Some (x, y) /\ er = Some (size x y))). intros c r' (_ & _ & _ & _ & _ & M & P & _). unfold t_value, row_t_error, row_value. cbn [t_row r_mag r_phase] in M, P. destruct (r_mag r') as [m|]; [|destruct M]. destruct (r_phase r') as [ph|]; [|destruct P].
  cbn [option_map]. destruct (a_positive o); cbn [Cneg option_map]; [eexists _, _; split; reflexivity| |eexists _, _; split; reflexivity]. eexists _, _. split; [reflexivity|]. unfold magnitude, size. cbn [fst snd]. do 2 f_equal. ring.
Qed.
(** Writing what was read gives the same lines of data, character for character. *)
Theorem C98_again o h0 freqs z : with_arrays o freqs z ->
  exists data g, write_file amp phase o = Ok (join [newline] (write_header (a_head o) ++ data)) /\
    read_file (a_positive o) h0 (join [newline] (write_header (a_head o) ++ data)) = Ok g /\
    forall o', write_file amp phase (reread (a_positive o) g o') = Ok (join [newline] (write_header (g_head g) ++ data)).
Proof.
  intros (A1 & A2 & A3 & A4 & A5 & A6 & A7 & A8). destruct (file_core amp phase o h0 freqs z A1 A2 A3 A4 A5 A6 A7 A8) as (secs & g & SE & W & R & _ & _ & F & GC & _).
  exists (concat secs), g. split; [exact W|]. split; [exact R|]. intros o'. unfold write_file, reread. cbn [a_rows a_comps a_head].
  assert (N : g_rows g <> []) by (apply (rows'_nonempty amp phase o freqs z A3 A4 A6 (g_rows g) F)).
  assert (E : forall (f : list row * list text -> result text), bindR (match g_rows g with [] => create_rows amp phase (mkAvg (a_positive o) (g_head g) (g_rows g) (g_comps g) (Some (g_freqs g)) (a_z o') (a_zerr o') (a_t o') (a_terr o')) | rows => Ok (rows, g_comps g) end) f = f (g_rows g, g_comps g)) by (intros f; destruct (g_rows g); [congruence|reflexivity]).
  rewrite E. cbn [fst snd]. rewrite GC, (again_comps amp phase o freqs (g_rows g) F), (again_sections amp phase o freqs A4 A7 A8 (g_rows g) F), SE. reflexivity.
Qed.
(** An object that was read writes what was read: changes to its impedance or tipper are not written. *)
Theorem C98_stale_refuted p g : g_rows g <> [] -> forall o o', write_file amp phase (reread p g o) = write_file amp phase (reread p g o').
Proof. intros N o o'. unfold write_file, reread. cbn [a_rows a_comps a_head]. destruct (g_rows g); [congruence|reflexivity]. Qed.
(** A tipper without an impedance is not written. *)
Theorem C98_no_impedance_refuted o : a_rows o = [] -> a_z o = None -> write_file amp phase o = Err ValueError.
Proof. intros A B. unfold write_file. rewrite A. unfold create_rows. rewrite B. reflexivity. Qed.
(** An object with the header of a new object is written, but no file of it can be read. *)
Theorem C98_new_refuted o freqs z : a_rows o = [] -> a_freq o = Some freqs -> a_z o = Some z -> (a_positive o = Down \/ a_positive o = Up) -> a_head o = new_head ->
  freqs <> [] -> (forall f, In f freqs -> (0 < f)%Q) -> exists s, write_file amp phase o = Ok s /\ forall p h0, exists e, read_file p h0 s = Err e.
Proof.
  intros A1 A2 A3 A4 A5 A6 A7. destruct (secs_ok amp phase o freqs A4) as (secs & S). eexists. split; [apply (write_ok amp phase o freqs z A1 A2 A3 A4 A6 A7 secs S)|]. intros p h0.
  assert (NE : concat secs <> []).
  { pose proof (comps_nonempty amp phase o freqs z A3 A4 A6) as CN. pose proof (comps_have amp phase o freqs) as CH. destruct (unique_texts (map r_comp (rows_of amp phase o freqs))) as [|c comps]; [congruence|]. cbn [map_result] in S. pose proof (Forall_inv CH) as NR.
    destruct (section (rows_of amp phase o freqs) c) as [ls|] eqn:SC; [|discriminate S]. cbn [bindR] in S. destruct (map_result (section (rows_of amp phase o freqs)) comps) as [ss|]; [|discriminate S]. cbn [bindR] in S. apply Ok_inj in S. subst secs.
    unfold section in SC. unfold of_comp in NR. destruct (filter (fun r => text_eqb (r_comp r) c) (rows_of amp phase o freqs)) as [|r0 l]; [exfalso; apply NR; reflexivity|]. destruct (map_result row_line (sort_rows (r0 :: l))); [|discriminate SC]. cbn [bindR] in SC. apply Ok_inj in SC. subst ls. discriminate. }
  destruct (C97_new_refuted h0 (concat secs) NE) as (e & X). exists e. unfold read_file. rewrite A5, X. reflexivity.
Qed.
End Arithmetic.

(** Any file read with z positive up has x and y exchanged and the opposite tipper. *)
Theorem C98_frame h0 s g : read_file Down h0 s = Ok g ->
  exists g', read_file Up h0 s = Ok g' /\ g_head g' = g_head g /\ g_freqs g' = g_freqs g /\
    (forall k i j, g_z g' k i j = g_z g k (negb i) (negb j) /\ g_zerr g' k i j = g_zerr g k (negb i) (negb j)) /\
    match g_t g, g_t g' with
    | Some (T, E), Some (T', E') => forall k j, T' k false j = Cneg (T k false (negb j)) /\ E' k false j = E k false (negb j)
    | None, None => True
    | _, _ => False
    end.
Proof.
  unfold read_file. destruct (read_header h0 (readlines s)) as [[h lines]|]; [|discriminate]. cbn [bindR fst snd]. destruct (read_rows None lines) as [rows|]; [|discriminate]. cbn [bindR]. destruct rows as [|r0 rows0]; [discriminate|]. set (rows := r0 :: rows0).
  destruct (finite_freqs rows) as [fs|]; [|discriminate]. cbn [bindR]. set (freqs := sort_freqs fs). unfold fill_z. cbn [comp_index bindR].
  destruct (fill row_value row_z_error index_down freqs (filter (fun r => starts "z" (r_comp r)) rows) zeros ones) as [[Z E]|] eqn:FZ; [|discriminate]. cbn [bindR fst snd].
  assert (NI : forall a b, negb a = negb b -> a = b) by (intros [] []; auto).
  destruct (fill_swapped negb negb (fun x => x) NI NI row_value row_z_error index_down index_up freqs (filter (fun r => starts "z" (r_comp r)) rows) zeros ones zeros ones Z E) as (Z2 & E2 & FZ2 & SZ & SE); [intros r I; apply filter_In in I; apply place_swap_z, I|intros k i j; reflexivity|intros k i j; reflexivity|exact FZ|].
  assert (FZ3 : fill row_value row_z_error index_up freqs (filter (fun r => starts "z" (r_comp r)) rows) zeros ones = Ok (Z2, E2)) by exact FZ2. cbn [comp_index bindR]. rewrite FZ3. cbn [bindR fst snd]. unfold fill_t. destruct (memb (txt "tzx") (map r_comp rows)).
  - cbn [comp_index bindR]. destruct (fill row_value row_t_error index_down freqs (filter (fun r => starts "t" (r_comp r)) rows) zeros ones) as [[T F]|] eqn:FT; [|discriminate]. cbn [bindR].
    destruct (fill_swapped (fun b => b) negb Cneg (fun a b H => H) NI row_value row_t_error index_down index_up freqs (filter (fun r => starts "t" (r_comp r)) rows) zeros ones zeros ones T F) as (T2 & F2 & FT2 & ST & SF); [intros r I; apply filter_In in I; apply place_swap_t, I|intros k i j; unfold zeros, Cneg, C0, Copp; cbn [option_map fst snd]; rewrite Ropp_0; reflexivity|intros k i j; reflexivity|exact FT|].
    intros G. apply Ok_inj in G. subst g. cbn [comp_index bindR]. rewrite FT2. cbn [bindR]. eexists. split; [reflexivity|]. cbn [g_head g_freqs g_z g_zerr g_t]. split; [reflexivity|]. split; [reflexivity|]. split.
    + intros k i j. split; [rewrite <- (SZ k (negb i) (negb j))|rewrite <- (SE k (negb i) (negb j))]; rewrite !negb_involutive; reflexivity.
    + intros k j. split; [rewrite <- (ST k false (negb j))|rewrite <- (SF k false (negb j))]; rewrite negb_involutive; reflexivity.
  - intros G. cbn [bindR] in G. apply Ok_inj in G. subst g. cbn [bindR]. eexists. split; [reflexivity|]. cbn [g_head g_freqs g_z g_zerr g_t]. split; [reflexivity|]. split; [reflexivity|]. split; [|exact I].
    intros k i j. split; [rewrite <- (SZ k (negb i) (negb j))|rewrite <- (SE k (negb i) (negb j))]; rewrite !negb_involutive; reflexivity.
Qed.

(** ** Instances *)
(** There are accurate functions: magnitudes and phases rounded up. *)
Local Open Scope R_scope.
Definition angle (a b : R) : R := if Req_EM_T (size a b) 0 then 0 else if Rle_dec 0 b then acos (a / size a b) else - acos (a / size a b).
Lemma angle_spec a b : a = size a b * cos (angle a b) /\ b = size a b * sin (angle a b).
Proof.
  pose proof (size_sq a b) as S. unfold angle. destruct (Req_EM_T (size a b) 0) as [Z|NZ].
  - rewrite Z in *. pose proof (Rle_0_sqr a) as A. pose proof (Rle_0_sqr b) as B. unfold Rsqr in *. split; rewrite Rmult_0_l; apply Rsqr_0_uniq; unfold Rsqr; lra.
  - pose proof (size_nonneg a b) as N. set (n := size a b) in *. assert (P : 0 < n) by lra. pose proof (Rle_0_sqr b) as B. unfold Rsqr in B.
    assert (L : -1 <= a / n <= 1). { assert (Q : a * a <= n * n) by lra. apply Rsqr_le_abs_0 in Q. rewrite (Rabs_right n) in Q by lra. apply Rabs_le_inv in Q. split; [apply Rmult_le_reg_r with n|apply Rmult_le_reg_r with n]; try exact P; unfold Rdiv; rewrite Rmult_assoc, Rinv_l by lra; lra. }
    assert (SN : sqrt (1 - (a / n)²) = Rabs b / n). { replace (1 - (a / n)²) with ((Rabs b / n)²). - apply sqrt_Rsqr. apply Rmult_le_pos; [apply Rabs_pos|apply Rlt_le, Rinv_0_lt_compat; exact P]. - rewrite !Rsqr_div'. rewrite <- Rsqr_abs. unfold Rsqr. apply Rmult_eq_reg_r with (n * n); [|intros X; apply NZ; apply Rsqr_0_uniq; exact X]. field_simplify; [lra|exact NZ|exact NZ]. }
    destruct (Rle_dec 0 b) as [G|G].
    + rewrite cos_acos by exact L. rewrite sin_acos by exact L. rewrite SN, (Rabs_right b) by lra. split; field; lra.
    + rewrite cos_neg, sin_neg, cos_acos by exact L. rewrite sin_acos by exact L. rewrite SN, (Rabs_left b) by lra. split; field; lra.
Qed.
Definition up_scale (m : R) : BinNums.positive := Z.to_pos (up (1000000000 / m)).
Definition sample_amp (a b : Q) : Q := let m := size (Q2R a) (Q2R b) in if Req_EM_T m 0 then 0%Q else Qmake (up (m * IZR (Zpos (up_scale m)))) (up_scale m).
Definition sample_phase (a b : Q) : Q := Qmake (up (1000000000 * angle (Q2R a) (Q2R b))) 1000000.
Lemma sample_accurate : accurate sample_amp sample_phase.
Proof.
  intros a b m. split.
  - unfold sample_amp. fold m. destruct (Req_EM_T m 0) as [Z|NZ]; [rewrite Z, RMicromega.Q2R_0; rewrite Rminus_0_r, Rabs_R0; lra|].
    pose proof (size_nonneg (Q2R a) (Q2R b)) as N. fold m in N. assert (P : 0 < m) by lra. assert (Q : 0 < 1000000000 / m) by (apply Rdiv_lt_0_compat; lra).
    destruct (archimed (1000000000 / m)) as [U1 U2]. assert (UP : (0 < up (1000000000 / m))%Z) by (apply lt_IZR; lra). unfold Q2R. cbn [Qnum Qden]. unfold up_scale. rewrite Z2Pos.id by exact UP. set (K := IZR (up (1000000000 / m))) in *. assert (KP : 0 < K) by lra.
    destruct (archimed (m * K)) as [V1 V2]. set (X := IZR (up (m * K))) in *. assert (E : X * / K - m = (X - m * K) / K) by (field; lra). rewrite E. rewrite Rabs_right.
    + apply Rmult_le_reg_r with K; [exact KP|]. unfold Rdiv. rewrite Rmult_assoc, Rinv_l by lra. assert (M : 1 <= / 1000000000 * m * K). { assert (1000000000 < m * K). { apply Rmult_lt_reg_l with (/ m); [apply Rinv_0_lt_compat; exact P|]. rewrite <- Rmult_assoc, Rinv_l by lra. unfold Rdiv in U1. lra. } lra. } lra.
    + apply Rle_ge, Rmult_le_pos; [lra|apply Rlt_le, Rinv_0_lt_compat; exact KP].
  - exists (angle (Q2R a) (Q2R b)). destruct (angle_spec (Q2R a) (Q2R b)) as [A B]. split; [exact A|]. split; [exact B|]. unfold sample_phase, Q2R. cbn [Qnum Qden]. destruct (archimed (1000000000 * angle (Q2R a) (Q2R b))) as [U1 U2]. unfold Q2R in U1, U2.
    set (X := IZR (up _)) in *. apply Rabs_le. lra.
Qed.
Local Close Scope R_scope.
Definition sample_freqs : list Q := [(1 # 10)%Q; 100%Q; (25 # 2)%Q].
Definition sample_z (p : nat) (i j : bool) : Q * Q := if Bool.eqb i j then ((1 # 7)%Q, (- (1 # 3))%Q) else ((inject_Z (Z.of_nat p) + 3)%Q, 4%Q).
Definition sample_t (p : nat) (j : bool) : Q * Q := ((1 # 5)%Q, if j then (- (1 # 10))%Q else (3 # 10)%Q).
Definition sample_avg (p : AvgModel.positive) : avg := mkAvg p sample_head [] [] (Some sample_freqs) (Some sample_z) (Some (fun _ i j => if Bool.eqb i j then (1 # 100000)%Q else (1 # 10)%Q)) (Some sample_t) None.
Example C98_file_hyp : (exists amp phase, accurate amp phase) /\ with_arrays (sample_avg Down) sample_freqs sample_z /\ with_arrays (sample_avg Up) sample_freqs sample_z.
Proof.
  split; [exists sample_amp, sample_phase; exact sample_accurate|].
  assert (AA : all_apart sample_freqs). { intros p q f g P Q N. destruct p as [|[|[|p]]]; [| | |destruct p; discriminate P]; cbn in P; injection P as <-; (destruct q as [|[|[|q]]]; [| | |destruct q; discriminate Q]); cbn in Q; injection Q as <-; try congruence; unfold apart; Lqa.lra. }
  assert (PP : forall f, In f sample_freqs -> (0 < f)%Q) by (intros f I; cbn in I; repeat (destruct I as [<-|I]; [reflexivity|]); destruct I).
  destruct C97_header_hyp as [GH _]. split; (split; [reflexivity|]; split; [reflexivity|]; split; [reflexivity|]; split; [first [left; reflexivity|right; reflexivity]|]; split; [exact GH|]; split; [discriminate|]; split; assumption).
Qed.
(** Two frequencies with the same five digits are one frequency afterwards. *)
Definition merged_avg : avg := mkAvg Down sample_head [] [] (Some [1%Q; (1000004 # 1000000)%Q]) (Some sample_z) None None None.
Definition number_read (amp phase : Q -> Q -> Q) (o : avg) : option nat := match write_file amp phase o with Ok s => match read_file (a_positive o) new_head s with Ok g => Some (length (g_freqs g)) | Err _ => None end | Err _ => None end.
Theorem C98_merge_refuted : good_head (a_head merged_avg) /\ number_read (fun a b => Qabs a) (fun a b => 0%Q) merged_avg = Some 1 /\ number_read (fun a b => Qabs a) (fun a b => 0%Q) (sample_avg Down) = Some 3.
Proof. split; [apply C97_header_hyp|]. split; lazy; reflexivity. Qed.
(** The errors of the sample are in both ranges, its tipper is not zero. *)
Example C98_error_hyp : exists e, a_zerr (sample_avg Down) = Some e /\ (0 < z_size (sample_z 0 false true) /\ z_size (sample_z 0 false true) / 1000 <= Q2R (e 0%nat false true) <= z_size (sample_z 0 false true))%R /\
  (0 < z_size (sample_z 0 false false) /\ 0 <= Q2R (e 0%nat false false) <= 24 / 100000 * z_size (sample_z 0 false false))%R.
Proof.
  eexists. split; [reflexivity|]. cbn [Bool.eqb]. assert (A : z_size (sample_z 0 false true) = 5%R). { unfold z_size, size, sample_z, Q2R. cbn. replace ((3 * / 1) * (3 * / 1) + (4 * / 1) * (4 * / 1))%R with (5 * 5)%R by field. apply sqrt_square. lra. }
  assert (B : (1 / 3 <= z_size (sample_z 0 false false))%R). { unfold z_size, size, sample_z, Q2R. cbn. replace (1 / 3)%R with (sqrt ((1 / 3) * (1 / 3)))%R by (apply sqrt_square; lra). apply sqrt_le_1_alt. lra. }
  rewrite A. replace (Q2R (1 # 10)) with (1 / 10)%R by (unfold Q2R; cbn; field). replace (Q2R (1 # 100000)) with (1 / 100000)%R by (unfold Q2R; cbn; field). lra.
Qed.
Example C98_up_tipper_hyp : a_t (sample_avg Up) = Some sample_t /\ (0 < z_size (sample_t 0 true))%R.
Proof. split; [reflexivity|]. unfold z_size, size. apply sqrt_lt_R0. unfold sample_t, Q2R. cbn. lra. Qed.
Definition new_avg : avg := mkAvg Down new_head [] [] (Some sample_freqs) (Some sample_z) None None None.
Example C98_new_hyp : a_rows new_avg = [] /\ a_freq new_avg = Some sample_freqs /\ a_z new_avg = Some sample_z /\ a_head new_avg = new_head. Proof. repeat split. Qed.
Example C98_no_impedance_hyp : exists o, a_rows o = [] /\ a_z o = None /\ a_t o = Some sample_t. Proof. exists (mkAvg Down sample_head [] [] (Some sample_freqs) None None (Some sample_t) None). repeat split. Qed.
Example C98_frame_hyp : exists s g, read_file Down new_head s = Ok g /\ g_rows g <> [].
Proof.
  destruct C98_file_hyp as (_ & (A1 & A2 & A3 & A4 & A5 & A6 & A7 & A8) & _). destruct (file_core sample_amp sample_phase (sample_avg Down) new_head sample_freqs sample_z A1 A2 A3 A4 A5 A6 A7 A8) as (secs & g & _ & _ & R & _ & _ & F & _).
  eexists; exists g. split; [exact R|]. apply (rows'_nonempty sample_amp sample_phase (sample_avg Down) sample_freqs sample_z A3 A4 A6 (g_rows g) F).
Qed.

Print Assumptions C98_file.
Print Assumptions C98_up_tipper_refuted.
Print Assumptions C98_error_refuted.
Print Assumptions C98_small_error_refuted.
Print Assumptions C98_tipper_error_refuted.
Print Assumptions C98_again.
Print Assumptions C98_stale_refuted.
Print Assumptions C98_no_impedance_refuted.
Print Assumptions C98_new_refuted.
Print Assumptions C98_frame.
Print Assumptions C98_merge_refuted.
