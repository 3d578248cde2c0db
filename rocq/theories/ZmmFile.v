(** Lemmas for C51: the matrices, one block, the file. *)
From Coq Require Import Qabs Qpower Lqa.
From Verif Require Import PyBase PyText TextFacts PyNum IsoModel IsoProofs PyFloat PyFloatFacts PySci PySciFacts EdiModel EdiProofs ZmmModel ZmmSpec ZmmProofs ZmmBlock.
Local Open Scope list_scope.
Local Open Scope Z_scope.

Lemma zset_same i j v m : zset i j v m i j = v.
Proof. unfold zset. rewrite !Nat.eqb_refl. reflexivity. Qed.
Lemma zset_other i j v m a b : a <> i \/ b <> j -> zset i j v m a b = m a b.
Proof. intros [N|N]; unfold zset; apply Nat.eqb_neq in N; rewrite N; [reflexivity|rewrite andb_false_r; reflexivity]. Qed.
Lemma fill_tf_ok n (tf : nat -> nat -> Q * Q) : forall len k m yss, (k + len <= n)%nat ->
  Forall2 (Forall2 reads_pair) (map (fun i => [tf i 0%nat; tf i 1%nat]) (seq k len)) yss ->
  exists m', fill_tf n k (concat yss) m = Ok m' /\ (forall i j, (k <= i < k + len)%nat -> (j < 2)%nat -> reads_pair (tf i j) (m' i j)) /\
    (forall i j, (i < k)%nat -> m' i j = m i j).
Proof.
  induction len as [|len IH]; intros k m yss L F; cbn [seq map] in F.
  - inversion F; subst. exists m. split; [reflexivity|]. split; [intros; lia|reflexivity].
  - inversion F as [|? ys ? yss' A B]; subst. inversion A as [|? a ? r A1 A2]; subst. inversion A2 as [|? b ? r' A3 A4]; subst. inversion A4; subst.
    cbn [concat app fill_tf]. rewrite (proj2 (Nat.ltb_lt k n)) by lia.
    destruct (IH (S k) (zset k 1 b (zset k 0 a m)) yss' ltac:(lia) B) as (m' & E & H1 & H2). exists m'. split; [exact E|]. split.
    + intros i j Li Lj. destruct (Nat.eq_dec i k) as [->|N]; [|apply H1; lia]. rewrite H2 by lia. destruct j as [|[|j]]; [| |lia].
      * rewrite zset_other by (right; lia). rewrite zset_same. exact A1.
      * rewrite zset_same. exact A3.
    + intros i j Li. rewrite H2 by lia. rewrite !zset_other by (left; lia). reflexivity.
Qed.
Lemma reads_conj x y : reads_pair x y -> conj_of y (zconj y).
Proof. intros [_ (v & E & _)]. unfold conj_of, zconj. cbn [fst snd]. split; [reflexivity|]. rewrite E. cbn. reflexivity. Qed.
Lemma fill_sig_ok (s : nat -> nat -> Q * Q) yss : Forall2 (Forall2 reads_pair) (tri_rows 2 s) yss ->
  exists m, fill_sig (concat yss) = Ok m /\ (forall i j, (i < 2)%nat -> (j <= i)%nat -> reads_pair (s i j) (m i j)) /\ hermitian_read 2 m.
Proof.
  intros F. unfold tri_rows in F. cbn [seq map] in F.
  inversion F as [|? y0 ? yss' A B]; subst. inversion B as [|? y1 ? yss'' A' B']; subst. inversion B'; subst.
  inversion A as [|? a ? r A1 A2]; subst. inversion A2; subst. inversion A' as [|? b ? r' A3 A4]; subst. inversion A4 as [|? c ? r'' A5 A6]; subst. inversion A6; subst.
  cbn [concat app fill_sig]. eexists. split; [reflexivity|]. split.
  - intros i j Li Lj. destruct i as [|[|i]]; [| |lia]; destruct j as [|[|j]]; try lia; unfold zset; cbn [Nat.eqb andb]; assumption.
  - intros i j Lj Li. assert (i = 1%nat) by lia. assert (j = 0%nat) by lia. subst. unfold zset. cbn [Nat.eqb andb]. exact (reads_conj _ _ A3).
Qed.
(** One row of the triangle. *)
Lemma fill_row_ok j values : (forall k, (k <= j)%nat -> nth_error values k <> None) -> forall len k m, (k + len = S j)%nat ->
  exists m', fill_res_row j (seq k len) values m = Ok m' /\
    (forall k', (k <= k' <= j)%nat -> nth_error values k' = Some (m' j k') /\ ((k' < j)%nat -> m' k' j = zconj (m' j k'))) /\
    (forall a b, ~ (a = j /\ (k <= b <= j)%nat) -> ~ (b = j /\ (k <= a <= j)%nat) -> m' a b = m a b).
Proof.
  intros V. induction len as [|len IH]; intros k m L; cbn [seq fill_res_row].
  - exists m. split; [reflexivity|]. split; [intros; lia|reflexivity].
  - destruct (nth_error values k) as [v|] eqn:E; [|destruct (V k ltac:(lia) E)].
    set (m1 := if Nat.eqb j k then zset j k v m else zset k j (zconj v) (zset j k v m)).
    destruct (IH (S k) m1 ltac:(lia)) as (m' & R & H1 & H2). exists m'. split; [exact R|]. 
    assert (P : m' j k = v /\ ((k < j)%nat -> m' k j = zconj v)).
    { rewrite H2 by lia. unfold m1. destruct (Nat.eqb_spec j k) as [<-|N].
      - rewrite zset_same. split; [reflexivity|lia].
      - rewrite zset_other by lia. rewrite zset_same. split; [reflexivity|]. intros Lk. rewrite H2 by lia. unfold m1. apply zset_same. }
    split.
    + intros k' Lk. destruct (Nat.eq_dec k' k) as [->|N]; [|apply H1; lia]. destruct P as [P1 P2]. rewrite P1. split; [exact E|exact P2].
    + intros a b N1 N2. rewrite H2 by lia. unfold m1. destruct (Nat.eqb_spec j k) as [<-|N]; rewrite ?zset_other by lia; reflexivity.
Qed.
Lemma fill_res_ok (rows : list (list zval)) (n : nat) : (forall j k, (j < n)%nat -> (k <= j)%nat -> exists r, nth_error rows j = Some r /\ nth_error r k <> None) ->
  forall len j m, (j + len = n)%nat ->
  (forall i k, (i < j)%nat -> (k <= i)%nat -> (exists r, nth_error rows i = Some r /\ nth_error r k = Some (m i k)) /\ ((k < i)%nat -> m k i = zconj (m i k))) ->
  exists m', fill_res (seq j len) rows m = Ok m' /\
    (forall i k, (i < n)%nat -> (k <= i)%nat -> (exists r, nth_error rows i = Some r /\ nth_error r k = Some (m' i k)) /\ ((k < i)%nat -> m' k i = zconj (m' i k))).
Proof.
  intros V. induction len as [|len IH]; intros j m L H.
  - exists m. split; [reflexivity|]. intros i k Li Lk. apply H; lia.
  - change (seq j (S len)) with (j :: seq (S j) len). cbn [fill_res]. destruct (V j 0%nat ltac:(lia) ltac:(lia)) as (r & E & _). rewrite E.
    assert (VR : forall k, (k <= j)%nat -> nth_error r k <> None).
    { intros k Lk. destruct (V j k ltac:(lia) Lk) as (r' & E' & N). rewrite E in E'. injection E' as <-. exact N. }
    destruct (fill_row_ok j r VR (S j) 0 m ltac:(lia)) as (m' & R & H1 & H2). rewrite R. cbn [bindR]. apply IH; [lia|].
    intros i k Li Lk. destruct (Nat.eq_dec i j) as [->|N].
    + destruct (H1 k ltac:(lia)) as [A B]. split; [exists r; split; assumption|exact B].
    + rewrite (H2 i k) by lia. destruct (H i k ltac:(lia) Lk) as [A B]. split; [exact A|]. intros Lt. rewrite (H2 k i) by lia. exact (B Lt).
Qed.
Lemma Forall2_nth {A B} (P : A -> B -> Prop) la lb : Forall2 P la lb -> forall i a, nth_error la i = Some a -> exists b, nth_error lb i = Some b /\ P a b.
Proof.
  intros F. induction F as [|a b la lb H F IH]; intros i x E; [destruct i; discriminate E|]. destruct i as [|i].
  - injection E as <-. exists b. split; [reflexivity|exact H].
  - exact (IH i x E).
Qed.
Lemma nth_map_seq {A} (f : nat -> A) n : forall s i, (i < n)%nat -> nth_error (map f (seq s n)) i = Some (f (s + i)%nat).
Proof.
  induction n as [|n IH]; intros s i L; [lia|]. cbn [seq map]. destruct i as [|i]; [rewrite Nat.add_0_r; reflexivity|]. cbn [nth_error]. rewrite IH by lia. f_equal. f_equal. lia.
Qed.
Lemma nth_error_app_left {A} (l r : list A) i x : nth_error l i = Some x -> nth_error (l ++ r) i = Some x.
Proof. intros E. rewrite nth_error_app1; [exact E|]. apply nth_error_Some. congruence. Qed.
Lemma fill_res_matrix n (e : nat -> nat -> Q * Q) yss extra : Forall2 (Forall2 reads_pair) (tri_rows n e) yss ->
  exists m, fill_res (seq 0 n) (yss ++ extra) (fun _ _ => zzero) = Ok m /\ (forall i j, (i < n)%nat -> (j <= i)%nat -> reads_pair (e i j) (m i j)) /\ hermitian_read n m.
Proof.
  intros F.
  assert (G : forall i j, (i < n)%nat -> (j <= i)%nat -> exists r v, nth_error (yss ++ extra) i = Some r /\ nth_error r j = Some v /\ reads_pair (e i j) v).
  { intros i j Li Lj. destruct (Forall2_nth _ _ _ F i _ (nth_map_seq _ n 0 i Li)) as (r & E & FR). cbn [Nat.add] in FR.
    destruct (Forall2_nth _ _ _ FR j _ (nth_map_seq (e i) (S i) 0 j ltac:(lia))) as (v & E' & RV). exists r, v. split; [apply nth_error_app_left; exact E|]. split; assumption. }
  destruct (fill_res_ok (yss ++ extra) n) with (len := n) (j := 0%nat) (m := fun _ _ : nat => zzero) as (m & E & H).
  - intros j k Lj Lk. destruct (G j k Lj Lk) as (r & v & E1 & E2 & _). exists r. split; [exact E1|congruence].
  - lia.
  - intros; lia.
  - exists m. split; [exact E|].
    assert (RD : forall i j, (i < n)%nat -> (j <= i)%nat -> reads_pair (e i j) (m i j)).
    { intros i j Li Lj. destruct (G i j Li Lj) as (r & v & E1 & E2 & RV). destruct (H i j Li Lj) as [(r' & E1' & E2') _]. rewrite E1 in E1'. injection E1' as <-. rewrite E2 in E2'. injection E2' as <-. exact RV. }
    split; [exact RD|]. intros i j Lj Li. destruct (H i j Li ltac:(lia)) as [_ C]. rewrite (C Lj). exact (reads_conj _ _ (RD i j Li ltac:(lia))).
Qed.
(** ** One block *)
Definition rest_lines (n : nat) (d : zdata) : list text :=
  line_of (ptail d) :: line_of (points d) :: txt " transfer functions" :: map (fun l => lower (zrow l)) (tf_rows n (zd_tf d)) ++
  txt " inverse coherent signal power matrix" :: map (fun l => lower (zrow l)) (tri_rows 2 (zd_sig d)) ++
  txt " residual covariance" :: map (fun l => lower (zrow l)) (tri_rows n (zd_res d)).
Lemma rows_printable n d : writable_block n d -> Forall (Forall printable_pair) (tf_rows n (zd_tf d)) /\ Forall (Forall printable_pair) (tri_rows 2 (zd_sig d)) /\
  Forall (Forall printable_pair) (tri_rows n (zd_res d)).
Proof.
  intros (_ & _ & _ & _ & T & S0 & E). split; [|split].
  - unfold tf_rows. apply Forall_forall. intros l I. apply in_map_iff in I as (i & <- & I). apply in_seq in I. constructor; [apply T; lia|]. constructor; [apply T; lia|constructor].
  - unfold tri_rows. apply Forall_forall. intros l I. apply in_map_iff in I as (i & <- & I). apply in_seq in I. apply Forall_forall. intros x J. apply in_map_iff in J as (j & <- & J). apply in_seq in J. apply S0; lia.
  - unfold tri_rows. apply Forall_forall. intros l I. apply in_map_iff in I as (i & <- & I). apply in_seq in I. apply Forall_forall. intros x J. apply in_map_iff in J as (j & <- & J). apply in_seq in J. apply E; lia.
Qed.
(** What the reader has for the numbers. *)
Definition got (n : nat) (d : zdata) (r : zread) : Prop :=
  (exists p, zr_period r = Fin p /\ (p == inject_Z (round_half_even (zd_period d * inject_Z (10 ^ Z.of_nat 5))) / inject_Z (10 ^ Z.of_nat 5))%Q) /\
  zr_level r = zd_level d /\ zr_band r = zd_band d /\ zr_npts r = zd_npts d /\ read_float (zd_rate d) = Some (zr_rate r) /\
  (forall i j, (i < n)%nat -> (j < 2)%nat -> reads_pair (zd_tf d i j) (zr_tf r i j)) /\
  (forall i j, (i < 2)%nat -> (j <= i)%nat -> reads_pair (zd_sig d i j) (zr_sig r i j)) /\
  (forall i j, (i < n)%nat -> (j <= i)%nat -> reads_pair (zd_res d i j) (zr_res r i j)) /\
  hermitian_read 2 (zr_sig r) /\ hermitian_read n (zr_res r).
Lemma read_rows_empty k b : read_rows k b [[]] = Ok (add_row k [] b).
Proof. cbn [read_rows]. reflexivity. Qed.
Lemma read_block_ok n d extra : writable_block n d -> extra = [] \/ extra = [[]] -> exists r, read_block n (rest_lines n d ++ extra) = Ok r /\ got n d r.
Proof.
  intros WB EX. destruct (read_ptail n d WB) as ((p & P1 & P2) & L1 & B0 & B1). destruct (read_points n d WB) as (NP & (v & RT & RV)).
  destruct (rows_printable n d WB) as (F1 & F2 & F3).
  unfold read_block, rest_lines. cbn [app nth tl]. rewrite P1, L1, B0, B1, NP, RT. cbn [bindR].
  cbn [read_rows]. change (contains (txt "transfer") (lower (txt " transfer functions"))) with true. cbv iota.
  rewrite <- app_assoc. destruct (rows_step KTf (tf_rows n (zd_tf d)) (mkZblock [] [] []) ((txt " inverse coherent signal power matrix" :: map (fun l => lower (zrow l)) (tri_rows 2 (zd_sig d)) ++
    txt " residual covariance" :: map (fun l => lower (zrow l)) (tri_rows n (zd_res d))) ++ extra) F1) as (y1 & G1 & ->).
  rewrite (add_rows KTf). cbn [zb_tf zb_sig zb_res app read_rows].
  change (contains (txt "transfer") (lower (txt " inverse coherent signal power matrix"))) with false. change (contains (txt "signal") (lower (txt " inverse coherent signal power matrix"))) with true. cbv iota.
  rewrite <- app_assoc. destruct (rows_step KSig (tri_rows 2 (zd_sig d)) (mkZblock y1 [] []) ((txt " residual covariance" :: map (fun l => lower (zrow l)) (tri_rows n (zd_res d))) ++ extra) F2) as (y2 & G2 & ->).
  rewrite (add_rows KSig). cbn [zb_tf zb_sig zb_res app read_rows].
  change (contains (txt "transfer") (lower (txt " residual covariance"))) with false. change (contains (txt "signal") (lower (txt " residual covariance"))) with false.
  change (contains (txt "residual") (lower (txt " residual covariance"))) with true. cbv iota.
  destruct (rows_step KRes (tri_rows n (zd_res d)) (mkZblock y1 y2 []) extra F3) as (y3 & G3 & ->). rewrite (add_rows KRes). cbn [zb_tf zb_sig zb_res app].
  assert (EE : exists ex', read_rows KRes (mkZblock y1 y2 y3) extra = Ok (mkZblock y1 y2 (y3 ++ ex'))).
  { destruct EX as [->| ->]; [exists []; cbn [read_rows]; rewrite app_nil_r; reflexivity|]. exists [[]]. rewrite read_rows_empty. reflexivity. }
  destruct EE as (ex' & ->). cbn [bindR zb_tf zb_sig zb_res].
  destruct (fill_tf_ok n (zd_tf d) n 0 (fun _ _ => zzero) y1 ltac:(lia) G1) as (t & -> & T & _). cbn [bindR].
  destruct (fill_sig_ok (zd_sig d) y2 G2) as (s & -> & S0 & HS). cbn [bindR].
  destruct (fill_res_matrix n (zd_res d) y3 ex' G3) as (e & -> & E & HE). cbn [bindR].
  eexists. split; [reflexivity|]. unfold got. cbn [zr_period zr_level zr_band zr_npts zr_rate zr_tf zr_sig zr_res].
  split; [exists p; split; [reflexivity|exact P2]|]. split; [reflexivity|]. split; [destruct (zd_band d); reflexivity|]. split; [reflexivity|]. split; [exact RV|].
  split; [intros i j Li Lj; apply T; lia|]. split; [exact S0|]. split; [exact E|]. split; assumption.
Qed.
Lemma reads_near x y : reads_pair x y -> near_pair x y.
Proof.
  assert (G : forall q p, reads q p -> near q p).
  { intros q p (v & -> & E). exists v. split; [reflexivity|]. rewrite E. pose proof (sci_value_near 4 q) as N.
    setoid_replace ((5 # 100000) * Qabs q)%Q with ((1 # 2) * PySciFacts.ten (- Z.of_nat 4) * Qabs q)%Q; [exact N|]. 
    change (PySciFacts.ten (- Z.of_nat 4)) with (1 # 10000)%Q. ring. }
  intros [A B]. split; apply G; assumption.
Qed.
Lemma got_stored n d r : got n d r -> stored n d r /\ hermitian_read 2 (zr_sig r) /\ hermitian_read n (zr_res r).
Proof.
  intros ((p & P1 & P2) & A & B & C & D & T & S0 & E & H1 & H2). split; [|split; assumption]. split.
  - exists p. split; [exact P1|]. pose proof (round_half_even_bound (zd_period d * inject_Z (10 ^ Z.of_nat 5))) as [R1 R2].
    set (k := inject_Z (round_half_even (zd_period d * inject_Z (10 ^ Z.of_nat 5)))) in *. change (inject_Z (10 ^ Z.of_nat 5)) with 100000%Q in *.
    assert (P3 : (p * 100000 == k)%Q) by (rewrite P2; field). apply Qabs_Qle_condition. split; lra.
  - split; [exact A|]. split; [exact B|]. split; [exact C|]. split; [exact D|].
    split; [intros; apply reads_near, T; assumption|]. split; [intros; apply reads_near, S0; assumption|intros; apply reads_near, E; assumption].
Qed.
(** ** The file *)
Lemma line_clean l : Forall (fun p => ~ In newline (fst p) /\ ~ In newline (snd p)) l -> ~ In newline (line_of l).
Proof.
  intros F. unfold line_of. intros I. apply in_concat in I as (x & J & I). apply in_map_iff in J as (p & <- & J). rewrite Forall_forall in F. destruct (F p J) as [A B]. apply in_app_or in I as [I|I]; auto.
Qed.
Lemma txt_clean s : existsb (Ascii.eqb newline) (txt s) = false -> ~ In newline (txt s).
Proof. intros E I. assert (T : existsb (Ascii.eqb newline) (txt s) = true) by (apply existsb_exists; exists newline; split; [exact I|apply Ascii.eqb_refl]). congruence. Qed.
Lemma sp_clean n : ~ In newline (sp n).
Proof. intros I. apply repeat_spec in I. discriminate I. Qed.
Lemma blank_sp_clean n : ~ In newline (blank ++ sp n).
Proof. exact (sp_clean (S n)). Qed.
Lemma num_clean s : forallb num_char s = true -> ~ In newline s.
Proof. intros H. apply (sci_no_letter s _ (num_sci s H)). reflexivity. Qed.
Lemma rest_no_newline n d : writable_block n d -> Forall (fun l => ~ In newline l) (rest_lines n d).
Proof.
  intros WB. destruct (rows_printable n d WB) as (F1 & F2 & F3). pose proof WB as (_ & _ & RS & _).
  assert (R : forall ls, Forall (Forall printable_pair) ls -> Forall (fun l => ~ In newline l) (map (fun l => lower (zrow l)) ls)).
  { intros ls F. apply Forall_forall. intros x I. apply in_map_iff in I as (l & <- & I). rewrite Forall_forall in F. exact (row_no_newline l (F l I)). }
  unfold rest_lines. constructor; [|constructor; [|constructor; [apply txt_clean; reflexivity|]]].
  - apply line_clean. unfold ptail. repeat (apply Forall_cons; [split; cbn [fst snd]; first [apply txt_clean; reflexivity|apply blank_sp_clean|apply sp_clean|apply num_clean, show_fixed_chars|apply num_clean, show_int_chars]|]). constructor.
  - apply line_clean. unfold points. repeat (apply Forall_cons; [split; cbn [fst snd]; first [exact (fun x => x)|apply txt_clean; reflexivity|apply num_clean, show_int_chars|exact (sci_no_letter _ newline RS eq_refl)]|]). constructor.
  - apply Forall_app. split; [exact (R _ F1)|]. constructor; [apply txt_clean; reflexivity|]. apply Forall_app. split; [exact (R _ F2)|]. constructor; [apply txt_clean; reflexivity|exact (R _ F3)].
Qed.
(** The word "period" is not in a block but for its beginning. *)
Lemma period_word : word (txt "period").
Proof. split; [discriminate|reflexivity]. Qed.
Lemma contains_join p (ls : list text) : p <> [] -> ~ In newline p -> Forall (fun l => contains p l = false) ls -> contains p (join [newline] ls) = false.
Proof.
  intros NE N. induction ls as [|l ls IH]; intros F; [destruct p; [congruence|reflexivity]|]. inversion F; subst. destruct ls as [|l2 ls].
  - cbn [join]. assumption.
  - cbn [join] in *. change ([newline] ++ ?x) with (newline :: x). cbn [app]. rewrite contains_sep by exact N. rewrite H1. apply IH. assumption.
Qed.
Lemma line_contains x p l : Forall spaced l -> word (x :: p) -> Forall (fun w => contains (x :: p) (snd w) = false) l -> contains (x :: p) (line_of l) = false.
Proof.
  intros F W C. rewrite contains_words by exact W. rewrite split_ws_line by exact F. induction C as [|w l H C IH]; [reflexivity|]. cbn [map existsb]. rewrite H. inversion F; subst. exact (IH H3).
Qed.
Lemma rest_no_period n d : writable_block n d -> Forall (fun l => contains (txt "period") l = false) (rest_lines n d).
Proof.
  intros WB. destruct (rows_printable n d WB) as (F1 & F2 & F3). pose proof WB as (_ & _ & RS & _).
  change (txt "period") with ("p"%char :: txt "eriod"). pose proof period_word as PW. change (txt "period") with ("p"%char :: txt "eriod") in PW.
  assert (R : forall ls, Forall (Forall printable_pair) ls -> Forall (fun l => contains ("p"%char :: txt "eriod") l = false) (map (fun l => lower (zrow l)) ls)).
  { intros ls F. apply Forall_forall. intros x I. apply in_map_iff in I as (l & <- & I). rewrite Forall_forall in F. apply row_contains; [exact (F l I)|exact PW|reflexivity]. }
  unfold rest_lines. constructor; [|constructor; [|constructor; [reflexivity|]]].
  - apply line_contains; [exact (ptail_spaced n d WB)|exact PW|]. unfold ptail.
    repeat (apply Forall_cons; [cbn [snd]; first [reflexivity|apply num_contains; [apply show_fixed_chars|reflexivity]|apply num_contains; [apply show_int_chars|reflexivity]]|]). constructor.
  - pose proof (points_spaced n d WB) as PS. unfold points in *. rewrite line_of_cons. cbn [fst snd app]. 
    rewrite contains_words by exact PW.
    assert (E : split_ws (txt "number" ++ line_of (tl (points d))) = txt "number" :: map snd (tl (points d))).
    { apply (split_ws_line1 [] (txt "number") (tl (points d))); [reflexivity|split; [discriminate|reflexivity]|exact PS]. }
    unfold points in E. cbn [tl] in E. rewrite E. cbn [map snd existsb].
    rewrite (num_contains _ "p"%char _ (show_int_chars _) eq_refl), (sci_contains _ "p"%char _ RS eq_refl). reflexivity.
  - apply Forall_app. split; [exact (R _ F1)|]. constructor; [reflexivity|]. apply Forall_app. split; [exact (R _ F2)|]. constructor; [reflexivity|exact (R _ F3)].
Qed.
Lemma lower_block n d : writable_block n d -> map lower (write_block n d) = (txt "period" ++ line_of (ptail d)) :: tl (rest_lines n d).
Proof.
  intros WB. pose proof WB as (_ & _ & RS & _). unfold write_block, rest_lines. cbn [app map tl]. rewrite lower_period_line, (lower_points_line d RS). rewrite !map_app. cbn [map app]. rewrite !map_app. cbn [map app]. rewrite !map_map. reflexivity.
Qed.
Lemma lower_join (ls : list text) : lower (join [newline] ls) = join [newline] (map lower ls).
Proof.
  induction ls as [|l ls IH]; [reflexivity|]. destruct ls as [|l2 ls]; [reflexivity|]. cbn [map join] in *. rewrite !lower_app, IH. reflexivity.
Qed.
Lemma join_app_cons (a : list text) l r : a <> [] -> join [newline] (a ++ l :: r) = join [newline] a ++ newline :: join [newline] (l :: r).
Proof.
  induction a as [|x a IH]; intros N; [congruence|]. destruct a as [|y a].
  - reflexivity.
  - transitivity (x ++ [newline] ++ join [newline] ((y :: a) ++ l :: r)); [reflexivity|]. rewrite IH by discriminate.
    transitivity ((x ++ [newline] ++ join [newline] (y :: a)) ++ newline :: join [newline] (l :: r)); [|reflexivity]. rewrite <- !app_assoc. reflexivity.
Qed.
Lemma split_str_nonempty p s : p <> [] -> contains p s = false -> split_str p s = [s].
Proof. intros N C. unfold split_str. rewrite (split_str_none p N s [] C). reflexivity. Qed.
Lemma join_cons_app (w x : text) (r : list text) : join [newline] ((w ++ x) :: r) = w ++ join [newline] (x :: r).
Proof. destruct r; cbn [join]; rewrite ?app_assoc; reflexivity. Qed.
(** The pieces of a file. *)
Definition piece (n : nat) (d : zdata) (last : bool) : list text := rest_lines n d ++ (if last then [] else [[]]).
Fixpoint pieces (n : nat) (l : list zdata) : list (list text) :=
  match l with [] => [] | [d] => [piece n d true] | d :: r => piece n d false :: pieces n r end.
Lemma rest_ne n d : rest_lines n d <> [].
Proof. discriminate. Qed.
Lemma rest_head n d : rest_lines n d = line_of (ptail d) :: tl (rest_lines n d).
Proof. reflexivity. Qed.
Lemma newline_not_period : ~ In newline (txt "period").
Proof. apply txt_clean. reflexivity. Qed.
Lemma blocks_split n : forall l a, Forall (writable_block n) l -> contains (txt "period") a = false ->
  tl (map (split_on newline) (split_str (txt "period") (match l with [] => a | _ => a ++ newline :: join [newline] (map lower (concat (map (write_block n) l))) end))) = pieces n l.
Proof.
  induction l as [|d l IH]; intros a F C.
  - rewrite split_str_nonempty by (try discriminate; exact C). reflexivity.
  - inversion F as [|? ? WB F']; subst. cbn [map concat]. rewrite map_app, (lower_block n d WB). cbn [app]. rewrite join_cons_app.
    rewrite (split_str_piece (txt "period") a newline _ C newline_not_period) by discriminate. cbn [map tl].
    change (line_of (ptail d) :: tl (rest_lines n d) ++ ?x) with (rest_lines n d ++ x).
    pose proof (contains_join (txt "period") (rest_lines n d) ltac:(discriminate) newline_not_period (rest_no_period n d WB)) as C'.
    destruct l as [|d2 l].
    + cbn [map concat]. rewrite app_nil_r. rewrite split_str_nonempty by (try discriminate; exact C'). cbn [map pieces]. unfold piece. rewrite app_nil_r.
      rewrite split_join; [reflexivity|exact (rest_ne n d)|exact (proj1 (Forall_forall _ _) (rest_no_newline n d WB))].
    + change (map lower (concat (map (write_block n) (d2 :: l)))) with (map lower (period_line d2 :: tl (write_block n d2) ++ concat (map (write_block n) l))).
      cbn [map]. rewrite (join_app_cons (rest_lines n d)) by apply rest_ne.
      pose proof (IH (join [newline] (rest_lines n d)) F' C') as IH'. cbn [pieces].
      change (map lower (concat (map (write_block n) (d2 :: l)))) with (map lower (period_line d2 :: tl (write_block n d2) ++ concat (map (write_block n) l))) in IH'.
      cbn [map] in IH'. rewrite lower_period_line, join_cons_app in IH' |- *.
      rewrite (split_str_piece (txt "period") _ newline _ C' newline_not_period) in IH' |- * by discriminate. cbn [map tl] in IH' |- *. rewrite IH'. f_equal.
      change (?x ++ [newline]) with (x ++ [newline] ++ []).
      assert (E : join [newline] (rest_lines n d) ++ [newline] = join [newline] (rest_lines n d ++ [[]])).
      { rewrite join_app_cons by apply rest_ne. reflexivity. }
      cbn [app]. rewrite E. unfold piece. rewrite split_join; [reflexivity|intros H; apply app_eq_nil in H as [H _]; exact (rest_ne n d H)|].
      apply Forall_forall, Forall_app. split; [exact (rest_no_newline n d WB)|]. constructor; [exact (fun x => x)|constructor].
Qed.
Lemma read_pieces n : forall l, Forall (writable_block n) l -> exists rs, mapR (read_block n) (pieces n l) = Ok rs /\ Forall2 (got n) l rs.
Proof.
  induction l as [|d l IH]; intros F; [exists []; split; [reflexivity|constructor]|]. inversion F as [|? ? WB F']; subst. destruct (IH F') as (rs & E & G). destruct l as [|d2 l].
  - cbn [pieces] in *. destruct (read_block_ok n d [] WB (or_introl eq_refl)) as (r & R & GR). exists [r]. cbn [mapR]. replace (read_block n (piece n d true)) with (Ok r) by (symmetry; exact R). cbn [bindR]. split; [reflexivity|]. constructor; [exact GR|constructor].
  - destruct (read_block_ok n d [[]] WB (or_intror eq_refl)) as (r & R & GR). exists (r :: rs). change (pieces n (d :: d2 :: l)) with (piece n d false :: pieces n (d2 :: l)). cbn [mapR]. replace (read_block n (piece n d false)) with (Ok r) by (symmetry; exact R). cbn [bindR].
    rewrite E. cbn [bindR]. split; [reflexivity|]. constructor; assumption.
Qed.
Lemma file_got header n l : Forall (fun h => contains (txt "period") (lower h) = false) header -> Forall (writable_block n) l ->
  exists rs, read_file n (write_file header n l) = Ok rs /\ Forall2 (got n) l rs.
Proof.
  intros FH F. destruct (read_pieces n l F) as (rs & R & G). exists rs. split; [|exact G]. unfold read_file, get_period_blocks, write_file. rewrite lower_join.
  assert (C : contains (txt "period") (join [newline] (map lower (header ++ [[]]))) = false).
  { apply contains_join; [discriminate|exact newline_not_period|]. rewrite map_app. apply Forall_app. split; [apply Forall_map; exact FH|]. constructor; [reflexivity|constructor]. }
  pose proof (blocks_split n l _ F C) as B. rewrite <- R. f_equal. rewrite <- B. f_equal. f_equal. f_equal.
  rewrite (app_assoc header [[]]), map_app. destruct l as [|d l].
  - cbn [map concat]. rewrite app_nil_r. reflexivity.
  - change (map lower (concat (map (write_block n) (d :: l)))) with (lower (period_line d) :: map lower (tl (write_block n d) ++ concat (map (write_block n) l))).
    rewrite join_app_cons; [reflexivity|]. rewrite map_app. intros H. apply app_eq_nil in H as [_ H]. discriminate H.
Qed.
