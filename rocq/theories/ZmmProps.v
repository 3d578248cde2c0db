(** C51: what a Z file keeps of its transfer functions. *)
From Coq Require Import Qabs Qpower Lqa.
From Verif Require Import PyBase PyText TextFacts PyNum IsoModel IsoProofs PyFloat PyFloatFacts PySci PySciFacts EdiModel EdiProofs ProcProofs ZmmModel ZmmSpec ZmmProofs ZmmBlock ZmmFile.
Local Open Scope list_scope.
Local Open Scope Z_scope.

(** Writing any number of periods for any number of output channels and reading the file gives every period, with its
    decimation level, band, number of points and rate, every entry of the transfer function and every entry of the
    lower triangles to half a unit of the fifth digit, and matrices that are Hermitian above the diagonal. *)
Theorem C51_file header n l : Forall (fun h => contains (txt "period") (lower h) = false) header -> Forall (writable_block n) l ->
  exists rs, read_file n (write_file header n l) = Ok rs /\
    Forall2 (fun d r => stored n d r /\ hermitian_read 2 (zr_sig r) /\ hermitian_read n (zr_res r)) l rs.
Proof.
  intros H F. destruct (file_got header n l H F) as (rs & R & G). exists rs. split; [exact R|]. clear R F. induction G; constructor; auto. apply got_stored. assumption.
Qed.
(** Whatever a file holds (also a file of another program): when it can be read, every number above the diagonal of
    both matrices is the complex conjugate of the one below it. *)
Lemma fill_row_inv j values : forall len k m m', fill_res_row j (seq k len) values m = Ok m' -> forall k', (k <= k' < k + len)%nat -> nth_error values k' <> None.
Proof.
  induction len as [|len IH]; intros k m m' E k' L; [lia|]. cbn [seq fill_res_row] in E. destruct (nth_error values k) as [v|] eqn:V; [|discriminate E].
  destruct (Nat.eq_dec k' k) as [->|N]; [congruence|]. apply (IH _ _ _ E). lia.
Qed.
Lemma fill_res_inv rows : forall len j m m', fill_res (seq j len) rows m = Ok m' -> forall i k, (j <= i < j + len)%nat -> (k <= i)%nat -> exists r, nth_error rows i = Some r /\ nth_error r k <> None.
Proof.
  induction len as [|len IH]; intros j m m' E i k L Lk; [lia|]. change (seq j (S len)) with (j :: seq (S j) len) in E. cbn [fill_res] in E. destruct (nth_error rows j) as [v|] eqn:V; [|discriminate E].
  destruct (fill_res_row j (seq 0 (S j)) v m) as [m1|] eqn:R; [|discriminate E]. cbn [bindR] in E. destruct (Nat.eq_dec i j) as [->|N].
  - exists v. split; [exact V|]. apply (fill_row_inv j v _ _ _ _ R). lia.
  - apply (IH _ _ _ E); lia.
Qed.
Theorem C51_any_block n lines r : read_block n lines = Ok r ->
  (forall i j, (j < i)%nat -> (i < 2)%nat -> zr_sig r j i = zconj (zr_sig r i j)) /\ (forall i j, (j < i)%nat -> (i < n)%nat -> zr_res r j i = zconj (zr_res r i j)).
Proof.
  unfold read_block. intros E.
  repeat match type of E with bindR ?x _ = Ok _ => destruct x eqn:?; [cbn [bindR] in E|discriminate E] end. apply Ok_inj in E. subst r. cbn [zr_sig zr_res]. split.
  - destruct (concat (zb_sig a5)) as [|x [|y [|w l]]]; try discriminate. apply Ok_inj in Heqr8. subst a7.
    intros i j Lj Li. assert (i = 1%nat) by lia. assert (j = 0%nat) by lia. subst. reflexivity.
  - match goal with H : fill_res _ ?rows _ = Ok _ |- _ => pose proof H as H0; destruct (fill_res_ok rows n) with (len := n) (j := 0%nat) (m := fun _ _ : nat => zzero) as (m' & E & HM) end.
    + intros i k Li Lk. eapply (fill_res_inv _ n 0); [exact H0| |exact Lk]. lia.
    + lia.
    + intros; lia.
    + rewrite E in H0. apply Ok_inj in H0. subst. intros i j Lj Li. apply HM; lia.
Qed.
(** Hermitian matrices are kept entirely. *)
Lemma near_conj q p p' : near q p -> conj_num p p' -> forall q', (q' == - q)%Q -> near q' p'.
Proof.
  intros (v & -> & A) C q' E. destruct p' as [w|]; [|destruct C]. cbn in C. exists w. split; [reflexivity|]. rewrite C, E, Qabs_opp.
  setoid_replace (- v - - q)%Q with (- (v - q))%Q by ring. rewrite Qabs_opp. exact A.
Qed.
Lemma near_eq q p : near q p -> forall q', (q' == q)%Q -> near q' p.
Proof. intros (v & -> & A) q' E. exists v. split; [reflexivity|]. rewrite E. exact A. Qed.
Lemma near_all n (m : nat -> nat -> Q * Q) (k : nat -> nat -> zval) : hermitian n m -> (forall i j, (i < n)%nat -> (j <= i)%nat -> near_pair (m i j) (k i j)) -> hermitian_read n k ->
  forall i j, (i < n)%nat -> (j < n)%nat -> near_pair (m i j) (k i j).
Proof.
  intros H N R i j Li Lj. destruct (le_lt_dec j i) as [L|L]; [apply N; lia|]. destruct (N j i Lj ltac:(lia)) as [A B]. destruct (R j i L Lj) as [C D]. destruct (H j i Lj Li) as [E F]. split.
  - rewrite C. exact (near_eq _ _ A _ E).
  - exact (near_conj _ _ _ B D _ F).
Qed.
(** If the matrices of the object are Hermitian, all entries are kept. *)
Theorem C51_hermitian header n l : Forall (fun h => contains (txt "period") (lower h) = false) header -> Forall (writable_block n) l ->
  Forall (fun d => hermitian 2 (zd_sig d) /\ hermitian n (zd_res d)) l ->
  exists rs, read_file n (write_file header n l) = Ok rs /\
    Forall2 (fun d r => (forall i j, (i < 2)%nat -> (j < 2)%nat -> near_pair (zd_sig d i j) (zr_sig r i j)) /\ (forall i j, (i < n)%nat -> (j < n)%nat -> near_pair (zd_res d i j) (zr_res r i j))) l rs.
Proof.
  intros H F HE. destruct (C51_file header n l H F) as (rs & R & G). exists rs. split; [exact R|]. clear R F. induction G as [|d r l rs (ST & H2 & Hn) G IH]; [constructor|].
  inversion HE as [|? ? (HS & HR) HE']; subst. constructor; [|exact (IH HE')]. destruct ST as (_ & _ & _ & _ & _ & _ & S2 & Sn). split; [apply near_all; assumption|apply near_all; assumption].
Qed.
(** Writing what has been read gives the same file. *)
Lemma show_sci_reads q v : reads q (Fin v) -> show_sci 4 v = show_sci 4 q.
Proof. intros (w & E & Q0). injection E as ->. rewrite <- (show_sci_again 4 q). unfold show_sci. rewrite Q0. reflexivity. Qed.
Lemma zpair_reads x y : reads_pair x (Fin (fst y), Fin (snd y)) -> zpair y = zpair x.
Proof. intros [A B]. unfold zpair, znumber. cbn [fst snd] in A, B. rewrite (show_sci_reads _ _ A), (show_sci_reads _ _ B). reflexivity. Qed.
Lemma block_again n d r d' : got n d r -> as_read n r d' -> zd_rate d' = zd_rate d -> write_block n d' = write_block n d.
Proof.
  intros ((p & P1 & P2) & A & B & C & D & T & S0 & E & _) (P' & A' & B' & C' & T' & S' & E') RT.
  assert (PE : show_fixed 5 (zd_period d') = show_fixed 5 (zd_period d)).
  { rewrite P1 in P'. injection P' as <-. unfold show_fixed. rewrite P2. f_equal.
    setoid_replace (inject_Z (round_half_even (zd_period d * inject_Z (10 ^ Z.of_nat 5))) / inject_Z (10 ^ Z.of_nat 5) * inject_Z (10 ^ Z.of_nat 5))%Q
      with (inject_Z (round_half_even (zd_period d * inject_Z (10 ^ Z.of_nat 5)))) by (change (inject_Z (10 ^ Z.of_nat 5)) with 100000%Q; field). apply round_half_even_Z. }
  assert (ROW : forall m m' : nat -> nat -> Q * Q, forall i js, (forall j, In j js -> zpair (m' i j) = zpair (m i j)) -> zrow (map (m' i) js) = zrow (map (m i) js)).
  { intros m m' i js H. unfold zrow. f_equal. rewrite !map_map. apply map_ext_in. exact H. }
  unfold write_block. f_equal; [|f_equal; [|f_equal; f_equal; [|f_equal]]].
  - unfold period_line, points_line. rewrite PE, RT, <- A', <- B', <- C', A, B, C. reflexivity.
  - unfold tf_rows. rewrite !map_map. apply map_ext_in. intros i I. apply in_seq in I. apply (ROW (zd_tf d) (zd_tf d') i [0%nat; 1%nat]). intros j J. apply zpair_reads. rewrite <- T' by (destruct J as [<-|[<-|[]]]; lia). apply T; destruct J as [<-|[<-|[]]]; lia.
  - unfold tri_rows. rewrite !map_map. apply map_ext_in. intros i I. apply in_seq in I. apply ROW. intros j J. apply in_seq in J. apply zpair_reads. rewrite <- S' by lia. apply S0; lia.
  - unfold tri_rows. rewrite !map_map. apply map_ext_in. intros i I. apply in_seq in I. apply ROW. intros j J. apply in_seq in J. apply zpair_reads. rewrite <- E' by lia. apply E; lia.
Qed.
Theorem C51_again header n l l' rs : Forall (fun h => contains (txt "period") (lower h) = false) header -> Forall (writable_block n) l ->
  read_file n (write_file header n l) = Ok rs -> Forall2 (as_read n) rs l' -> map zd_rate l' = map zd_rate l ->
  write_file header n l' = write_file header n l.
Proof.
  intros H F R A RT. destruct (file_got header n l H F) as (rs' & R' & G). rewrite R in R'. injection R' as <-. unfold write_file. f_equal. f_equal. f_equal. f_equal.
  clear R F. revert l' A RT. induction G as [|d r l rs GD G IH]; intros l' A RT; inversion A; subst; [reflexivity|]. cbn [map] in *. injection RT as E1 E2. f_equal; [eapply block_again; eassumption|apply IH; assumption].
Qed.

(** Periods are written with five decimals only: the periods of fast sampling come back as others, or as zero. *)
Definition one (p : Q) (x : Q * Q) : zdata := mkZdata p 1 (2, 3) 100 (txt "1.0") (fun _ _ => x) (fun _ _ => (1, 0)%Q) (fun _ _ => (1, 0)%Q).
Lemma one_writable n p x : printable_pair x -> writable_block n (one p x).
Proof.
  intros P. assert (P1 : printable_pair (1, 0)%Q) by (split; [right; split; [discriminate|reflexivity]|left; reflexivity]).
  unfold writable_block, one. cbn [zd_level zd_rate zd_tf zd_sig zd_res]. split; [lia|]. split; [discriminate|]. split; [reflexivity|]. split; [eexists; reflexivity|]. auto.
Qed.
Lemma unit_printable : printable_pair (1, 1)%Q.
Proof. split; right; (split; [discriminate|reflexivity]). Qed.
Theorem C51_period_refuted : let file p := write_file [txt "TRANSFER FUNCTIONS"] 1 [one p (1, 1)%Q] in
  (exists rs, read_file 1 (file (1 # 10240)%Q) = Ok rs /\ map zr_period rs = [Fin (10 # 100000)]) /\
  (exists rs, read_file 1 (file (1 # 1000000)%Q) = Ok rs /\ map zr_period rs = [Fin (0 # 100000)]).
Proof.
  cbv zeta. split.
  - destruct (C51_file [txt "TRANSFER FUNCTIONS"] 1 [one (1 # 10240) (1, 1)%Q]) as (rs & R & _); [constructor; [reflexivity|constructor]|constructor; [apply one_writable, unit_printable|constructor]|].
    exists rs. split; [exact R|]. assert (E : match read_file 1 (write_file [txt "TRANSFER FUNCTIONS"] 1 [one (1 # 10240) (1, 1)%Q]) with Ok x => map zr_period x | Err _ => [] end = [Fin (10 # 100000)]) by (vm_compute; reflexivity).
    rewrite R in E. exact E.
  - destruct (C51_file [txt "TRANSFER FUNCTIONS"] 1 [one (1 # 1000000) (1, 1)%Q]) as (rs & R & _); [constructor; [reflexivity|constructor]|constructor; [apply one_writable, unit_printable|constructor]|].
    exists rs. split; [exact R|]. assert (E : match read_file 1 (write_file [txt "TRANSFER FUNCTIONS"] 1 [one (1 # 1000000) (1, 1)%Q]) with Ok x => map zr_period x | Err _ => [] end = [Fin (0 # 100000)]) by (vm_compute; reflexivity).
    rewrite R in E. exact E.
Qed.
(** A negative number with a power of ten of three digits fills its twelve columns and runs into its neighbour: the
    file cannot be read. *)
Theorem C51_exponent_refuted : read_file 1 (write_file [txt "TRANSFER FUNCTIONS"] 1 [one 1 (1, - (1 # 10 ^ 100))%Q]) = Err ValueError.
Proof. vm_compute. reflexivity. Qed.
(** A header line with the word "period", such as the name of a station, makes the file unreadable. *)
Theorem C51_header_refuted : read_file 1 (write_file [txt "station :Period01"] 1 [one 1 (1, 1)%Q]) = Err IndexError.
Proof. vm_compute. reflexivity. Qed.
(** Cases that meet the hypotheses: two periods, three output channels. *)
Example C51_hyp : Forall (fun h => contains (txt "period") (lower h) = false) [txt "TRANSFER FUNCTIONS IN MEASUREMENT COORDINATES"; txt "station    :NVR01"] /\
  Forall (writable_block 3) [one (31 # 10) (1, 1)%Q; one 20000 (1, 1)%Q] /\
  Forall (fun d => hermitian 2 (zd_sig d) /\ hermitian 3 (zd_res d)) [one (31 # 10) (1, 1)%Q; one 20000 (1, 1)%Q].
Proof.
  split; [repeat constructor|]. split; [repeat (apply Forall_cons; [apply one_writable, unit_printable|]); constructor|].
  repeat (apply Forall_cons; [split; intros i j _ _; split; reflexivity|]); constructor.
Qed.
Example C51_any_hyp : exists r, read_block 1 (nth 0 (get_period_blocks (write_file [] 1 [one 1 (1, 1)%Q])) []) = Ok r.
Proof. destruct (read_block 1 (nth 0 (get_period_blocks (write_file [] 1 [one 1 (1, 1)%Q])) [])) as [r|e] eqn:E; [exists r; reflexivity|vm_compute in E; discriminate E]. Qed.
(** What has been read from the file of one period, as data. *)
Example C51_again_hyp : exists rs l', read_file 1 (write_file [] 1 [one (1 # 3) (2 # 3, 1)%Q]) = Ok rs /\ Forall2 (as_read 1) rs l' /\ map zd_rate l' = [txt "1.0"].
Proof.
  assert (P : printable_pair (2 # 3, 1)%Q) by (split; right; (split; [discriminate|reflexivity])).
  destruct (C51_file [] 1 [one (1 # 3) (2 # 3, 1)%Q]) as (rs & R & G); [constructor|constructor; [apply one_writable, P|constructor]|]. exists rs.
  inversion G as [|? r ? rs' (ST & _) G']; subst. inversion G'; subst. destruct ST as ((p & P1 & _) & A & B & C & _ & T & S2 & S1).
  pose (num := fun v : pynum => match v with Fin q => q | NonFinite => 0%Q end).
  exists [mkZdata p (zr_level r) (zr_band r) (zr_npts r) (txt "1.0") (fun i j => (num (fst (zr_tf r i j)), num (snd (zr_tf r i j)))) (fun i j => (num (fst (zr_sig r i j)), num (snd (zr_sig r i j))))
    (fun i j => (num (fst (zr_res r i j)), num (snd (zr_res r i j))))].
  split; [exact R|]. split; [|reflexivity]. constructor; [|constructor].
  assert (NP : forall x y, near_pair x y -> y = (Fin (num (fst y)), Fin (num (snd y)))).
  { intros x [y1 y2] [(v & E1 & _) (w & E2 & _)]. cbn [fst snd] in *. rewrite E1, E2. reflexivity. }
  unfold as_read. cbn [zd_period zd_level zd_band zd_npts zd_tf zd_sig zd_res fst snd]. split; [exact P1|]. split; [reflexivity|]. split; [reflexivity|]. split; [reflexivity|].
  split; [intros i j Li Lj; exact (NP _ _ (T i j Li Lj))|]. destruct (C51_hermitian [] 1 [one (1 # 3) (2 # 3, 1)%Q]) as (rs2 & R2 & G2); [constructor|constructor; [apply one_writable, P|constructor]| |].
  { constructor; [split; intros i j _ _; split; reflexivity|constructor]. }
  rewrite R in R2. apply Ok_inj in R2. subst. inversion G2 as [|? ? ? ? (N2 & N1) _]; subst. split; intros i j Li Lj; [exact (NP _ _ (N2 i j Li Lj))|exact (NP _ _ (N1 i j Li Lj))].
Qed.

Print Assumptions C51_file.
Print Assumptions C51_any_block.
Print Assumptions C51_hermitian.
Print Assumptions C51_again.
Print Assumptions C51_period_refuted.
Print Assumptions C51_exponent_refuted.
Print Assumptions C51_header_refuted.
