(** C48 and C50: the data part of EDI files. *)
From Coq Require Import Qabs Qpower Lqa.
From Verif Require Import PyBase PyFacts PyText TextFacts PyNum IsoModel PyFloat PyFloatFacts PySci PySciFacts EdiModel EdiSpec EdiProofs EdiFile EdiNumbers EdiOrder.
Local Open Scope Z_scope.
Open Scope list_scope.

(** The default marker for missing values, edi.py 62 and the header. *)
Definition default_empty : Q := inject_Z (10 ^ 32).
Example default_marker : good_marker default_empty.
Proof.
  split.
  - right. split; vm_compute; [discriminate|reflexivity].
  - exists (10 ^ 6), 26. split; [split; [reflexivity|reflexivity]|vm_compute; reflexivity].
Qed.

(** ** C48: reading gives the values that were written *)
(** One block, of any length, for every key. *)
Theorem C48_block empty key l : good_marker empty -> In key data_keys -> Forall (writable empty) l ->
  exists s vs, write_data_block empty l key = Ok s /\ read_blocks empty (file_lines s) = [(key, vs)] /\ Forall2 close l vs.
Proof.
  intros G I W.
  assert (K : In key written_keys).
  { assert (X : forallb (fun k => existsb (text_eqb k) written_keys) data_keys = true) by (vm_compute; reflexivity).
    rewrite forallb_forall in X. specialize (X key I). apply existsb_exists in X as (k & Ik & E). apply text_eqb_eq in E. rewrite E. exact Ik. }
  destruct (header_of key K) as (mid & _ & _ & H).
  assert (B : exists s, write_data_block empty l key = Ok s) by (unfold write_data_block; rewrite H; eexists; reflexivity).
  destruct B as [s B]. exists s, (map (got empty key) l). split; [exact B|]. split.
  - assert (D : Forall double_range (map (shown empty key) l)).
    { apply Forall_forall. intros x X. apply in_map_iff in X as (y & <- & Y). rewrite Forall_forall in W. apply shown_range; [exact (proj1 G)|exact (proj1 (W y Y))]. }
    pose proof (read_block empty key l [] (mkRs false [] []) s K D eq_refl B) as R. rewrite app_nil_r in R. cbn [rs_dict app] in R.
    unfold read_blocks. unfold read_text in R. rewrite R. change (file_lines []) with [@nil ascii]. cbn [fold_left].
    rewrite (read_nothing empty key _ (map (got empty key) l)); [reflexivity|]. cbn [dget]. destruct (text_dec key key); [reflexivity|congruence].
  - apply Forall2_map_r. intros x X. rewrite Forall_forall in W. apply got_close; [exact G|exact (W x X)].
Qed.
Example C48_block_hyp : Forall (writable default_empty) [0; 1 # 3; - (12345678 # 1); 5; 6; 7; 8; 9; 0; 1 # 1000000000]%Q /\ In (txt "zxyr") data_keys.
Proof.
  split; [|do 5 right; left; reflexivity].
  repeat (constructor; [split; [first [left; reflexivity|right; split; [vm_compute; discriminate|vm_compute; reflexivity]]|
                                first [left; reflexivity|right; vm_compute; reflexivity]]|]). constructor.
Qed.

Lemma writable_ranges empty e : all_numbers (writable empty) e -> all_numbers double_range e.
Proof.
  intros (W1 & W2 & W3 & W4 & W5 & W6).
  assert (A : forall l, Forall (writable empty) l -> Forall double_range l) by (intros l; apply Forall_impl; intros x X; exact (proj1 X)).
  assert (B : forall l : list (Q * Q), Forall (fun p => writable empty (fst p) /\ writable empty (snd p)) l -> Forall (fun p => double_range (fst p) /\ double_range (snd p)) l)
    by (intros l; apply Forall_impl; intros x [X Y]; split; [exact (proj1 X)|exact (proj1 Y)]).
  repeat split; auto.
Qed.
Lemma writable_close empty e n : good_marker empty -> sizes n e -> all_numbers (writable empty) e -> tipper_errors_kept e -> same_data close e (seen empty e).
Proof.
  intros G HS (W1 & W2 & W3 & W4 & W5 & W6) K. apply (seen_data empty e n HS); [|exact close_zero|exact K].
  assert (A : forall l, Forall (writable empty) l -> Forall (fun x => forall key, close x (got empty key x)) l)
    by (intros l; apply Forall_impl; intros x X key; apply got_close; assumption).
  assert (B : forall l : list (Q * Q), Forall (fun p => writable empty (fst p) /\ writable empty (snd p)) l ->
     Forall (fun p => (forall key, close (fst p) (got empty key (fst p))) /\ (forall key, close (snd p) (got empty key (snd p)))) l)
    by (intros l; apply Forall_impl; intros x [X Y]; split; intros key; apply got_close; assumption).
  repeat split; auto.
Qed.
(** The whole data part: all arrays come back, each number in its place. *)
Theorem C48_file empty e n f0 f1 fs : good_marker empty -> sizes n e -> all_numbers (writable empty) e -> tipper_errors_kept e ->
  e_freq e = f0 :: f1 :: fs -> (0 < f1)%Q -> (f1 <= f0)%Q ->
  exists s e', write_data empty e = Ok s /\ read_mt empty (file_lines s) = Ok e' /\ same_data close e e'.
Proof.
  intros G HS W K F P L.
  pose proof (writable_ranges empty e W) as D.
  destruct (write_read empty e n HS (proj1 G) D) as (s & e0 & E1 & E2 & E3). exists s.
  pose proof (same_data_eqv close e (seen empty e) e0 (writable_close empty e n G HS W K) E2) as SD.
  exists e0. split; [exact E1|]. split; [|exact SD]. rewrite E3.
  assert (F' : e_freq e0 = got empty (txt "freq") f0 :: got empty (txt "freq") f1 :: map (got empty (txt "freq")) fs).
  { destruct E2 as (E2 & _). rewrite <- E2. unfold seen. cbn [e_freq]. rewrite F. reflexivity. }
  rewrite (descend_case e0 _ _ _ F'). destruct W as (W1 & _). rewrite F in W1. inversion W1 as [|? ? X1 W1']; subst. inversion W1' as [|? ? X2 _]; subst.
  rewrite (proj1 (seen_order empty f0 f1 G X1 X2 ltac:(lra) P) L). reflexivity.
Qed.
(** A file with rising frequencies: everything is turned round, except the rotation angles (see C50). *)
Theorem C48_file_rising empty e n f0 f1 fs : good_marker empty -> sizes n e -> all_numbers (writable empty) e -> tipper_errors_kept e ->
  e_freq e = f0 :: f1 :: fs -> (0 < f0)%Q -> ((5 # 10000000) * (f0 + f1) < f1 - f0)%Q ->
  exists s e', write_data empty e = Ok s /\ read_mt empty (file_lines s) = Ok e' /\ same_data close (flip_but_rotation e) e'.
Proof.
  intros G HS W K F P L.
  pose proof (writable_ranges empty e W) as D.
  destruct (write_read empty e n HS (proj1 G) D) as (s & e0 & E1 & E2 & E3). exists s.
  pose proof (same_data_eqv close e (seen empty e) e0 (writable_close empty e n G HS W K) E2) as SD.
  exists (flip_but_rotation e0). split; [exact E1|]. split; [|exact (same_data_flip close e e0 SD)]. rewrite E3.
  assert (F' : e_freq e0 = got empty (txt "freq") f0 :: got empty (txt "freq") f1 :: map (got empty (txt "freq")) fs).
  { destruct E2 as (E2 & _). rewrite <- E2. unfold seen. cbn [e_freq]. rewrite F. reflexivity. }
  rewrite (descend_case e0 _ _ _ F'). destruct W as (W1 & _). rewrite F in W1. inversion W1 as [|? ? X1 W1']; subst. inversion W1' as [|? ? X2 _]; subst.
  rewrite (proj2 (seen_order empty f0 f1 G X1 X2 P ltac:(lra)) L). reflexivity.
Qed.
(** Writing what was read gives the same file: nothing is lost beyond the printed digits. *)
Theorem C48_same_file empty e n f0 f1 fs s e' e2 : good_marker empty -> sizes n e -> all_numbers (writable empty) e ->
  e_freq e = f0 :: f1 :: fs -> (0 < f1)%Q -> (f1 <= f0)%Q ->
  write_data empty e = Ok s -> read_mt empty (file_lines s) = Ok e' -> same_data (fun p q => p = Fin q) e' e2 ->
  write_data empty e2 = Ok s.
Proof.
  intros G HS W F P L E R S2.
  pose proof (writable_ranges empty e W) as D.
  destruct (write_read empty e n HS (proj1 G) D) as (s' & e0 & E1 & E2 & E3).
  assert (s' = s) by (rewrite E in E1; injection E1 as E1; symmetry; exact E1). subst s'. rewrite R in E3.
  assert (F' : e_freq e0 = got empty (txt "freq") f0 :: got empty (txt "freq") f1 :: map (got empty (txt "freq")) fs).
  { destruct E2 as (E2 & _). rewrite <- E2. unfold seen. cbn [e_freq]. rewrite F. reflexivity. }
  rewrite (descend_case e0 _ _ _ F') in E3. pose proof W as (W1 & _). rewrite F in W1. inversion W1 as [|? ? X1 W1']; subst. inversion W1' as [|? ? X2 _]; subst.
  rewrite (proj1 (seen_order empty f0 f1 G X1 X2 ltac:(lra) P) L) in E3. assert (e0 = e') by congruence. subst e0.
  rewrite <- E. apply write_again. apply (seen_printed empty e n e2 HS G W).
  destruct E2 as (Q1 & Q2 & Q3 & Q4 & Q5 & Q6). destruct S2 as (T1 & T2 & T3 & T4 & T5 & T6). unfold same_data. rewrite Q1, Q2.
  split; [exact T1|]. split; [exact T2|]. split; [intros c; rewrite Q3; apply T3|]. split; [intros c; rewrite Q4; apply T4|].
  split; [intros c; rewrite Q5; apply T5|intros c; rewrite Q6; apply T6].
Qed.
(** An object with two frequencies, a rotation and a tipper. *)
Definition sample (fa fb : Q) (rots : list Q) : edi Q :=
  mkEdi [fa; fb] rots (fun c => match c with ZXX => [(0, 0); (1 # 3, -1)] | ZXY => [(100, 2); (3, 4)] | ZYX => [(-7, 2 # 7); (1, 1)] | ZYY => [(1, 0); (0, 1)] end)%Q
    (fun c => [1 # 100; 0]%Q) (fun c => match c with TX => [(1 # 10, 0); (0, 1 # 5)] | TY => [(0, 0); (1, 1)] end)%Q (fun c => [1 # 1000; 2]%Q).
Ltac writable_number := split; [first [left; reflexivity|right; split; [vm_compute; discriminate|vm_compute; reflexivity]]|
                                first [left; reflexivity|right; vm_compute; reflexivity]].
Ltac all_writable := repeat (apply Forall_cons; [first [writable_number|split; writable_number]|]); apply Forall_nil.
Example C48_file_hyp : sizes 2 (sample 100 10 [0; 45]%Q) /\ all_numbers (writable default_empty) (sample 100 10 [0; 45]%Q) /\
  tipper_errors_kept (sample 100 10 [0; 45]%Q) /\ (10 <= 100)%Q.
Proof.
  split; [repeat split; intros c; destruct c; reflexivity|]. split; [|split].
  - split; [all_writable|]. split; [all_writable|]. split; [intros c; destruct c; all_writable|]. split; [intros c; destruct c; all_writable|].
    split; [intros c; destruct c; all_writable|intros c; destruct c; all_writable].
  - intros H. exfalso. specialize (H TX). inversion H as [|? ? [X _] _]; subst. vm_compute in X. discriminate X.
  - vm_compute. discriminate.
Qed.
Example C48_file_rising_hyp : sizes 2 (sample 10 100 [0; 45]%Q) /\ all_numbers (writable default_empty) (sample 10 100 [0; 45]%Q) /\
  ((5 # 10000000) * (10 + 100) < 100 - 10)%Q.
Proof.
  split; [repeat split; intros c; destruct c; reflexivity|]. split.
  - split; [all_writable|]. split; [all_writable|]. split; [intros c; destruct c; all_writable|]. split; [intros c; destruct c; all_writable|].
    split; [intros c; destruct c; all_writable|intros c; destruct c; all_writable].
  - vm_compute. reflexivity.
Qed.

(** Not so without the conditions: a value that prints like the marker comes back as zero; and with a marker
    of more than seven digits a zero comes back as the (shortened) marker. *)
Theorem C48_marker_refuted :
  (exists s, write_data_block default_empty [inject_Z (10 ^ 32)] (txt "zxxr") = Ok s /\
             read_blocks default_empty (file_lines s) = [(txt "zxxr", [Fin 0%Q])]) /\
  (exists s v, write_data_block 123456789 [0%Q] (txt "zxxr") = Ok s /\
               read_blocks 123456789 (file_lines s) = [(txt "zxxr", [Fin v])] /\ (v == 123456800)%Q).
Proof.
  split.
  - destruct (write_data_block default_empty [inject_Z (10 ^ 32)] (txt "zxxr")) as [s|] eqn:E; [|vm_compute in E; discriminate E].
    exists s. split; [reflexivity|]. vm_compute in E. injection E as <-. vm_compute. reflexivity.
  - destruct (write_data_block 123456789 [0%Q] (txt "zxxr")) as [s|] eqn:E; [|vm_compute in E; discriminate E].
    vm_compute in E. injection E as <-. eexists. eexists. split; [reflexivity|]. split; [vm_compute; reflexivity|]. vm_compute. reflexivity.
Qed.
(** The errors of a tipper that is zero are lost. *)
Theorem C48_tipper_errors_refuted : exists e s e', sizes 2 e /\ all_numbers (writable default_empty) e /\
  write_data default_empty e = Ok s /\ read_mt default_empty (file_lines s) = Ok e' /\
  e_tvar e TX = [1; 1]%Q /\ e_tvar e' TX = [Fin 0; Fin 0]%Q.
Proof.
  exists (mkEdi [2; 1] [0; 0] (fun _ => [(1, 1); (1, 1)]) (fun _ => [1; 1]) (fun _ => [(0, 0); (0, 0)]) (fun _ => [1; 1]))%Q.
  match goal with |- context [write_data default_empty ?e] => set (e0 := e) end.
  destruct (write_data default_empty e0) as [s|] eqn:E; [|vm_compute in E; discriminate E].
  destruct (read_mt default_empty (file_lines s)) as [e'|] eqn:R; [|exfalso; vm_compute in E; injection E as <-; vm_compute in R; discriminate R].
  exists s, e'. split; [repeat split; reflexivity|]. split.
  { split; [all_writable|]. split; [all_writable|]. split; [intros c; all_writable|]. split; [intros c; all_writable|]. split; intros c; all_writable. }
  split; [reflexivity|]. split; [exact R|]. split; [reflexivity|].
  vm_compute in E. injection E as <-. vm_compute in R. injection R as <-. reflexivity.
Qed.

(** ** C50: from high to low frequency *)
(** Whatever the file, if it is read: an order of its places such that frequency, impedance, tipper and
    their errors at index [i] are all those of one place of the file. *)
Theorem C50_pairs empty lines e' : read_mt empty lines = Ok e' ->
  let d := read_blocks empty lines in
  exists f (place : nat -> nat), dget text_dec (txt "freq") d = Some f /\ List.length (e_freq e') = List.length f /\
    forall i, (i < List.length f)%nat -> (place i < List.length f)%nat /\ nth_error (e_freq e') i = nth_error f (place i) /\
      (forall c a b, dget text_dec (zkey c ++ txt "r") d = Some a -> dget text_dec (zkey c ++ txt "i") d = Some b ->
         (exists x y, nth_error (e_z e' c) i = Some (x, y) /\ nth_error a (place i) = Some x /\ nth_error b (place i) = Some y) /\
         (forall v, dget text_dec (zkey c ++ txt ".var") d = Some v -> nth_error (e_zvar e' c) i = nth_error v (place i))) /\
      (forall c a b, dget text_dec (tkey c ++ txt "r.exp") d = Some a -> dget text_dec (tkey c ++ txt "i.exp") d = Some b ->
         (exists x y, nth_error (e_t e' c) i = Some (x, y) /\ nth_error a (place i) = Some x /\ nth_error b (place i) = Some y) /\
         (forall v, dget text_dec (tkey c ++ txt "var.exp") d = Some v -> nth_error (e_tvar e' c) i = nth_error v (place i))).
Proof.
  intros H d. destruct (read_mt_inv empty lines e' H) as (f & e0 & Ef & Ff & Z0 & T0 & _ & De). fold d in Ef, Z0, T0.
  pose proof (read_blocks_accepted empty lines) as A. fold d in A.
  assert (CN : forall (a b : list pynum) j, (j < List.length f)%nat -> List.length a = List.length f -> List.length b = List.length f ->
    exists x y, nth_error (combine a b) j = Some (x, y) /\ nth_error a j = Some x /\ nth_error b j = Some y).
  { intros a b j J La Lb. destruct (nth_error a j) as [x|] eqn:Ea; [|apply nth_error_None in Ea; lia].
    destruct (nth_error b j) as [y|] eqn:Eb; [|apply nth_error_None in Eb; lia]. exists x, y. split; [|split; reflexivity].
    clear - Ea Eb. revert b j Ea Eb. induction a as [|u a IH]; intros b j Ea Eb; [destruct j; discriminate|]. destruct b as [|w b]; [destruct j; discriminate|].
    destruct j as [|j]; cbn [combine nth_error] in *; [congruence|apply IH; assumption]. }
  destruct (e_freq e0) as [|f0 [|f1 fr]] eqn:FE; [unfold descend in De; rewrite FE in De; discriminate De|unfold descend in De; rewrite FE in De; discriminate De|].
  rewrite (descend_case e0 _ _ _ FE) in De. rewrite <- FE in Ff. clear FE.
  destruct (pylt f0 f1).
  - exists f, (fun i => List.length f - S i)%nat. split; [exact Ef|]. assert (Ee : e' = flip_but_rotation e0) by congruence. subst e'.
    cbn [flip_but_rotation e_freq e_z e_zvar e_t e_tvar]. rewrite Ff, rev_length. split; [reflexivity|]. intros i Li. split; [lia|].
    split; [apply nth_error_rev; exact Li|]. split.
    + intros c a b Ea Eb. destruct (fill_z_of d c _ a b _ _ A Ea Eb (Z0 c)) as (La & Lb & Ez & Lv & Ev).
      assert (Lz : List.length (e_z e0 c) = List.length f) by (rewrite Ez, combine_length; lia). split.
      * destruct (CN a b (List.length f - S i)%nat ltac:(lia) La Lb) as (x & y & E & Ex & Ey). exists x, y. split; [|split; assumption].
        rewrite nth_error_rev by lia. rewrite Lz, Ez. exact E.
      * intros v V. rewrite nth_error_rev by lia. rewrite Lv. rewrite (Ev v V). reflexivity.
    + intros c a b Ea Eb. destruct (fill_t_of d c _ a b _ _ A Ea Eb (T0 c)) as (La & Lb & Ez & Lv & Ev).
      assert (Lz : List.length (e_t e0 c) = List.length f) by (rewrite Ez, combine_length; lia). split.
      * destruct (CN a b (List.length f - S i)%nat ltac:(lia) La Lb) as (x & y & E & Ex & Ey). exists x, y. split; [|split; assumption].
        rewrite nth_error_rev by lia. rewrite Lz, Ez. exact E.
      * intros v V. rewrite nth_error_rev by lia. rewrite Lv. rewrite (Ev v V). reflexivity.
  - exists f, (fun i => i). split; [exact Ef|]. assert (Ee : e' = e0) by congruence. subst e'. rewrite Ff. split; [reflexivity|].
    intros i Li. split; [exact Li|]. split; [reflexivity|]. split.
    + intros c a b Ea Eb. destruct (fill_z_of d c _ a b _ _ A Ea Eb (Z0 c)) as (La & Lb & Ez & Lv & Ev). split.
      * destruct (CN a b i Li La Lb) as (x & y & E & Ex & Ey). exists x, y. rewrite Ez. split; [exact E|split; assumption].
      * intros v V. rewrite (Ev v V). reflexivity.
    + intros c a b Ea Eb. destruct (fill_t_of d c _ a b _ _ A Ea Eb (T0 c)) as (La & Lb & Ez & Lv & Ev). split.
      * destruct (CN a b i Li La Lb) as (x & y & E & Ex & Ey). exists x, y. rewrite Ez. split; [exact E|split; assumption].
      * intros v V. rewrite (Ev v V). reflexivity.
Qed.
(** A file whose frequencies rise or fall is read from high to low: as it is, or turned round. *)
Theorem C50_descending empty lines e' f : read_mt empty lines = Ok e' -> dget text_dec (txt "freq") (read_blocks empty lines) = Some f ->
  (ascending f \/ descending f) ->
  descending (e_freq e') /\ (descending f -> e_freq e' = f) /\ (ascending f -> e_freq e' = rev f).
Proof.
  intros H Ef O. destruct (read_mt_inv empty lines e' H) as (f' & e0 & Ef' & Ff & _ & _ & _ & De).
  assert (f' = f) by congruence. subst f'.
  destruct (e_freq e0) as [|f0 [|f1 fr]] eqn:FE; [unfold descend in De; rewrite FE in De; discriminate De|unfold descend in De; rewrite FE in De; discriminate De|].
  rewrite (descend_case e0 _ _ _ FE) in De. subst f.
  assert (UP : ascending (f0 :: f1 :: fr) -> pylt f0 f1 = true) by (intros [U _]; apply number_lt_pylt, U; left; reflexivity).
  assert (DN : descending (f0 :: f1 :: fr) -> pylt f0 f1 = false) by (intros [U _]; apply number_lt_pylt, U; left; reflexivity).
  destruct (pylt f0 f1) eqn:PL.
  - assert (Ee : e' = flip_but_rotation e0) by congruence. subst e'. cbn [flip_but_rotation e_freq]. rewrite FE.
    split; [|split; [intros X; apply DN in X; discriminate X|reflexivity]].
    destruct O as [O|O]; [exact (ordered_rev number_lt _ O)|apply DN in O; discriminate O].
  - assert (Ee : e' = e0) by congruence. subst e'. rewrite FE. split; [|split; [reflexivity|intros X; apply UP in X; discriminate X]].
    destruct O as [O|O]; [apply UP in O; discriminate O|exact O].
Qed.
(** A file with two rising frequencies. *)
Definition rising_file : list text := map txt
  [">FREQ // 2"; " 1  2"; ">ZROT // 2"; " 0  45"; ">ZXYR ROT=ZROT // 2"; "10 20"; ">ZXYI ROT=ZROT // 2"; " 11 22";
   ">ZXY.VAR ROT=ZROT // 2"; " 0.1 0.2"; ">END"]%string.
Example C50_hyp : exists e', read_mt default_empty rising_file = Ok e' /\
  dget text_dec (txt "freq") (read_blocks default_empty rising_file) = Some [Fin 1; Fin 2]%Q /\ ascending [Fin 1; Fin 2]%Q.
Proof.
  destruct (read_mt default_empty rising_file) as [e'|] eqn:R; [|vm_compute in R; discriminate R].
  exists e'. split; [reflexivity|]. split; [vm_compute; reflexivity|].
  split; [intros y [<-|[]]; constructor; reflexivity|]. split; [intros y []|exact I].
Qed.

(** The rotation angles are not turned round with the rest: after reading [rising_file] the angle of the first
    frequency is at the second place. *)
Theorem C50_rotation_refuted : exists lines e', read_mt default_empty lines = Ok e' /\
  dget text_dec (txt "freq") (read_blocks default_empty lines) = Some [Fin 1; Fin 2]%Q /\
  dget text_dec (txt "zrot") (read_blocks default_empty lines) = Some [Fin 0; Fin 45]%Q /\
  e_freq e' = [Fin 2; Fin 1]%Q /\ e_rot e' = [Fin 0; Fin 45]%Q.
Proof.
  exists rising_file. destruct (read_mt default_empty rising_file) as [e'|] eqn:R; [|vm_compute in R; discriminate R].
  exists e'. split; [reflexivity|]. vm_compute in R. injection R as <-. repeat split; vm_compute; reflexivity.
Qed.
(** Frequencies in no order stay in no order. *)
Theorem C50_unsorted_refuted : exists lines e', read_mt default_empty lines = Ok e' /\ e_freq e' = [Fin 3; Fin 1; Fin 2]%Q /\ ~ descending (e_freq e').
Proof.
  exists (map txt [">FREQ // 3"; "3 1 2"]%string).
  destruct (read_mt default_empty (map txt [">FREQ // 3"; "3 1 2"]%string)) as [e'|] eqn:R; [|vm_compute in R; discriminate R].
  exists e'. split; [reflexivity|]. vm_compute in R. injection R as <-. cbn [e_freq]. split; [reflexivity|].
  intros (_ & D & _). specialize (D _ (or_introl eq_refl)). inversion D as [x y L]; subst. vm_compute in L. discriminate L.
Qed.
(** A file with a single frequency cannot be read. *)
Theorem C50_single_refuted empty x : good_marker empty -> writable empty x ->
  forall e, sizes 1 e -> all_numbers (writable empty) e -> e_freq e = [x] ->
  exists s, write_data empty e = Ok s /\ read_mt empty (file_lines s) = Err IndexError.
Proof.
  intros G Wx e HS W F.
  pose proof (writable_ranges empty e W) as D.
  destruct (write_read empty e 1 HS (proj1 G) D) as (s & e0 & E1 & E2 & E3). exists s. split; [exact E1|]. rewrite E3.
  unfold descend. destruct E2 as (E2 & _). rewrite <- E2. unfold seen. cbn [e_freq]. rewrite F. reflexivity.
Qed.
Example C50_single_hyp : exists e, sizes 1 e /\ all_numbers (writable default_empty) e /\ e_freq e = [8%Q].
Proof.
  exists (mkEdi [8] [0] (fun _ => [(1, 2)]) (fun _ => [1]) (fun _ => [(0, 0)]) (fun _ => [0]))%Q.
  split; [repeat split; reflexivity|]. split; [|reflexivity].
  split; [all_writable|]. split; [all_writable|]. split; [intros c; all_writable|]. split; [intros c; all_writable|]. split; intros c; all_writable.
Qed.

Print Assumptions C48_block.
Print Assumptions C48_file.
Print Assumptions C48_file_rising.
Print Assumptions C48_same_file.
Print Assumptions C48_marker_refuted.
Print Assumptions C48_tipper_errors_refuted.
Print Assumptions C50_pairs.
Print Assumptions C50_descending.
Print Assumptions C50_rotation_refuted.
Print Assumptions C50_unsorted_refuted.
Print Assumptions C50_single_refuted.
