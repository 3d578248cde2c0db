From Coq Require Import Qabs Qpower Lqa.
From Verif Require Import PyBase PyFacts PyText TextFacts PyNum IsoModel IsoProofs PyFloat PyFloatFacts PySci PySciFacts EdiModel EdiSpec EdiProofs EdiFile.
Local Open Scope Z_scope.
Open Scope list_scope.
Local Notation ten := PySciFacts.ten.

(** ** Printing keeps the order *)
Lemma sci_value_pos d a : (0 < a)%Q ->
  (sci_value d a == inject_Z (round_half_even (a * ten (Z.of_nat d - sci_exp a))) * ten (sci_exp a - Z.of_nat d))%Q.
Proof.
  intros P. unfold sci_value, sci. destruct (Qcompare_spec a 0) as [Z0|L|G]; [exfalso; lra|exfalso; lra|].
  assert (A : (Qabs a == a)%Q) by (apply Qabs_pos; lra).
  assert (XE : sci_exp (Qabs a) = sci_exp a) by (apply sci_exp_comp; [lra|exact A]). rewrite XE.
  set (e := sci_exp a). change (Qpower (10 # 1) (Z.of_nat d - e)) with (ten (Z.of_nat d - e)).
  assert (RM : round_half_even (Qabs a * ten (Z.of_nat d - e)) = round_half_even (a * ten (Z.of_nat d - e))) by (rewrite A; reflexivity).
  rewrite RM. set (m := round_half_even (a * ten (Z.of_nat d - e))). cbv zeta.
  destruct (Z.eqb_spec m (10 ^ (Z.of_nat d + 1))) as [E|E]; rewrite Z.mul_1_l.
  - rewrite E. change (Qpower (10 # 1) (e + 1 - Z.of_nat d)) with (ten (e + 1 - Z.of_nat d)).
    rewrite <- !ten_Z by lia. rewrite <- !ten_plus. replace (Z.of_nat d + 1 + (e - Z.of_nat d)) with (Z.of_nat d + (e + 1 - Z.of_nat d)) by lia. reflexivity.
  - reflexivity.
Qed.
Lemma sci_value_between d a : (0 < a)%Q -> (ten (sci_exp a) <= sci_value d a /\ sci_value d a <= ten (sci_exp a + 1))%Q.
Proof.
  intros P. rewrite (sci_value_pos d a P). pose proof (mant_bounds d a P) as B. cbv zeta in B.
  set (m := round_half_even _) in *. set (e := sci_exp a) in *. pose proof (ten_pos (e - Z.of_nat d)) as T.
  destruct B as [B1 B2]. rewrite Zle_Qle in B1, B2. rewrite <- ten_Z in B1 by lia. rewrite <- (ten_Z (Z.of_nat d + 1)) in B2 by lia.
  assert (I1 : (ten e == ten (Z.of_nat d) * ten (e - Z.of_nat d))%Q) by (rewrite <- ten_plus; replace (Z.of_nat d + (e - Z.of_nat d)) with e by lia; reflexivity).
  assert (I2 : (ten (e + 1) == ten (Z.of_nat d + 1) * ten (e - Z.of_nat d))%Q) by (rewrite <- ten_plus; replace (Z.of_nat d + 1 + (e - Z.of_nat d)) with (e + 1) by lia; reflexivity).
  rewrite I1, I2. split; apply Qmult_le_compat_r; lra.
Qed.
Lemma sci_value_mono d a b : (0 < a)%Q -> (a <= b)%Q -> (sci_value d a <= sci_value d b)%Q.
Proof.
  intros P L. assert (P2 : (0 < b)%Q) by lra. destruct (sci_exp_spec a P) as [A1 A2]. destruct (sci_exp_spec b P2) as [B1 B2].
  assert (E : sci_exp a <= sci_exp b) by (apply ten_inj; lra).
  destruct (Z.eq_dec (sci_exp a) (sci_exp b)) as [Q0|N].
  - rewrite (sci_value_pos d a P), (sci_value_pos d b P2), Q0. apply Qmult_le_compat_r; [|apply Qlt_le_weak, ten_pos].
    rewrite <- Zle_Qle. apply round_half_even_mono. apply Qmult_le_compat_r; [exact L|apply Qlt_le_weak, ten_pos].
  - destruct (sci_value_between d a P) as [_ X]. destruct (sci_value_between d b P2) as [Y _].
    assert (Z1 : (ten (sci_exp a + 1) <= ten (sci_exp b))%Q) by (apply ten_le; lia). lra.
Qed.

(** ** What is read for a written number *)
Lemma marker_again empty : good_marker empty -> (sci_value 6 empty == empty)%Q /\ ~ (empty == 0)%Q.
Proof.
  intros (_ & m & k & B & E). change (Qpower (10 # 1) k) with (ten k) in E.
  assert (X : sci 6 empty = (m, k + 6)).
  { rewrite <- (sci_exact 6 m (k + 6)); [|change (Z.of_nat 6) with 6; exact B]. change (Z.of_nat 6) with 6. replace (k + 6 - 6) with k by lia. rewrite E. reflexivity. }
  split.
  - unfold sci_value. rewrite X. change (Z.of_nat 6) with 6. replace (k + 6 - 6) with k by lia. symmetry. exact E.
  - intros Z0. assert (N : ~ (inject_Z m == 0)%Q) by (intros F; assert (M0 : m = 0) by (apply inject_Z_injective; exact F); subst m; cbn in B; lia).
    pose proof (ten_pos k) as T. rewrite E in Z0. apply Qmult_integral in Z0 as [Z0|Z0]; [exact (N Z0)|lra].
Qed.
Lemma near6 q : (Qabs (sci_value 6 q - q) <= (5 # 10000000) * Qabs q)%Q.
Proof.
  pose proof (sci_value_near 6 q) as H. assert (X : ((1 # 2) * ten (- Z.of_nat 6) == 5 # 10000000)%Q) by reflexivity. rewrite X in H. exact H.
Qed.
Lemma got_value empty key x : good_marker empty -> writable empty x ->
  exists v, got empty key x = Fin v /\ (v == sci_value 6 x)%Q.
Proof.
  intros G [_ W]. destruct (marker_again empty G) as [M NZ]. unfold got, shown, read_value.
  destruct (read_show_sci 6 (if (Qeq_bool x 0 && negb (is_rot key))%bool then empty else x)) as (v & R & V); [lia|]. rewrite R.
  destruct (Qeq_bool x 0) eqn:X.
  - apply Qeq_bool_iff in X. destruct (is_rot key); cbn [andb negb] in V.
    + assert (V0 : (v == 0)%Q) by (rewrite V; apply sci_value_zero; exact X).
      destruct (Qeq_bool v empty) eqn:Y; [apply Qeq_bool_iff in Y; exfalso; apply NZ; rewrite <- Y; exact V0|]. exists v. split; [reflexivity|exact V].
    + assert (Y : Qeq_bool v empty = true) by (apply Qeq_bool_iff; rewrite V; exact M). rewrite Y. exists 0%Q. split; [reflexivity|]. symmetry. apply sci_value_zero. exact X.
  - cbn [andb] in V. destruct W as [W|W]; [apply Qeq_bool_iff in W; congruence|]. unfold apart in W. pose proof (near6 x) as N.
    destruct (Qeq_bool v empty) eqn:Y.
    + apply Qeq_bool_iff in Y. exfalso. assert (Y2 : (Qabs (sci_value 6 x - x) == Qabs (x - empty))%Q).
      { rewrite <- V, Y. rewrite <- Qabs_opp. apply Qabs_wd. ring. }
      rewrite Y2 in N. lra.
    + exists v. split; [reflexivity|exact V].
Qed.
Lemma got_close empty key x : good_marker empty -> writable empty x -> close x (got empty key x).
Proof.
  intros G W. destruct (got_value empty key x G W) as (v & E & V). exists v. split; [exact E|]. rewrite V. apply near6.
Qed.
Lemma close_zero x : (x == 0)%Q -> close x (Fin 0).
Proof. intros Z0. exists 0%Q. split; [reflexivity|]. rewrite Z0. vm_compute. discriminate. Qed.

(** ** The whole object *)
Lemma Forall2_map_r {A B : Type} (P : A -> B -> Prop) f l : (forall x, In x l -> P x (f x)) -> Forall2 P l (map f l).
Proof. induction l as [|x l IH]; intros H; cbn [map]; constructor; [apply H; left; reflexivity|apply IH; intros y I; apply H; right; exact I]. Qed.
Lemma Forall2_repeat {A B : Type} (P : A -> B -> Prop) b l : (forall x, In x l -> P x b) -> Forall2 P l (repeat b (List.length l)).
Proof. induction l as [|x l IH]; intros H; cbn [List.length repeat]; constructor; [apply H; left; reflexivity|apply IH; intros y I; apply H; right; exact I]. Qed.
Lemma zero_tipper e : no_tipper e = true <-> forall c, Forall (fun p => fst p == 0 /\ snd p == 0)%Q (e_t e c).
Proof.
  unfold no_tipper. rewrite forallb_forall. split.
  - intros H c. specialize (H c ltac:(destruct c; cbn; tauto)). rewrite forallb_forall in H. apply Forall_forall. intros p I. specialize (H p I).
    unfold zero_pair in H. apply andb_prop in H as [H1 H2]. apply Qeq_bool_iff in H1. apply Qeq_bool_iff in H2. tauto.
  - intros H c _. apply forallb_forall. intros p I. specialize (H c). rewrite Forall_forall in H. destruct (H p I) as [H1 H2].
    unfold zero_pair. apply andb_true_intro. split; apply Qeq_bool_iff; assumption.
Qed.
Section Seen.
  Variables (empty : Q) (e : edi Q) (n : nat).
  Hypothesis HS : sizes n e.
  (** A relation that holds for what is printed and read, and between zeros, holds for the whole file. *)
  Lemma seen_data (P : Q -> pynum -> Prop) : all_numbers (fun x => forall key, P x (got empty key x)) e ->
    (forall x, (x == 0)%Q -> P x (Fin 0)) -> tipper_errors_kept e -> same_data P e (seen empty e).
  Proof.
    destruct HS as (S1 & S2 & S3 & S4 & S5 & S6). intros (N1 & N2 & N3 & N4 & N5 & N6) P0 K. unfold same_data, seen. cbn [e_freq e_rot e_z e_zvar e_t e_tvar].
    assert (G1 : forall key l, Forall (fun x => forall key, P x (got empty key x)) l -> Forall2 P l (map (got empty key) l)).
    { intros key l H. apply Forall2_map_r. intros x I. rewrite Forall_forall in H. apply H, I. }
    assert (G2 : forall l : list (Q * Q), Forall (fun p => (forall key, P (fst p) (got empty key (fst p))) /\ (forall key, P (snd p) (got empty key (snd p)))) l ->
       Forall2 (on_pair P) l (map (fun p => (got empty (txt "freq") (fst p), got empty (txt "freq") (snd p))) l)).
    { intros l H. apply Forall2_map_r. intros x I. rewrite Forall_forall in H. destruct (H x I) as [H1 H2]. split; [apply H1|apply H2]. }
    split; [apply G1, N1|]. split; [apply G1, N2|]. split; [intros c; apply G2, N3|]. split; [intros c; apply G1, N4|].
    destruct (no_tipper e) eqn:NT.
    - pose proof (proj1 (zero_tipper e) NT) as Z0. split; intros c.
      + rewrite S1, <- (S5 c). apply Forall2_repeat. intros p I. specialize (Z0 c). rewrite Forall_forall in Z0. destruct (Z0 p I). split; apply P0; assumption.
      + rewrite S1, <- (S6 c). apply Forall2_repeat. intros p I. specialize (K Z0 c). rewrite Forall_forall in K. apply P0, K, I.
    - split; intros c; [apply G2, N5|apply G1, N6].
  Qed.
End Seen.

Lemma same_data_eqv {A B : Type} (P : A -> B -> Prop) a b b' : same_data P a b -> eqv b b' -> same_data P a b'.
Proof.
  intros (S1 & S2 & S3 & S4 & S5 & S6) (E1 & E2 & E3 & E4 & E5 & E6). unfold same_data. rewrite <- E1, <- E2.
  split; [exact S1|]. split; [exact S2|]. split; [intros c; rewrite <- E3; apply S3|]. split; [intros c; rewrite <- E4; apply S4|].
  split; [intros c; rewrite <- E5; apply S5|intros c; rewrite <- E6; apply S6].
Qed.
Lemma Forall2_rev {A B : Type} (P : A -> B -> Prop) a b : Forall2 P a b -> Forall2 P (rev a) (rev b).
Proof.
  induction 1 as [|x y a b H _ IH]; [constructor|]. cbn [rev]. apply Forall2_app; [exact IH|constructor; [exact H|constructor]].
Qed.
Lemma same_data_flip {A B : Type} (P : A -> B -> Prop) a b : same_data P a b -> same_data P (flip_but_rotation a) (flip_but_rotation b).
Proof.
  intros (S1 & S2 & S3 & S4 & S5 & S6). unfold same_data. cbn [flip_but_rotation e_freq e_rot e_z e_zvar e_t e_tvar].
  split; [apply Forall2_rev, S1|]. split; [exact S2|]. repeat split; intros c; apply Forall2_rev; auto.
Qed.

(** ** Order of the frequencies *)
Lemma seen_order empty f0 f1 : good_marker empty -> writable empty f0 -> writable empty f1 -> (0 < f0)%Q -> (0 < f1)%Q ->
  ((f1 <= f0)%Q -> pylt (got empty (txt "freq") f0) (got empty (txt "freq") f1) = false) /\
  (((5 # 10000000) * (f0 + f1) < f1 - f0)%Q -> pylt (got empty (txt "freq") f0) (got empty (txt "freq") f1) = true).
Proof.
  intros G W0 W1 P0 P1. destruct (got_value empty (txt "freq") f0 G W0) as (v0 & E0 & V0). destruct (got_value empty (txt "freq") f1 G W1) as (v1 & E1 & V1).
  rewrite E0, E1. cbn [pylt]. split; intros L.
  - apply negb_false_iff, Qle_bool_iff. rewrite V0, V1. apply sci_value_mono; assumption.
  - apply negb_true_iff. destruct (Qle_bool v1 v0) eqn:X; [|reflexivity]. exfalso. apply Qle_bool_iff in X. rewrite V0, V1 in X.
    pose proof (near6 f0) as N0. pose proof (near6 f1) as N1. apply Qabs_Qle_condition in N0. apply Qabs_Qle_condition in N1.
    rewrite Qabs_pos in N0 by lra. rewrite Qabs_pos in N1 by lra. lra.
Qed.
Lemma descend_case e f0 f1 r : e_freq e = f0 :: f1 :: r -> descend e = Ok (if pylt f0 f1 then flip_but_rotation e else e).
Proof. intros E. unfold descend. rewrite E. rewrite <- E. destruct (pylt f0 f1); reflexivity. Qed.

(** ** Writing again *)
Definition printed (x v : Q) : Prop := (v == sci_value 6 x)%Q.
Lemma printed_zero x v : printed x v -> Qeq_bool v 0 = Qeq_bool x 0.
Proof.
  intros V. apply eq_true_iff_eq. rewrite !Qeq_bool_iff. unfold printed in V. rewrite V. apply sci_value_zero.
Qed.
Lemma shown_again empty key x v : printed x v -> sci 6 (shown empty key v) = sci 6 (shown empty key x).
Proof.
  intros V. unfold shown. rewrite (printed_zero x v V). destruct (_ && _)%bool; [reflexivity|]. unfold printed in V. rewrite V. apply sci_again.
Qed.
Lemma numbers_again empty key size l l' : Forall2 printed l l' -> forall i, block_numbers empty key size i l' = block_numbers empty key size i l.
Proof.
  induction 1 as [|x v l l' H F IH]; intros i; [reflexivity|]. cbn [block_numbers]. cbv zeta.
  change (if (Qeq_bool v 0 && negb (existsb (text_eqb (lower key)) [txt "zrot"; txt "trot"]))%bool then empty else v) with (shown empty key v).
  change (if (Qeq_bool x 0 && negb (existsb (text_eqb (lower key)) [txt "zrot"; txt "trot"]))%bool then empty else x) with (shown empty key x).
  unfold number_text, show_sci_sign. rewrite (shown_again empty key x v H), IH. reflexivity.
Qed.
Lemma block_again empty key l l' : Forall2 printed l l' -> write_data_block empty l' key = write_data_block empty l key.
Proof.
  intros F. unfold write_data_block. assert (L : List.length l' = List.length l) by (induction F; cbn [List.length]; congruence).
  rewrite L. destruct (block_header key (List.length l)); [|reflexivity]. cbn [bindR]. rewrite (numbers_again empty key _ l l' F). reflexivity.
Qed.
Lemma blocks_again empty bs bs' : Forall2 (fun b b' => fst b' = fst b /\ Forall2 printed (snd b) (snd b')) bs bs' ->
  mapR (fun b => write_data_block empty (snd b) (fst b)) bs' = mapR (fun b => write_data_block empty (snd b) (fst b)) bs.
Proof.
  induction 1 as [|[k l] [k' l'] bs bs' [H1 H2] F IH]; [reflexivity|]. cbn [fst snd] in *. subst k'. cbn [mapR fst snd].
  rewrite (block_again empty k l l' H2), IH. reflexivity.
Qed.
Lemma Forall2_fst (P : Q -> Q -> Prop) l l' : Forall2 (on_pair P) l l' -> Forall2 P (map fst l) (map fst l') /\ Forall2 P (map snd l) (map snd l').
Proof. induction 1 as [|p q l l' [H1 H2] _ [IH1 IH2]]; cbn [map]; split; constructor; assumption. Qed.
(** Like [same_data], with nothing said of a tipper that is zero. *)
Definition printed_data (e e' : edi Q) : Prop :=
  Forall2 printed (e_freq e) (e_freq e') /\ Forall2 printed (e_rot e) (e_rot e') /\
  (forall c, Forall2 (on_pair printed) (e_z e c) (e_z e' c)) /\ (forall c, Forall2 printed (e_zvar e c) (e_zvar e' c)) /\
  (no_tipper e' = no_tipper e) /\
  (no_tipper e = false -> (forall c, Forall2 (on_pair printed) (e_t e c) (e_t e' c)) /\ (forall c, Forall2 printed (e_tvar e c) (e_tvar e' c))).
Lemma write_again empty e e' : printed_data e e' -> write_data empty e' = write_data empty e.
Proof.
  intros (F & R & Z0 & V & N & T). unfold write_data.
  assert (LE : forall l l', Forall2 printed l l' -> List.length l' = List.length l) by (induction 1; cbn [List.length]; congruence).
  rewrite (LE _ _ F), (LE _ _ R). destruct (Nat.eqb _ _); [|reflexivity].
  assert (SS : forall t bs bs', Forall2 (fun b b' => fst b' = fst b /\ Forall2 printed (snd b) (snd b')) bs bs' -> write_section empty (t, bs') = write_section empty (t, bs)).
  { intros t bs bs' H. unfold write_section. cbn [fst snd]. rewrite (blocks_again empty bs bs' H). reflexivity. }
  assert (ONE : forall k l l', Forall2 printed l l' -> Forall2 (fun b b' => fst b' = fst b /\ Forall2 printed (snd b) (snd b')) [(k : text, l)] [(k, l')])
    by (intros k l l' H; constructor; [split; [reflexivity|exact H]|constructor]).
  assert (ZB : Forall2 (fun b b' => fst b' = fst b /\ Forall2 printed (snd b) (snd b')) (flat_map (z_blocks e) zcs) (flat_map (z_blocks e') zcs)).
  { unfold zcs, z_blocks. cbn [flat_map app].
    pose proof (fun c => Forall2_fst printed _ _ (Z0 c)) as Z1.
    repeat (apply Forall2_cons; [split; [reflexivity|first [apply Z1|apply V]]|]). constructor. }
  assert (TB : no_tipper e = false -> Forall2 (fun b b' => fst b' = fst b /\ Forall2 printed (snd b) (snd b')) (flat_map (t_blocks e) tcs) (flat_map (t_blocks e') tcs)).
  { intros NT. destruct (T NT) as [T1 T2]. unfold tcs, t_blocks. cbn [flat_map app].
    pose proof (fun c => Forall2_fst printed _ _ (T1 c)) as Z1.
    repeat (apply Forall2_cons; [split; [reflexivity|first [apply Z1|apply T2]]|]). constructor. }
  assert (E : mapR (write_section empty) (sections e') = mapR (write_section empty) (sections e)); [|rewrite E; reflexivity].
  unfold sections. rewrite N. destruct (no_tipper e); cbn [app mapR].
  - rewrite (SS _ _ _ (ONE (txt "freq") _ _ F)), (SS _ _ _ (ONE (txt "zrot") _ _ R)), (SS _ _ _ ZB). reflexivity.
  - rewrite (SS _ _ _ (ONE (txt "freq") _ _ F)), (SS _ _ _ (ONE (txt "zrot") _ _ R)), (SS _ _ _ ZB), (SS _ _ _ (ONE (txt "trot") _ _ R)), (SS _ _ _ (TB eq_refl)). reflexivity.
Qed.
