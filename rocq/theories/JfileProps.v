(** C53: the data of J-files.  C78: their station lines.  C79: their header lines. *)
From Coq Require Import Permutation Sorted Qpower.
From Verif Require Import PyBase PyFacts PyText TextFacts PyNum IsoModel IsoProofs PyFloat PyFloatFacts PySci PySciFacts PyRepr PyReprFacts EdiProofs ProcProofs JfileModel JfileSpec JfileProofs JfileData.
From Verif Require ZmmProofs.
Local Open Scope list_scope.
Local Notation ten := PySciFacts.ten.

(** A file that is read: its dictionaries, periods and rows. *)
Lemma read_data_inv st lines r : read_data (st :: lines) = Ok r ->
  exists d rows, read_lines None (fun _ => []) lines = Ok d /\ all_periods d = Ok (j_periods r) /\
    mapR (entries d (z_comps ++ (if find_tipper d then t_comps else []))) (j_periods r) = Ok rows /\
    (forall k c, let v := match dget comp_dec c (nth k rows []) with Some v => v | None => ((x_zero, x_zero), x_zero) end in j_value r k c = fix_value (fst v) /\ j_error r k c = fix_error (snd v)).
Proof.
  unfold read_data. intros E. destruct (read_lines None (fun _ => []) lines) as [d|] eqn:D; [|discriminate E]. cbn [bindR] in E. destruct (all_periods d) as [ps|] eqn:P; [|discriminate E]. cbn [bindR] in E.
  destruct (mapR _ ps) as [rows|] eqn:M; [|discriminate E]. cbn [bindR] in E. apply Ok_inj in E. subst r. exists d, rows. cbn [j_periods j_value j_error]. split; [reflexivity|]. split; [exact P|]. split; [exact M|]. intros k c. split; reflexivity.
Qed.
Lemma entries_get d p : forall cs row, entries d cs p = Ok row -> forall c, In c cs -> exists v, entry d c p = Ok v /\ dget comp_dec c row = Some v.
Proof.
  unfold entries. induction cs as [|c0 cs IH]; intros row E c I; [destruct I|]. cbn [mapR] in E. destruct (entry d c0 p) as [v|] eqn:EV; [|discriminate E]. cbn [bindR] in E.
  destruct (mapR _ cs) as [rest|]; [|discriminate E]. cbn [bindR] in E. apply Ok_inj in E. subst row. cbn [dget]. destruct (comp_dec c c0) as [->|N]; [exists v; split; [exact EV|reflexivity]|]. apply IH; [reflexivity|]. destruct I; [congruence|assumption].
Qed.
Lemma Forall2_nth_l {A B} (P : A -> B -> Prop) la lb : Forall2 P la lb -> forall i a d, nth_error la i = Some a -> P a (nth i lb d).
Proof. intros F. induction F as [|x y la lb H F IH]; intros [|i] a d E; cbn in *; try discriminate E; [injection E as <-; exact H|exact (IH i a d E)]. Qed.

(** Every value is the one of the last line listed for its component at its period, and zero if there is none. *)
Theorem C53_values st lines r k p c : read_data (st :: lines) = Ok r -> nth_error (j_periods r) k = Some p -> (is_tipper c -> tipper_listed lines) ->
  (exists wa wb we rest, last_at lines c p (wa :: wb :: we :: rest) /\
     forall a b e, word_value wa = XFin a -> word_value wb = XFin b -> word_value we = XFin e ->
       exists a' b' e', j_value r k c = (XFin a', XFin b') /\ j_error r k c = XFin e' /\ (a' == a)%Q /\ (b' == b)%Q /\ (e' == e)%Q) \/
  ((forall wp vs post, ~ listed_at lines c p wp vs post) /\ j_value r k c = (XFin 0, XFin 0) /\ j_error r k c = XFin 0).
Proof.
  intros R NP TC. destruct (read_data_inv st lines r R) as (d & rows & D & P & M & V). pose proof (V k c) as VK. cbv zeta in VK. destruct (periods_ok lines d _ D P) as (G & _ & _).
  assert (GP : good p) by (rewrite Forall_forall in G; apply G; apply nth_error_In with (n := k); exact NP).
  apply mapR_Forall2 in M. pose proof (Forall2_nth_l _ _ _ M k p [] NP) as ER.
  assert (IC : In c (z_comps ++ (if find_tipper d then t_comps else []))) by (apply comps_in; intros T; apply (find_tipper_iff lines d D); exact (TC T)).
  destruct (entries_get d p _ _ ER c IC) as (v & EV & GV). rewrite GV in VK. destruct VK as [V1 V2]. unfold entry in EV.
  destruct (read_lines_dict lines None _ d c (show_x p) D) as [(vs & (post & H & LA) & DG)|(NH & DG)]; rewrite DG in EV.
  - left. apply (hit_listed lines c p vs post GP) in H as (wp & ws & L & W).
    destruct ws as [|wa [|wb [|we rest]]]; cbn [firstn map] in W; subst vs; try discriminate EV. exists wa, wb, we, rest. split.
    + exists wp, post. split; [exact L|]. intros wp' vs' post' L'. apply (LA (map clean_word (firstn 3 vs')) post'). apply (hit_listed lines c p _ post' GP). exists wp', vs'. split; [exact L'|reflexivity].
    + intros a b e A B E. rewrite !clean_word_value, A, B, E in EV.
      assert (RX : forall w q, word_value w = XFin q -> exists q', read_x (show_x (XFin q)) = Some (XFin q') /\ (q' == q)%Q).
      { intros w q W. pose proof (word_value_good w) as GW. rewrite W in GW. destruct (read_show_x (XFin q) GW) as (y & RY & SY). destruct y as [q'| |]; [|discriminate SY|discriminate SY]. exists q'. split; [exact RY|]. symmetry. exact SY. }
      destruct (RX wa a A) as (a' & R1 & Q1). destruct (RX wb b B) as (b' & R2 & Q2). destruct (RX we e E) as (e' & R3 & Q3). rewrite R1, R2, R3 in EV. apply Ok_inj in EV. subst v. exists a', b', e'. rewrite V1, V2. cbn. auto.
  - right. cbn [dget] in EV. apply Ok_inj in EV. subst v. rewrite V1, V2. split; [|split; reflexivity]. intros wp vs post L. apply (NH (map clean_word (firstn 3 vs)) post). apply (hit_listed lines c p _ post GP). exists wp, vs. split; [exact L|reflexivity].
Qed.
(** The periods are the non-zero ones listed for any component, each once. *)
Theorem C53_periods st lines r : read_data (st :: lines) = Ok r ->
  (forall p, (exists p', In p' (j_periods r) /\ same p' p) <->
     (x_nonzero p = true /\ exists c wp vs post, (is_tipper c -> tipper_listed lines) /\ listed_at lines c p wp vs post)) /\
  (forall i j p q, nth_error (j_periods r) i = Some p -> nth_error (j_periods r) j = Some q -> same p q -> i = j).
Proof.
  intros R. destruct (read_data_inv st lines r R) as (d & rows & D & P & _). destruct (periods_ok lines d _ D P) as (G & DI & PI). split.
  - intros p. split.
    + intros (p' & I & SM). rewrite Forall_forall in G. apply (PI p (same_good _ _ SM (G p' I))). exists p'. split; assumption.
    + intros (Z0 & c & wp & vs & post & T & L). apply (PI p); [exact (same_good _ _ (proj2 L) (word_value_good wp))|]. split; [exact Z0|]. exists c, wp, vs, post. split; assumption.
  - clear -DI. induction DI as [|x ps F DI IH]; intros i j p q Ei Ej SM; [destruct i; discriminate Ei|]. rewrite Forall_forall in F. destruct i as [|i], j as [|j]; cbn in Ei, Ej.
    + reflexivity.
    + injection Ei as <-. destruct (F q (nth_error_In _ _ Ej) SM).
    + injection Ej as <-. destruct (F p (nth_error_In _ _ Ei) (same_sym _ _ SM)).
    + f_equal. exact (IH i j p q Ei Ej SM).
Qed.
(** ** Order *)
Lemma number_cons x a : number_of (x :: a) = (digit_value x * 10 ^ Z.of_nat (List.length a) + number_of a)%Z.
Proof. change (x :: a) with ([x] ++ a). rewrite number_of_concat. f_equal. Qed.
Lemma number_range : forall a, forallb is_digit a = true -> (0 <= number_of a < 10 ^ Z.of_nat (List.length a))%Z.
Proof.
  induction a as [|x a IH]; intros D; [cbn; lia|]. cbn [forallb] in D. apply andb_true_iff in D as [Dx D]. specialize (IH D). rewrite number_cons. cbn [List.length]. rewrite Nat2Z.inj_succ, Z.pow_succ_r by lia.
  assert (DV : (0 <= digit_value x <= 9)%Z).
  { unfold is_digit, in_range in Dx. apply andb_true_iff in Dx as [A B]. apply N.leb_le in A, B. unfold digit_value. lia. }
  nia.
Qed.
Lemma lex_digits : forall a b, forallb is_digit a = true -> forallb is_digit b = true -> text_leb a b = true ->
  (number_of a * 10 ^ Z.of_nat (List.length b) <= number_of b * 10 ^ Z.of_nat (List.length a))%Z.
Proof.
  induction a as [|x a IH]; intros b Da Db L.
  - pose proof (number_range b Db). cbn. lia.
  - destruct b as [|y b]; [discriminate L|]. cbn [text_leb] in L. cbn [forallb] in Da, Db. apply andb_true_iff in Da as [Dx Da]. apply andb_true_iff in Db as [Dy Db].
    pose proof (number_range a Da) as Ra. pose proof (number_range b Db) as Rb. rewrite !number_cons. cbn [List.length]. rewrite !Nat2Z.inj_succ, !Z.pow_succ_r by lia.
    set (A := (10 ^ Z.of_nat (List.length a))%Z) in *. set (B := (10 ^ Z.of_nat (List.length b))%Z) in *.
    destruct (N.ltb_spec (code x) (code y)) as [LT|LT].
    + assert (DV : (digit_value x + 1 <= digit_value y)%Z) by (unfold digit_value; lia).
      assert (X : ((digit_value x * A + number_of a) <= digit_value y * A)%Z) by nia.
      apply Z.le_trans with (digit_value y * A * (10 * B))%Z; [apply Z.mul_le_mono_nonneg_r; [lia|exact X]|]. nia.
    + destruct (N.ltb_spec (code y) (code x)) as [LT2|LT2]; [discriminate L|]. assert (E : digit_value x = digit_value y) by (unfold digit_value; lia). rewrite E. specialize (IH b Da Db L). fold A B in IH. nia.
Qed.
Lemma leb_prefix : forall a b c d, List.length a = List.length b -> text_leb (a ++ "."%char :: c) (b ++ "."%char :: d) = true -> text_leb (a ++ c) (b ++ d) = true.
Proof.
  induction a as [|x a IH]; intros [|y b] c d L; cbn in L; try discriminate L; cbn [app text_leb].
  - rewrite N.ltb_irrefl. tauto.
  - destruct (N.ltb (code x) (code y)); [tauto|]. destruct (N.ltb (code y) (code x)); [tauto|]. apply IH. congruence.
Qed.
(** A number with [n] digits before the point is written with them. *)
Lemma show_float_form q : decimal q -> (0 < q)%Q ->
  exists a e, (0 < a)%Z /\ (q == inject_Z a * Qpower (10 # 1) e)%Q /\ show_float q = place_point (show_nat a) (Z.of_nat (List.length (show_nat a)) + e).
Proof.
  intros D QP. destruct (decimals_ok q D) as (k & DK & DV). pose proof (Qred_correct q) as RC. unfold show_float. cbv zeta.
  assert (NP : (0 < Qnum (Qred q))%Z) by (rewrite <- RC in QP; unfold Qlt in QP; cbn [Qnum Qden] in QP; lia).
  destruct (Z.eqb_spec (Qnum (Qred q)) 0) as [Z0|_]; [lia|]. rewrite DK. destruct (Z.ltb_spec (Qnum (Qred q)) 0) as [L|_]; [lia|].
  remember (Qred q) as r. destruct r as [n d]. cbn [Qnum Qden] in *. destruct DV as [c DV].
  set (m := (Z.abs n * (10 ^ Z.of_nat k / Z.pos d))%Z). assert (TP : (0 < 10 ^ Z.of_nat k)%Z) by (apply Z.pow_pos_nonneg; lia).
  assert (cP : (0 < c)%Z) by (destruct (Z_lt_le_dec 0 c) as [H|H]; [exact H|pose proof (Z.mul_nonpos_nonneg c (Z.pos d) H ltac:(lia)); lia]).
  assert (MC : m = (n * c)%Z) by (unfold m; rewrite DV, Z.div_mul, Z.abs_eq by lia; reflexivity).
  assert (MP : (0 < m)%Z) by (rewrite MC; apply Z.mul_pos_pos; lia).
  destruct (strip_zeros (Z.to_nat (Z.log2 m)) m) as [a z] eqn:SZ. destruct (strip_zeros_ok _ m a z MP SZ) as [E1 E2].
  exists a, (Z.of_nat z - Z.of_nat k)%Z. split; [exact E2|]. split; [|rewrite Z.add_sub_assoc; reflexivity]. rewrite <- RC.
  replace (Z.of_nat z - Z.of_nat k)%Z with (Z.of_nat z + - Z.of_nat k)%Z by lia. rewrite pow_split, pow_pos_10 by lia.
  assert (KN : ~ (inject_Z (10 ^ Z.of_nat k) == 0)%Q) by (intros H; unfold Qeq, inject_Z in H; cbn [Qnum Qden] in H; lia).
  apply (Qmult_inj_r _ _ (inject_Z (10 ^ Z.of_nat k)) KN). rewrite <- !Qmult_assoc, pow_neg_10, Qmult_1_r by lia. rewrite <- inject_Z_mult, <- E1, MC.
  unfold Qeq, Qmult, inject_Z. cbn [Qnum Qden]. rewrite Pos.mul_1_r, Z.mul_1_r, DV. ring.
Qed.
Lemma show_nat_range a : (0 < a)%Z -> (10 ^ (Z.of_nat (List.length (show_nat a)) - 1) <= a < 10 ^ Z.of_nat (List.length (show_nat a)))%Z.
Proof.
  intros P. pose proof (number_range _ (show_nat_digits a ltac:(lia))) as R. rewrite number_of_show_nat in R by lia. split; [|lia].
  pose proof (show_nat_nonempty a ltac:(lia)) as NE. destruct (List.length (show_nat a)) as [|[|L]] eqn:EL; [destruct (show_nat a); [congruence|discriminate EL]|cbn; lia|].
  destruct (Z_lt_le_dec a (10 ^ (Z.of_nat (S (S L)) - 1))) as [H|H]; [|exact H]. exfalso. replace (Z.of_nat (S (S L)) - 1)%Z with (Z.of_nat (S L)) in H by lia.
  pose proof (ZmmProofs.show_digits_length (S (Z.to_nat (Z.log2 a))) a L ltac:(lia)) as SL. change (show_digits (S (Z.to_nat (Z.log2 a))) a) with (show_nat a) in SL. lia.
Qed.
Lemma show_float_shape (n : nat) q : (1 <= n <= 16)%nat -> decimal q -> (Qpower (10 # 1) (Z.of_nat n - 1) <= q < Qpower (10 # 1) (Z.of_nat n))%Q ->
  exists ip fp, show_float q = ip ++ "."%char :: fp /\ List.length ip = n /\ forallb is_digit ip = true /\ forallb is_digit fp = true /\ fp <> [].
Proof.
  intros N D [B1 B2]. assert (QP : (0 < q)%Q) by (apply Qlt_le_trans with (y := ten (Z.of_nat n - 1)); [apply ten_pos|exact B1]).
  destruct (show_float_form q D QP) as (a & e & AP & QE & SF). pose proof (show_nat_range a AP) as [R1 R2]. pose proof (show_nat_digits a ltac:(lia)) as DG. pose proof (show_nat_nonempty a ltac:(lia)) as NE.
  set (d := show_nat a) in *. set (L := Z.of_nat (List.length d)) in *. assert (L1 : (1 <= L)%Z) by (unfold L; destruct d; [congruence|cbn [List.length]; lia]).
  assert (PE : (L + e = Z.of_nat n)%Z).
  { assert (U : (q < ten (L + e))%Q).
    { rewrite QE, ten_plus. apply Qmult_lt_compat_r; [apply ten_pos|]. rewrite ten_Z by lia. rewrite <- Zlt_Qlt. exact R2. }
    assert (W : (ten (L - 1 + e) <= q)%Q).
    { rewrite QE, ten_plus. apply Qmult_le_compat_r; [|apply Qlt_le_weak, ten_pos]. rewrite ten_Z by lia. rewrite <- Zle_Qle. exact R1. }
    assert (X1 : (Z.of_nat n - 1 <= L + e - 1)%Z) by (apply ten_inj; replace (L + e - 1 + 1)%Z with (L + e)%Z by lia; eapply Qle_lt_trans; [exact B1|exact U]).
    assert (X2 : (L - 1 + e <= Z.of_nat n - 1)%Z) by (apply ten_inj; replace (Z.of_nat n - 1 + 1)%Z with (Z.of_nat n) by lia; eapply Qle_lt_trans; [exact W|exact B2]).
    lia. }
  rewrite SF, PE. unfold place_point. replace ((-4 <? Z.of_nat n) && (Z.of_nat n <=? 16))%Z%bool with true by (symmetry; apply andb_true_iff; split; [apply Z.ltb_lt; lia|apply Z.leb_le; lia]).
  destruct (Z.leb_spec (Z.of_nat n) 0) as [X|_]; [lia|]. rewrite Nat2Z.id. destruct (Z.ltb_spec (Z.of_nat n) (Z.of_nat (List.length d))) as [LT|LT].
  - exists (firstn n d), (skipn n d). split; [reflexivity|]. split; [apply firstn_length_le; lia|]. split; [apply forallb_firstn; exact DG|split; [apply forallb_skipn; exact DG|intros H; pose proof (skipn_length n d) as SL; rewrite H in SL; cbn [List.length] in SL; lia]].
  - exists (d ++ zeros (n - List.length d)), (txt "0"). split; [rewrite <- app_assoc; reflexivity|]. split; [rewrite app_length; unfold zeros; rewrite repeat_length; lia|]. split; [rewrite forallb_app, DG, zeros_digits; reflexivity|split; [reflexivity|discriminate]].
Qed.
Lemma shape_value ip fp : ip <> [] -> forallb is_digit ip = true -> forallb is_digit fp = true -> fp <> [] ->
  read_float (ip ++ "."%char :: fp) = Some (Fin (inject_Z (1 * number_of (ip ++ fp)) * Qpower (10 # 1) (0 - Z.of_nat (List.length fp)))).
Proof. intros N D F NF. pose proof (read_float_plain ip fp N D F) as R. destruct fp; [congruence|]. exact R. Qed.
Lemma text_order (n : nat) p q : (1 <= n <= 16)%nat -> decimal p -> decimal q ->
  (Qpower (10 # 1) (Z.of_nat n - 1) <= p < Qpower (10 # 1) (Z.of_nat n))%Q -> (Qpower (10 # 1) (Z.of_nat n - 1) <= q < Qpower (10 # 1) (Z.of_nat n))%Q ->
  text_leb (show_float p) (show_float q) = true -> (p <= q)%Q.
Proof.
  intros N Dp Dq Bp Bq L. destruct (show_float_shape n p N Dp Bp) as (ip & fp & Ep & Lp & D1 & D2 & NEp). destruct (show_float_shape n q N Dq Bq) as (iq & fq & Eq & Lq & D3 & D4 & NEq).
  destruct (read_show_float p Dp) as (v & Rv & Vv). destruct (read_show_float q Dq) as (w & Rw & Vw). rewrite Ep in Rv. rewrite Eq in Rw.
  assert (NF : forall i f x, read_float (i ++ "."%char :: f) = Some (Fin x) -> i <> [] -> forallb is_digit i = true -> forallb is_digit f = true -> f <> [] -> (x == inject_Z (number_of (i ++ f)) * ten (0 - Z.of_nat (List.length f)))%Q).
  { intros i f x R NI DI DF NF. rewrite shape_value in R by assumption. replace (1 * number_of (i ++ f))%Z with (number_of (i ++ f)) in R by ring. injection R as <-. reflexivity. }
  assert (NI : forall i : text, List.length i = n -> i <> []) by (intros i E X; subst i; cbn in E; lia).
  pose proof (NF ip fp v Rv (NI ip Lp) D1 D2 NEp) as V1. pose proof (NF iq fq w Rw (NI iq Lq) D3 D4 NEq) as V2.
  rewrite Ep, Eq in L. apply leb_prefix in L; [|congruence]. apply lex_digits in L; [|rewrite forallb_app, D1; exact D2|rewrite forallb_app, D3; exact D4]. rewrite !app_length, Lp, Lq in L.
  rewrite <- Vv, <- Vw, V1, V2. rewrite Zle_Qle, !inject_Z_mult in L. rewrite <- !ten_Z in L by lia. rewrite !Nat2Z.inj_add, !ten_plus in L.
  set (A := inject_Z (number_of (ip ++ fp))) in *. set (B := inject_Z (number_of (iq ++ fq))) in *.
  set (lp := Z.of_nat (List.length fp)) in *. set (lq := Z.of_nat (List.length fq)) in *. set (nn := Z.of_nat n) in *.
  assert (K : (0 < ten nn * ten lp * ten lq)%Q) by (repeat apply Qmult_lt_0_compat; apply ten_pos).
  apply (Qmult_le_r _ _ _ K).
  assert (Z1 : (ten (0 - lp) * ten lp == 1)%Q) by (apply (ten_opp lp)). assert (Z2 : (ten (0 - lq) * ten lq == 1)%Q) by (apply (ten_opp lq)).
  assert (X1 : (A * ten (0 - lp) * (ten nn * ten lp * ten lq) == A * (ten nn * ten lq) * (ten (0 - lp) * ten lp))%Q) by ring.
  assert (X2 : (B * ten (0 - lq) * (ten nn * ten lp * ten lq) == B * (ten nn * ten lp) * (ten (0 - lq) * ten lq))%Q) by ring.
  rewrite X1, X2, Z1, Z2, !Qmult_1_r. exact L.
Qed.
Lemma sorted_filter {A} (R : A -> A -> Prop) f l : StronglySorted R l -> StronglySorted R (filter f l).
Proof.
  intros S0. induction S0 as [|x l S0 IH F]; [constructor|]. cbn [filter]. destruct (f x); [|exact IH]. constructor; [exact IH|]. rewrite Forall_forall in *. intros y I. apply filter_In in I as [I _]. exact (F y I).
Qed.
Lemma sorted_keys ks ps : sorted_texts ks -> Forall2 key_period ks ps -> StronglySorted (fun p q => text_leb (show_x p) (show_x q) = true) ps.
Proof.
  intros S0 F. induction F as [|k p ks ps (G & K) F IH]; [constructor|]. inversion S0; subst. constructor; [apply IH; assumption|]. apply Forall_forall. intros q I. destruct (Forall2_in_r _ _ _ _ F I) as (k' & I' & (_ & ->)).
  match goal with H : Forall _ ks |- _ => rewrite Forall_forall in H; exact (H _ I') end.
Qed.
(** The periods are in the order of their texts, which is increasing if all have the same number of digits before the
    point. *)
Theorem C53_order_partial st lines r (n : nat) : read_data (st :: lines) = Ok r -> (1 <= n <= 16)%nat ->
  (forall p, In p (j_periods r) -> x_pos p (Qpower (10 # 1) (Z.of_nat n - 1)) (Qpower (10 # 1) (Z.of_nat n))) ->
  StronglySorted x_lt (j_periods r).
Proof.
  intros R N B. destruct (read_data_inv st lines r R) as (d & rows & D & P & _). destruct (periods_ok lines d _ D P) as (G & DI & _).
  assert (S0 : StronglySorted (fun p q => text_leb (show_x p) (show_x q) = true) (j_periods r)).
  { unfold all_periods in P. destruct (mapR _ _) as [l|] eqn:M; [|discriminate P]. cbn [bindR] in P. apply Ok_inj in P. rewrite <- P. apply sorted_filter. apply (sorted_keys (sort_texts (nodup text_dec (period_keys d)))); [apply sort_sorted|].
    apply keys_periods; [|exact M]. intros k I. apply (Permutation_in _ (sort_perm _)) in I. apply nodup_In in I. exact (period_keys_good lines d D k I). }
  clear -S0 DI G B N. revert G DI B S0. generalize (j_periods r). intros ps0 G DI B S0. induction S0 as [|p ps S0 IH F]; [constructor|]. inversion DI; subst. inversion G; subst. constructor; [apply IH; [assumption|assumption|intros q I; apply B; right; exact I]|].
  apply Forall_forall. intros q I. rewrite Forall_forall in *. pose proof (B p (or_introl eq_refl)) as Bp. pose proof (B q (or_intror I)) as Bq. pose proof (F q I) as T. match goal with H : forall x, In x ps -> ~ same p x |- _ => pose proof (H q I) as NS end.
  match goal with H : forall x, In x ps -> good x |- _ => pose proof (H q I) as Gq end.
  destruct p as [p| |]; [|destruct Bp|destruct Bp]. destruct q as [q| |]; [|destruct Bq|destruct Bq]. cbn in Bp, Bq, T, Gq, NS |- *.
  pose proof (text_order n p q N ltac:(assumption) Gq Bp Bq T) as LE. apply Qle_lteq in LE as [LE|LE]; [exact LE|contradiction].
Qed.

(** Not so: the periods are increasing. *)
Definition two_periods : list text := [txt "ZXX"; txt " 2"; txt "10. 1. 2. 3."; txt "2. 4. 5. 6."].
Theorem C53_order_refuted : ~ (forall st lines r, read_data (st :: lines) = Ok r -> StronglySorted x_lt (j_periods r)).
Proof.
  intros H. destruct (read_data (txt "mt001" :: two_periods)) as [r|e] eqn:R; [|vm_compute in R; discriminate R].
  specialize (H _ _ _ R). assert (P : map show_x (j_periods r) = [txt "10.0"; txt "2.0"]).
  { assert (E : match read_data (txt "mt001" :: two_periods) with Ok r' => map show_x (j_periods r') | Err _ => [] end = [txt "10.0"; txt "2.0"]) by (vm_compute; reflexivity). rewrite R in E. exact E. }
  assert (Q1 : match j_periods r with [XFin a; XFin b] => (b < a)%Q | _ => False end).
  { assert (E : match read_data (txt "mt001" :: two_periods) with Ok r' => match j_periods r' with [XFin a; XFin b] => Qle_bool a b | _ => true end | Err _ => true end = false) by (vm_compute; reflexivity). rewrite R in E.
    destruct (j_periods r) as [|[a| |] [|[b| |] [|]]]; try discriminate E. apply Qnot_le_lt. intros L. apply Qle_bool_iff in L. congruence. }
  destruct (j_periods r) as [|[a| |] [|[b| |] [|]]]; try contradiction. inversion H as [|? ? _ F]; subst. inversion F as [|? ? L _]; subst. cbn in L. exact (Qlt_not_le _ _ Q1 (Qlt_le_weak _ _ L)).
Qed.
(** Not so: a file with a blank line among the lines of a component can be read. *)
Lemma read_lines_past rest : (forall key d, read_lines key d rest = Err IndexError) -> forall pre, Forall (fun l => ~ ends l) pre -> forall key d, read_lines key d (pre ++ rest) = Err IndexError.
Proof.
  intros H pre. induction pre as [|l pre IH]; intros F key d; [apply H|]. inversion F; subst. cbn [app read_lines]. pose proof (kind_spec l) as K. destruct (kind_of l) as [w| | |ws]; [apply IH; assumption|apply IH; assumption|contradiction|].
  destruct key as [c|]; [|apply IH; assumption]. destruct (map clean_word ws); [reflexivity|apply IH; assumption].
Qed.
Lemma read_lines_within c rest : (forall d, read_lines (Some c) d rest = Err IndexError) -> forall mid, Forall (fun l => ~ ends l) mid -> Forall (fun l => ~ is_header l) mid -> forall d, read_lines (Some c) d (mid ++ rest) = Err IndexError.
Proof.
  intros H mid. induction mid as [|l mid IH]; intros F G d; [apply H|]. inversion F; subst. inversion G; subst. cbn [app read_lines]. pose proof (kind_spec l) as K. destruct (kind_of l) as [w| | |ws]; [destruct K; contradiction|apply IH; assumption|contradiction|].
  destruct (map clean_word ws); [reflexivity|apply IH; assumption].
Qed.
Theorem C53_blank_line_refuted st lines c post : listed lines c [] post -> read_data (st :: lines) = Err IndexError.
Proof.
  intros (pre & h & mid & row & -> & B & RW & NH & NE). apply Forall_app in NE as [N1 N2]. unfold read_data. rewrite read_lines_past; [reflexivity| |exact N1].
  intros key d. cbn [read_lines]. pose proof (kind_spec h) as K. assert (IH : is_header h) by (eapply begins_header; exact B).
  destruct (kind_of h) as [w| | |ws]; [|destruct K; contradiction|destruct K; contradiction|destruct K; contradiction].
  destruct K as (_ & v & r & E & L). destruct B as (w' & r' & E' & L'). rewrite E in E'. injection E' as <- <-. rewrite <- L, L'. assert (CO : comp_of (component_word c) = Some c) by (apply comp_of_some; symmetry; apply component_words). rewrite CO.
  apply read_lines_within; [|exact N2|exact NH]. clear d. intros d. cbn [read_lines]. clear E L w. pose proof (kind_spec row) as K. destruct RW as (R1 & R2 & R3 & R4).
  destruct (kind_of row) as [w| | |ws]; [destruct K; contradiction|destruct K as (_ & _ & K); rewrite R3 in K; contradiction|contradiction|]. destruct K as (_ & _ & K & _). rewrite R3 in K. subst ws. reflexivity.
Qed.
(** Not so: every value listed for a component is read.  Those of "tzy" are dropped in a file without values of "tzx". *)
Theorem C53_tipper_refuted st lines r k c : read_data (st :: lines) = Ok r -> ~ tipper_listed lines -> is_tipper c -> j_value r k c = (XFin 0, XFin 0) /\ j_error r k c = XFin 0.
Proof.
  intros R NT IT. destruct (read_data_inv st lines r R) as (d & rows & D & P & M & V). specialize (V k c). cbv zeta in V. destruct V as [V1 V2].
  assert (FT : find_tipper d = false).
  { destruct (find_tipper d) eqn:F; [|reflexivity]. exfalso. apply NT. apply (find_tipper_iff lines d D). exact F. }
  rewrite FT, app_nil_r in M. assert (N : dget comp_dec c (nth k rows []) = None).
  { destruct (nth_error rows k) as [row|] eqn:E; [|apply nth_error_None in E; rewrite nth_overflow by exact E; reflexivity].
    rewrite (nth_error_nth rows k [] E). apply nth_error_In in E. pose proof (mapR_Forall2 _ _ _ M) as F. destruct (Forall2_in_r _ _ _ _ F E) as (p & _ & EN).
    unfold entries, z_comps in EN. cbn [mapR] in EN. destruct (entry d Zxx p), (entry d Zxy p), (entry d Zyx p), (entry d Zyy p); try discriminate EN. cbn [bindR] in EN. apply Ok_inj in EN. subst row. destruct IT as [->| ->]; reflexivity. }
  rewrite N in V1, V2. split; [exact V1|exact V2].
Qed.

(** ** C78 *)
Lemma no_number s : read_float (">"%char :: s) = None.
Proof.
  unfold read_float, strip. change (lstrip (">"%char :: s)) with (">"%char :: s). assert (E : exists s', rstrip (">"%char :: s) = ">"%char :: s').
  { destruct (rstrip_decomp (">"%char :: s)) as (sp & E & H). destruct (rstrip (">"%char :: s)) as [|c s'] eqn:RS; [|injection E as <- E; exists s'; reflexivity]. cbn [app] in E. subst sp. discriminate H. }
  destruct E as (s' & ->). cbn [read_sign Ascii.eqb Bool.eqb]. replace (existsb _ _) with false by (symmetry; unfold words_nonfinite; cbn [existsb]; repeat (match goal with |- context [text_eqb ?a ?b] => destruct (text_eqb a b) eqn:T; [apply text_eqb_eq in T; discriminate T|] end); reflexivity). reflexivity.
Qed.
Lemma rstrip_app a c v : is_space c = false -> rstrip (a ++ c :: v) = a ++ c :: rstrip v.
Proof.
  intros H. destruct (rstrip_decomp v) as (sp & E & F). rewrite E at 1. change (a ++ c :: rstrip v ++ sp) with (a ++ ((c :: rstrip v) ++ sp)). rewrite app_assoc, rstrip_spaces by exact F.
  destruct (rstrip v) as [|x w] eqn:R; [apply rstrip_snoc; exact H|]. destruct (@exists_last _ (x :: w) ltac:(discriminate)) as (u & y & U). rewrite U.
  replace (a ++ c :: u ++ [y]) with ((a ++ c :: u) ++ [y]) by (rewrite <- app_assoc; reflexivity). apply rstrip_snoc. apply (rstrip_last v y u). rewrite R. exact U.
Qed.
Lemma station_line_form k v : ~ In "="%char k -> station_line (">"%char :: k ++ "="%char :: v) = (lower (strip k), x_zero).
Proof.
  intros N. unfold station_line, strip at 1. change (lstrip (">"%char :: k ++ "="%char :: v)) with ((">"%char :: k) ++ "="%char :: v). rewrite rstrip_app by reflexivity.
  rewrite split_on_app by (intros [E|I]; [discriminate E|exact (N I)]). cbn [tl]. apply pair_equal_spec. split; [reflexivity|].
  assert (X : exists s', strip (">"%char :: k) = ">"%char :: s').
  { unfold strip. change (lstrip (">"%char :: k)) with (">"%char :: k). destruct (rstrip_decomp (">"%char :: k)) as (sp & E & H). destruct (rstrip (">"%char :: k)) as [|c s'] eqn:RS; [cbn [app] in E; subst sp; discriminate H|]. injection E as <- E. exists s'. reflexivity. }
  destruct X as (s' & ->). unfold read_x. rewrite no_number. reflexivity.
Qed.
(** The key of a station line. *)
Theorem C78_key k v : ~ In "="%char k -> fst (station_line (">"%char :: k ++ "="%char :: v)) = lower (strip k).
Proof. intros N. rewrite station_line_form by exact N. reflexivity. Qed.
(** Not so: the value of a station line is the number after "=".  It is zero, whatever is written there. *)
Theorem C78_value_refuted k v : ~ In "="%char k -> snd (station_line (">"%char :: k ++ "="%char :: v)) = XFin 0.
Proof. intros N. rewrite station_line_form by exact N. reflexivity. Qed.
(** Nor is it in a file: all station lines give zero. *)
Theorem C78_file_refuted lines : (forall l, In l lines -> In ">"%char l -> exists k v, l = ">"%char :: k ++ "="%char :: v /\ ~ In "="%char k) ->
  Forall (fun kv => snd kv = XFin 0) (station_values lines).
Proof.
  intros H. apply Forall_forall. intros kv I. unfold station_values in I. apply in_map_iff in I as (l & <- & I). apply filter_In in I as [I G]. unfold has_char in G. apply existsb_exists in G as (x & I2 & E). apply Ascii.eqb_eq in E. subst x.
  destruct (H l I I2) as (k & v & -> & N). apply C78_value_refuted. exact N.
Qed.
(** The first line with the word is rewritten with the number after "=", and with zero if that is no number. *)
Theorem C78_rewritten v pre name w post : Forall (fun l => contains v (lower l) = false) pre -> ~ In "="%char name -> ~ In "="%char w -> contains v (lower (name ++ "="%char :: w)) = true ->
  exists value, validate_var v (pre ++ (name ++ "="%char :: w) :: post) = Ok (pre ++ (name ++ txt " = " ++ value ++ ["010"%char]) :: post) /\
    (forall q, read_x (strip w) = Some (XFin q) -> decimal q -> exists q', read_x value = Some (XFin q') /\ (q' == q)%Q) /\ (read_x (strip w) = None -> value = txt "0.0").
Proof.
  intros F N1 N2 C. exists (match read_x (strip w) with Some x => show_x x | None => txt "0.0" end). split.
  - induction F as [|l pre E F IH].
    + cbn [app validate_var]. rewrite C. rewrite split_on_app by exact N1. rewrite split_on_no by exact N2. reflexivity.
    + cbn [app validate_var]. rewrite E, IH. reflexivity.
  - split; [|intros ->; reflexivity]. intros q -> D. cbn [show_x]. destruct (read_show_float q D) as (x & R & V). exists x. unfold read_x. rewrite R. split; [reflexivity|exact V].
Qed.
(** Not so: a file can be read whatever its comments say.  If the first line with the word has no "=", it cannot. *)
Theorem C78_comment_refuted v pre line post : Forall (fun l => contains v (lower l) = false) pre -> contains v (lower line) = true -> ~ In "="%char line ->
  validate_var v (pre ++ line :: post) = Err IndexError.
Proof.
  intros F C N. induction F as [|l pre E F IH]; cbn [app validate_var]; [rewrite C, split_on_no by exact N; reflexivity|rewrite E, IH; reflexivity].
Qed.

(** ** C79 *)
Lemma join_blanks_word w : ~ In "="%char w -> ~ In " "%char w -> forall e ii r, join_blanks e ii (w ++ r) = w ++ join_blanks e (ii + List.length w) r.
Proof.
  induction w as [|c w IH]; intros N1 N2 e ii r; [cbn [app List.length]; rewrite Nat.add_0_r; reflexivity|]. cbn [app join_blanks List.length].
  destruct (Ascii.eqb_spec c "=") as [->|_]; [exfalso; apply N1; left; reflexivity|]. destruct (Ascii.eqb_spec c " ") as [->|_]; [exfalso; apply N2; left; reflexivity|].
  rewrite IH; [replace (S ii + List.length w)%nat with (ii + S (List.length w))%nat by lia; reflexivity| |]; intros I; [apply N1|apply N2]; right; exact I.
Qed.
Definition chunk (i : hitem) : text := match i with IPair _ k v => k ++ "="%char :: v | IWord w => w end.
Lemma join_two sep a b : a <> [] -> b <> [] -> join sep (a ++ b) = join sep a ++ sep ++ join sep b.
Proof.
  induction a as [|x a IH]; intros N M; [congruence|]. destruct a as [|y a].
  - cbn [app join]. destruct b; [congruence|reflexivity].
  - change (join sep (x :: (y :: a) ++ b) = join sep (x :: y :: a) ++ sep ++ join sep b). change (join sep (x :: (y :: a) ++ b)) with (x ++ sep ++ join sep ((y :: a) ++ b)). rewrite IH by congruence. cbn [join]. rewrite <- !app_assoc. reflexivity.
Qed.
Lemma words_nonempty i : item_words i <> [].
Proof. destruct i as [[|] k v|w]; discriminate. Qed.
Definition short (i : hitem) : Prop := match i with IWord [_] => True | _ => False end.
(** One item: a state [e, ii] from which the next blank is not dropped. *)
Lemma join_blanks_item i e ii : item_ok i -> ((e + 2 <= ii)%nat \/ (e = ii /\ ~ short i)) ->
  exists e' ii', (e' + 2 <= ii')%nat /\ forall r, join_blanks e ii (join (txt " ") (item_words i) ++ r) = chunk i ++ join_blanks e' ii' r.
Proof.
  intros OK ST. destruct i as [[|] k v|w]; cbn [item_ok item_words chunk] in *.
  - destruct OK as ((K1 & K2 & _ & K4) & (V1 & V2 & _ & V4)). exists (ii + List.length k)%nat, (ii + List.length k + 2 + List.length v)%nat. split; [destruct v; [congruence|cbn [List.length]; lia]|]. intros r.
    cbn [join]. rewrite <- !app_assoc. rewrite (join_blanks_word k K2 K4). change (["="%char] ++ txt " " ++ v ++ r) with ("="%char :: " "%char :: (v ++ r)). cbn [join_blanks Ascii.eqb Bool.eqb].
    replace (Nat.max (ii + List.length k) (S (ii + List.length k)) - Nat.min (ii + List.length k) (S (ii + List.length k)))%nat with 1%nat by lia. cbn [Nat.eqb].
    rewrite (join_blanks_word v V2 V4). replace (S (S (ii + List.length k)) + List.length v)%nat with (ii + List.length k + 2 + List.length v)%nat by lia. reflexivity.
  - destruct OK as ((K1 & K2 & _ & K4) & (V1 & V2 & _ & V4)). exists (ii + List.length k)%nat, (ii + List.length k + 1 + List.length v)%nat. split; [destruct v; [congruence|cbn [List.length]; lia]|]. intros r.
    cbn [join]. rewrite <- !app_assoc. rewrite (join_blanks_word k K2 K4). change (("="%char :: v) ++ r) with ("="%char :: (v ++ r)). cbn [join_blanks Ascii.eqb Bool.eqb].
    rewrite (join_blanks_word v V2 V4). replace (S (ii + List.length k) + List.length v)%nat with (ii + List.length k + 1 + List.length v)%nat by lia. reflexivity.
  - destruct OK as (W1 & W2 & _ & W4). exists e, (ii + List.length w)%nat. split; [destruct ST as [ST|[-> NS]]; [lia|]; destruct w as [|x [|y w]]; [congruence|exfalso; apply NS; exact I|cbn [List.length]; lia]|]. intros r. cbn [join]. apply (join_blanks_word w W2 W4).
Qed.
Lemma join_blanks_items : forall items e ii, items <> [] -> Forall item_ok items -> ((e + 2 <= ii)%nat \/ (e = ii /\ match items with i :: _ => ~ short i | [] => True end)) ->
  join_blanks e ii (join (txt " ") (flat_map item_words items)) = join (txt ",") (map chunk items).
Proof.
  induction items as [|i items IH]; intros e ii NE F ST; [congruence|]. inversion F; subst. destruct (join_blanks_item i e ii ltac:(assumption) ST) as (e' & ii' & B & J).
  destruct items as [|j items].
  - cbn [flat_map map join]. rewrite app_nil_r. pose proof (J []) as J0. rewrite !app_nil_r in J0. exact J0.
  - change (flat_map item_words (i :: j :: items)) with (item_words i ++ flat_map item_words (j :: items)). rewrite join_two; [|apply words_nonempty|cbn [flat_map]; intros X; apply app_eq_nil in X as [X _]; exact (words_nonempty j X)].
    rewrite J. change (txt " " ++ join (txt " ") (flat_map item_words (j :: items))) with (" "%char :: join (txt " ") (flat_map item_words (j :: items))). cbn [join_blanks]. change (Ascii.eqb " " "=") with false. change (Ascii.eqb " " " ") with true. cbv iota.
    replace (Nat.eqb (Nat.max e' ii' - Nat.min e' ii') 1) with false by (symmetry; apply Nat.eqb_neq; lia). rewrite IH; [reflexivity|discriminate|assumption|left; lia].
Qed.
Lemma read_parts_items items : Forall item_ok items -> forall key d,
  read_parts key d (map chunk items) = Ok (fold_left (fun d i => match i with IPair _ k v => dset text_dec k (h_of v) d | IWord _ => d end) items d).
Proof.
  intros F. induction F as [|i items OK F IH]; intros key d; [reflexivity|]. cbn [map read_parts fold_left]. destruct i as [bl k v|w]; cbn [item_ok chunk] in *.
  - destruct OK as ((_ & K & _) & (_ & V & _)). rewrite split_on_app, split_on_no by assumption. apply IH.
  - destruct OK as (_ & K & _). rewrite split_on_no by exact K. apply IH.
Qed.
Lemma chunk_no_comma i : item_ok i -> ~ In ","%char (chunk i).
Proof.
  destruct i as [bl k v|w]; cbn [item_ok chunk]; [|intros (_ & _ & H & _); exact H]. intros ((_ & _ & H1 & _) & (_ & _ & H2 & _)) I. apply in_app_or in I as [I|[I|I]]; [exact (H1 I)|discriminate I|exact (H2 I)].
Qed.
Lemma read_header_items line items : Forall item_ok items -> no_single items -> header_written line items ->
  read_header_line line = Ok (fold_left (fun d i => match i with IPair _ k v => dset text_dec k (h_of v) d | IWord _ => d end) items []).
Proof.
  intros F NS H. unfold read_header_line. rewrite split_ws_strip. unfold header_written in H. rewrite H. destruct items as [|i items]; [reflexivity|].
  rewrite join_blanks_items; [|discriminate|exact F|right; split; [reflexivity|]; destruct i as [bl k v|[|x [|y w]]]; cbn in NS |- *; tauto]. change (txt ",") with [","%char]. rewrite split_join; [apply read_parts_items; exact F|discriminate|].
  intros w I. apply in_map_iff in I as (j & <- & I). rewrite Forall_forall in F. exact (chunk_no_comma j (F j I)).
Qed.
Lemma h_of_value v : value_of v (h_of v).
Proof. unfold value_of, h_of. destruct (read_x v) as [x|]; [left; exists x; split; reflexivity|right; split; reflexivity]. Qed.
Lemma value_of_h v h : value_of v h -> h = h_of v.
Proof. unfold h_of. intros [(x & -> & ->)|(-> & ->)]; reflexivity. Qed.
(** A header line gives every key the last value written for it, and no other keys. *)
Theorem C79_values line items : Forall item_ok items -> no_single items -> header_written line items ->
  exists d, read_header_line line = Ok d /\ NoDup (map fst d) /\ forall k h, In (k, h) d <-> exists v, last_pair items k v /\ value_of v h.
Proof.
  intros F NS H. eexists. split; [exact (read_header_items line items F NS H)|]. clear F NS H.
  induction items as [|i items IH] using rev_ind; [split; [constructor|]; intros k h; split; [intros []|intros (v & (a & b & bl & E & _) & _); destruct a; discriminate E]|].
  rewrite fold_left_app. cbn [fold_left]. set (d := fold_left _ items []) in *. destruct IH as [ND IH]. assert (GI : forall k h, In (k, h) d <-> dget text_dec k d = Some h) by (intros k h; split; [apply In_dget; exact ND|apply dget_In]).
  destruct i as [bl k0 v0|w].
  - assert (ND' : NoDup (map fst (dset text_dec k0 (h_of v0) d))) by (apply NoDup_dset; exact ND). split; [exact ND'|]. intros k h.
    transitivity (dget text_dec k (dset text_dec k0 (h_of v0) d) = Some h); [split; [apply In_dget; exact ND'|apply dget_In]|].
    destruct (text_dec k k0) as [->|N].
    + rewrite dget_dset_eq. split.
      * intros E. injection E as <-. exists v0. split; [|apply h_of_value]. exists items, [], bl. split; [reflexivity|intros ? ? []].
      * intros (v & (a & b & bl' & E & L) & V). destruct b as [|y b] using rev_ind.
        -- apply app_inj_tail in E as [_ E]. injection E as _ <-. rewrite (value_of_h _ _ V). reflexivity.
        -- exfalso. clear IHb. change (a ++ IPair bl' k0 v :: b ++ [y]) with (a ++ (IPair bl' k0 v :: b) ++ [y]) in E. rewrite app_assoc in E. apply app_inj_tail in E as [_ <-]. apply (L bl v0). apply in_or_app. right. left. reflexivity.
    + rewrite dget_dset_neq by exact N. rewrite <- GI, IH. split; intros (v & (a & b & bl' & E & L) & V); exists v; (split; [|exact V]).
      * exists a, (b ++ [IPair bl k0 v0]), bl'. split; [rewrite E, <- app_assoc; reflexivity|]. intros bl2 v2 I. apply in_app_or in I as [I|[I|[]]]; [exact (L _ _ I)|injection I as _ I _; congruence].
      * destruct b as [|y b] using rev_ind; [apply app_inj_tail in E as [_ E]; injection E as _ E _; congruence|]. clear IHb.
        change (a ++ IPair bl' k v :: b ++ [y]) with (a ++ (IPair bl' k v :: b) ++ [y]) in E. rewrite app_assoc in E. apply app_inj_tail in E as [-> _]. exists a, b, bl'. split; [reflexivity|]. intros bl2 v2 I. apply (L bl2 v2). apply in_or_app. left. exact I.
  - split; [exact ND|]. intros k h. rewrite IH. split; intros (v & (a & b & bl' & E & L) & V); exists v; (split; [|exact V]).
    + exists a, (b ++ [IWord w]), bl'. split; [rewrite E, <- app_assoc; reflexivity|]. intros bl2 v2 I. apply in_app_or in I as [I|[I|[]]]; [exact (L _ _ I)|discriminate I].
    + destruct b as [|y b] using rev_ind; [apply app_inj_tail in E as [_ E]; discriminate E|]. clear IHb.
      change (a ++ IPair bl' k v :: b ++ [y]) with (a ++ (IPair bl' k v :: b) ++ [y]) in E. rewrite app_assoc in E. apply app_inj_tail in E as [-> _]. exists a, b, bl'. split; [reflexivity|]. intros bl2 v2 I. apply (L bl2 v2). apply in_or_app. left. exact I.
Qed.
(** Not so: a list of values is read.  Only the first is. *)
Theorem C79_list_refuted line k v vs : plain k -> plain v -> Forall plain vs -> split_ws (tl line) = (k ++ ["="%char]) :: v :: vs -> read_header_line line = Ok [(k, h_of v)].
Proof.
  intros K V VS H. rewrite (read_header_items line (IPair true k v :: map IWord vs)).
  - cbn [fold_left]. change (dset text_dec k (h_of v) []) with [(k, h_of v)]. clear. induction vs as [|w vs IH]; [reflexivity|exact IH].
  - constructor; [split; assumption|]. apply Forall_forall. intros i I. apply in_map_iff in I as (w & <- & I). rewrite Forall_forall in VS. exact (VS w I).
  - exact I.
  - assert (E : flat_map item_words (map IWord vs) = vs) by (clear; induction vs as [|w vs IH]; [reflexivity|]; cbn [map flat_map item_words app]; rewrite IH; reflexivity).
    unfold header_written. rewrite H. cbn [flat_map item_words app]. rewrite E. reflexivity.
Qed.
(** Not so: blanks before "=" do not matter.  The key is lost. *)
Theorem C79_blank_refuted line k v : plain k -> plain v -> (2 <= List.length k)%nat -> split_ws (tl line) = [k; ["="%char]; v] -> read_header_line line = Ok [([], h_of v)].
Proof.
  intros (K1 & K2 & K3 & K4) (V1 & V2 & V3 & V4) L H. unfold read_header_line. rewrite split_ws_strip, H. cbn [join]. rewrite (join_blanks_word k K2 K4 0 0). cbn [Nat.add].
  change (txt " " ++ ["="%char] ++ txt " " ++ v) with (" "%char :: "="%char :: " "%char :: v). remember (List.length k) as n. cbn [join_blanks]. change (Ascii.eqb " " "=") with false. change (Ascii.eqb " " " ") with true. change (Ascii.eqb "=" "=") with true. cbv iota.
  replace (Nat.eqb (Nat.max 0 n - Nat.min 0 n) 1) with false by (symmetry; apply Nat.eqb_neq; lia). replace (Nat.max (S n) (S (S n)) - Nat.min (S n) (S (S n)))%nat with 1%nat by lia. cbn [Nat.eqb].
  pose proof (join_blanks_word v V2 V4 (S n) (S (S (S n))) []) as J. cbn [join_blanks] in J. rewrite !app_nil_r in J. rewrite J.
  rewrite split_on_app by exact K3. rewrite split_on_no by (intros [E|I]; [discriminate E|exact (V3 I)]). cbn [read_parts]. rewrite split_on_no by exact K2.
  change ("="%char :: v) with ([] ++ "="%char :: v). rewrite split_on_app by (intros []). rewrite split_on_no by exact V2. reflexivity.
Qed.
(** Not so: other words do not matter.  A single letter in front becomes part of the key. *)
Theorem C79_letter_refuted line c k v : plain [c] -> plain k -> plain v -> split_ws (tl line) = [[c]; k ++ ["="%char]; v] -> read_header_line line = Ok [(c :: k, h_of v)].
Proof.
  intros (C1 & C2 & C3 & C4) (K1 & K2 & K3 & K4) (V1 & V2 & V3 & V4) H. unfold read_header_line. rewrite split_ws_strip, H. cbn [join]. rewrite (join_blanks_word [c] C2 C4 0 0). cbn [Nat.add List.length].
  change (txt " " ++ (k ++ ["="%char]) ++ txt " " ++ v) with (" "%char :: (k ++ ["="%char]) ++ txt " " ++ v). cbn [join_blanks]. change (Ascii.eqb " " "=") with false. change (Ascii.eqb " " " ") with true. cbv iota. cbn [Nat.max Nat.min Nat.sub Nat.eqb].
  rewrite <- app_assoc. rewrite (join_blanks_word k K2 K4). change (["="%char] ++ txt " " ++ v) with ("="%char :: " "%char :: v). set (n := (2 + List.length k)%nat). cbn [join_blanks]. change (Ascii.eqb " " "=") with false. change (Ascii.eqb " " " ") with true. change (Ascii.eqb "=" "=") with true. cbv iota.
  replace (Nat.max n (S n) - Nat.min n (S n))%nat with 1%nat by lia. cbn [Nat.eqb]. pose proof (join_blanks_word v V2 V4 n (S (S n)) []) as J. cbn [join_blanks] in J. rewrite !app_nil_r in J. rewrite J.
  change ([c] ++ k ++ "="%char :: v) with ((c :: k) ++ "="%char :: v). rewrite split_on_no.
  - cbn [read_parts]. rewrite split_on_app; [|intros [E|I]; [apply C2; left; exact E|exact (K2 I)]]. rewrite split_on_no by exact V2. reflexivity.
  - intros I. apply in_app_or in I as [[I|I]|[I|I]]; [apply C3; left; exact I|exact (K3 I)|discriminate I|exact (V3 I)].
Qed.

(** A file with two periods, a masked number and no tipper. *)
Definition small_file : list text := [txt "ZXX S.I."; txt " 2"; txt "2.5 1. -2. 3."; txt "4. -999 5. 6."; txt "ZYX"; txt " 1"; txt "4. 7. 8. 9."; txt "RXX"; txt "4. 1. 1. 1."].
Example C53_hyp :
  (exists r, read_data (txt "mt001" :: small_file) = Ok r /\ map show_x (j_periods r) = [txt "2.5"; txt "4.0"] /\
     map (fun v => (show_x (fst v), show_x (snd v))) [j_value r 0 Zxx; j_value r 1 Zxx; j_value r 1 Zyx; j_value r 0 Zyx] =
     [(txt "1.0", txt "-2.0"); (txt "0.0", txt "5.0"); (txt "7.0", txt "8.0"); (txt "0.0", txt "0.0")] /\
     forall p, In p (j_periods r) -> x_pos p (Qpower (10 # 1) (Z.of_nat 1 - 1)) (Qpower (10 # 1) (Z.of_nat 1))) /\
  listed [txt "ZXX"; txt "1. 2. 3. 4."; []] Zxx [] [].
Proof.
  split.
  - destruct (read_data (txt "mt001" :: small_file)) as [r|e] eqn:R; [|vm_compute in R; discriminate R]. exists r. split; [reflexivity|].
    assert (E : match read_data (txt "mt001" :: small_file) with
                | Ok r' => (map show_x (j_periods r'), map (fun v => (show_x (fst v), show_x (snd v))) [j_value r' 0 Zxx; j_value r' 1 Zxx; j_value r' 1 Zyx; j_value r' 0 Zyx],
                            forallb (fun p => match p with XFin q => (Qle_bool 1 q && negb (Qle_bool (10 # 1) q))%bool | _ => false end) (j_periods r'))
                | Err _ => ([], [], false) end =
                ([txt "2.5"; txt "4.0"], [(txt "1.0", txt "-2.0"); (txt "0.0", txt "5.0"); (txt "7.0", txt "8.0"); (txt "0.0", txt "0.0")], true)) by (vm_compute; reflexivity).
    rewrite R in E. apply pair_equal_spec in E as [E E3]. apply pair_equal_spec in E as [E1 E2]. split; [exact E1|]. split; [exact E2|]. intros p I. rewrite forallb_forall in E3. specialize (E3 p I). destruct p as [q| |]; try discriminate E3.
    apply andb_true_iff in E3 as [L1 L2]. apply Qle_bool_iff in L1. split; [exact L1|]. apply Qnot_le_lt. intros L. apply Qle_bool_iff in L. change (Qle_bool (10 # 1) q = true) in L. rewrite L in L2. discriminate L2.
  - exists [], (txt "ZXX"), [txt "1. 2. 3. 4."], []. split; [reflexivity|]. split; [exists (txt "ZXX"), []; split; reflexivity|].
    assert (N1 : ~ is_header []) by (intros (w & r & c & s & E & _); discriminate E). assert (N2 : ~ is_header (txt "1. 2. 3. 4.")) by (intros (w & r & c & s & E & L & [-> | ->]); vm_compute in E; injection E as <- <-; discriminate L).
    assert (R1 : ~ ends []) by (intros [_ I]; exact I). assert (R2 : ~ ends (txt "1. 2. 3. 4.")) by (intros [_ I]; apply has_r in I; discriminate I).
    split; [split; [exact N1|]; split; [exact R1|]; split; [reflexivity|discriminate]|]. split; [constructor; [exact N2|constructor]|constructor; [exact R2|constructor]].
Qed.
Example C53_tipper_hyp :
  (exists r, read_data (txt "mt001" :: [txt "TZY"; txt "2. 1. 1. 1."]) = Ok r) /\ ~ tipper_listed [txt "TZY"; txt "2. 1. 1. 1."] /\ is_tipper Tzy /\
  listed [txt "TZY"; txt "2. 1. 1. 1."] Tzy [txt "2."; txt "1."; txt "1."; txt "1."] [].
Proof.
  assert (N2 : ~ is_header (txt "2. 1. 1. 1.")) by (intros (w & r & c & s & E & L & [-> | ->]); vm_compute in E; injection E as <- <-; discriminate L).
  split; [destruct (read_data (txt "mt001" :: [txt "TZY"; txt "2. 1. 1. 1."])) as [r|e] eqn:R; [exists r; reflexivity|vm_compute in R; discriminate R]|]. split.
  - intros (wp & vs & post & pre & h & mid & row & E & B & _). assert (I : In h [txt "TZY"; txt "2. 1. 1. 1."]) by (rewrite E; apply in_or_app; right; left; reflexivity).
    destruct I as [<-|[<-|[]]]; [destruct B as (w & r & S0 & L); vm_compute in S0; injection S0 as <- <-; discriminate L|]. exact (N2 (begins_header _ _ B)).
  - split; [right; reflexivity|]. exists [], (txt "TZY"), [], (txt "2. 1. 1. 1."). split; [reflexivity|]. split; [exists (txt "TZY"), []; split; reflexivity|]. split; [|split; constructor].
    split; [exact N2|]. split; [intros [_ I]; apply has_r in I; discriminate I|]. split; [reflexivity|discriminate].
Qed.
Example C78_hyp : ~ In "="%char (txt "LATITUDE ") /\ read_x (txt " 45.5") = Some (XFin (455 # 10)) /\ station_line (txt ">LATITUDE = 45.5") = (txt "latitude", XFin 0) /\
  contains (txt "lat") (lower (txt "# calculated by birrp")) = true /\ ~ In "="%char (txt "# calculated by birrp").
Proof.
  repeat split; try reflexivity.
  - intros I. vm_compute in I. repeat (destruct I as [I|I]; [discriminate I|]). exact I.
  - intros I. vm_compute in I. repeat (destruct I as [I|I]; [discriminate I|]). exact I.
Qed.
Lemma plain_b w : (nonempty w && negb (has_char "="%char w) && negb (has_char ","%char w) && negb (has_char " "%char w))%bool = true -> plain w.
Proof.
  intros H. apply andb_true_iff in H as [H H4]. apply andb_true_iff in H as [H H3]. apply andb_true_iff in H as [H1 H2].
  assert (X : forall c, negb (has_char c w) = true -> ~ In c w) by (intros c N I; apply negb_true_iff in N; unfold has_char in N; rewrite <- not_true_iff_false in N; apply N; apply existsb_exists; exists c; split; [exact I|apply Ascii.eqb_refl]).
  split; [intros ->; discriminate H1|]. split; [|split]; apply X; assumption.
Qed.
Example C79_hyp : let items := [IPair true (txt "nout") (txt "2"); IWord (txt "extra"); IPair false (txt "filnam") (txt "b.dat")] in
  Forall item_ok items /\ no_single items /\ header_written (txt "#  nout=  2 extra filnam=b.dat") items /\ last_pair items (txt "nout") (txt "2") /\ value_of (txt "b.dat") (HText (txt "b.dat")).
Proof.
  cbv zeta. split; [|split; [exact I|split; [reflexivity|split]]].
  - constructor; [split; apply plain_b; reflexivity|]. constructor; [apply plain_b; reflexivity|]. constructor; [split; apply plain_b; reflexivity|constructor].
  - exists [], [IWord (txt "extra"); IPair false (txt "filnam") (txt "b.dat")], true. split; [reflexivity|]. intros bl v [I|[I|[]]]; discriminate I.
  - right. split; reflexivity.
Qed.
Example C79_refuted_hyp : (plain (txt "indices") /\ plain (txt "1") /\ Forall plain [txt "2"; txt "3"] /\ split_ws (tl (txt "# indices= 1 2 3")) = [txt "indices="; txt "1"; txt "2"; txt "3"]) /\
  split_ws (tl (txt "# nout = 2")) = [txt "nout"; txt "="; txt "2"] /\ split_ws (tl (txt "# a nout= 2")) = [txt "a"; txt "nout="; txt "2"].
Proof.
  split; [|split; reflexivity]. split; [apply plain_b; reflexivity|]. split; [apply plain_b; reflexivity|]. split; [|reflexivity]. constructor; [apply plain_b; reflexivity|]. constructor; [apply plain_b; reflexivity|constructor].
Qed.
Print Assumptions C53_values.
Print Assumptions C53_periods.
Print Assumptions C53_order_partial.
Print Assumptions C53_order_refuted.
Print Assumptions C53_blank_line_refuted.
Print Assumptions C53_tipper_refuted.
Print Assumptions C78_key.
Print Assumptions C78_value_refuted.
Print Assumptions C78_file_refuted.
Print Assumptions C78_rewritten.
Print Assumptions C78_comment_refuted.
Print Assumptions C79_values.
Print Assumptions C79_list_refuted.
Print Assumptions C79_blank_refuted.
Print Assumptions C79_letter_refuted.
