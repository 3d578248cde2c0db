(** Lemmas about [str] of a float. *)
From Coq Require Import Qpower Znumtheory.
From Coq Require Qcanon.
From Verif Require Import PyBase PyText TextFacts PyNum IsoModel IsoProofs PyFloat PyFloatFacts PySci PySciFacts PyRepr.
Local Open Scope list_scope.
Local Open Scope Z_scope.

(** A decimal number. *)
Definition decimal (q : Q) : Prop := exists (m : Z) (e : Z), (q == inject_Z m * Qpower (10 # 1) e)%Q.

(** ** Which denominators *)
Lemma coprime_power n : Z.gcd n 10 = 1 -> forall K : nat, (n | 10 ^ Z.of_nat K) -> (n | 1).
Proof.
  intros G. induction K as [|K IH]; [tauto|]. rewrite Nat2Z.inj_succ, Z.pow_succ_r by lia. intros D. apply IH. apply (Z.gauss n 10); [exact D|exact G].
Qed.
Lemma den_divides : forall n, 0 < n -> forall K : nat, (n | 10 ^ Z.of_nat K) -> (n | 10 ^ Z.log2 n).
Proof.
  intros n. pattern n. apply (well_founded_induction (Z.lt_wf 0)). clear n. intros n IH P K D.
  destruct (Z.eq_dec n 1) as [->|N1]; [apply Z.divide_1_l|].
  pose proof (Z.gcd_nonneg n 10) as G0. pose proof (Z.gcd_divide_l n 10) as [d D1]. pose proof (Z.gcd_divide_r n 10) as [h D2]. 
  remember (Z.gcd n 10) as g eqn:EG.
  assert (GP : 0 < g) by (destruct (Z.eq_dec g 0) as [Z0|]; [rewrite Z0 in D1; lia|lia]).
  assert (G1 : g <> 1).
  { intros G1. apply N1. assert (DV : (n | 1)) by (apply (coprime_power n) with (K := K); [congruence|exact D]). apply Z.divide_1_r_nonneg in DV; lia. }
  assert (dP : 0 < d) by (destruct (Z_lt_le_dec 0 d) as [H|H]; [exact H|pose proof (Z.mul_nonpos_nonneg d g H ltac:(lia)); lia]).
  assert (L2 : 2 * d <= n) by (rewrite D1, (Z.mul_comm 2 d); apply Z.mul_le_mono_nonneg_l; lia).
  assert (L : Z.log2 d + 1 <= Z.log2 n) by (rewrite Z.add_1_r, <- Z.log2_double by exact dP; apply Z.log2_le_mono; exact L2).
  assert (DD : (d | 10 ^ Z.log2 d)).
  { apply (IH d ltac:(lia) dP K). apply (Z.divide_trans _ n); [exists g; lia|exact D]. }
  pose proof (Z.log2_nonneg d) as LN.
  apply (Z.divide_trans _ (10 ^ (Z.log2 d + 1))).
  - rewrite Z.pow_add_r by lia. rewrite D1 at 1. destruct DD as [y DD]. exists (y * h). rewrite DD, Z.pow_1_r. rewrite D2 at 1. ring.
  - exists (10 ^ (Z.log2 n - (Z.log2 d + 1))). rewrite <- Z.pow_add_r by lia. f_equal. lia.
Qed.
Lemma decimals_from_ok den : 0 < den -> forall fuel k, (den | 10 ^ Z.of_nat (k + fuel)) -> exists k', decimals_from fuel k den = Some k' /\ (den | 10 ^ Z.of_nat k').
Proof.
  intros P. induction fuel as [|f IH]; intros k D; cbn [decimals_from]; destruct (Z.eqb_spec (10 ^ Z.of_nat k mod den) 0) as [E|E].
  - exists k. split; [reflexivity|apply Z.mod_divide; [lia|exact E]].
  - exfalso. apply E. apply Z.mod_divide; [lia|]. rewrite Nat.add_0_r in D. exact D.
  - exists k. split; [reflexivity|apply Z.mod_divide; [lia|exact E]].
  - apply IH. rewrite Nat.add_succ_comm. exact D.
Qed.
Lemma pow_pos_10 k : 0 <= k -> (Qpower (10 # 1) k == inject_Z (10 ^ k))%Q.
Proof. intros H. change (10 # 1)%Q with (inject_Z 10). symmetry. apply Zpower_Qpower. exact H. Qed.
Lemma pow_neg_10 k : 0 <= k -> (Qpower (10 # 1) (- k) * inject_Z (10 ^ k) == 1)%Q.
Proof. intros H. rewrite <- pow_pos_10 by exact H. rewrite <- Qpower_plus by discriminate. replace (- k + k) with 0 by lia. reflexivity. Qed.
Lemma decimal_den q : decimal q -> exists K : nat, (Zpos (Qden (Qred q)) | 10 ^ Z.of_nat K).
Proof.
  intros (m & e & E). pose (K := Z.to_nat (Z.max 0 (- e))). exists K.
  assert (KE : Z.of_nat K = Z.max 0 (- e)) by (unfold K; lia).
  pose proof (Qred_correct q) as RC. assert (GC : Z.gcd (Qnum (Qred q)) (Zpos (Qden (Qred q))) = 1).
  { apply (proj1 (Qcanon.Qred_iff (Qred q))). apply Qred_complete. exact RC. }
  rewrite <- RC in E.
  remember (Qred q) as r. destruct r as [n d]. cbn [Qnum Qden] in *. rewrite Z.gcd_comm in GC. apply (Z.gauss _ n); [|exact GC].
  assert (X : ((n # d) * inject_Z (10 ^ Z.of_nat K) == inject_Z (m * 10 ^ (e + Z.of_nat K)))%Q).
  { rewrite E. rewrite inject_Z_mult. rewrite <- Qmult_assoc. rewrite <- !pow_pos_10 by lia. rewrite <- Qpower_plus by discriminate. reflexivity. }
  unfold Qeq, Qmult, inject_Z in X. cbn [Qnum Qden] in X. rewrite Pos.mul_1_r, Z.mul_1_r in X. exists (m * 10 ^ (e + Z.of_nat K)). exact X.
Qed.
Lemma decimals_ok q : decimal q -> exists k, decimals (Qred q) = Some k /\ (Zpos (Qden (Qred q)) | 10 ^ Z.of_nat k).
Proof.
  intros D. destruct (decimal_den q D) as [K DV]. unfold decimals. apply decimals_from_ok; [reflexivity|]. cbn [Nat.add].
  rewrite Z2Nat.id by apply Z.log2_nonneg. apply den_divides with (K := K); [reflexivity|exact DV].
Qed.
Lemma strip_zeros_ok : forall fuel m a z, 0 < m -> strip_zeros fuel m = (a, z) -> m = a * 10 ^ Z.of_nat z /\ 0 < a.
Proof.
  induction fuel as [|f IH]; intros m a z P E; cbn [strip_zeros] in E.
  - injection E as <- <-. cbn. lia.
  - destruct (Z.eqb_spec (m mod 10) 0) as [M|M]; [|injection E as <- <-; cbn; lia].
    destruct (strip_zeros f (m / 10)) as [a' k] eqn:S0. injection E as <- <-. pose proof (Z.div_mod m 10 ltac:(lia)) as DM.
    destruct (IH (m / 10) a' k ltac:(lia) S0) as [E1 E2]. split; [|exact E2]. rewrite Nat2Z.inj_succ, Z.pow_succ_r by lia. lia.
Qed.
(** ** Reading the digits with a point *)
Definition exp_part (o : option Z) : text := match o with Some e => sci_exp_text e | None => [] end.
Definition exp_value (o : option Z) : Z := match o with Some e => e | None => 0 end.
Lemma sci_exp_chars e : forallb sci_char (sci_exp_text e) = true.
Proof.
  unfold sci_exp_text. rewrite !forallb_app. destruct (e <? 0); cbn [txt list_ascii_of_string forallb andb]; change (sci_char "e") with true; change (sci_char "-") with true; change (sci_char "+") with true; cbn [andb];
  (destruct (Z.abs e <? 100); [apply digits_sci_char, pad_digits|apply digits_sci_char, show_nat_digits; lia]).
Qed.
Lemma read_general (neg : bool) ip fp o : ip <> [] -> forallb is_digit ip = true -> forallb is_digit fp = true ->
  read_float ((if neg then ["-"%char] else []) ++ ip ++ (if nonempty fp then "."%char :: fp else []) ++ exp_part o)
  = Some (Fin (inject_Z ((if neg then -1 else 1) * number_of (ip ++ fp)) * Qpower (10 # 1) (exp_value o - Z.of_nat (length fp)))).
Proof.
  intros N D F. set (pt := if nonempty fp then "."%char :: fp else []).
  assert (PC : forallb sci_char pt = true) by (unfold pt; destruct fp; [reflexivity|]; cbn [nonempty]; change (forallb sci_char ("."%char :: ?x)) with (forallb sci_char x); apply digits_sci_char; exact F).
  assert (EC : forallb sci_char (exp_part o) = true) by (destruct o; [apply sci_exp_chars|reflexivity]).
  unfold read_float. rewrite strip_sci.
  2:{ rewrite !forallb_app, PC, EC, (digits_sci_char _ D). destruct neg; reflexivity. }
  destruct ip as [|c ip]; [congruence|]. assert (C : is_digit c = true) by (cbn in D; now apply andb_true_iff in D).
  assert (R : read_sign ((if neg then ["-"%char] else []) ++ (c :: ip) ++ pt ++ exp_part o) = (if neg then -1 else 1, (c :: ip) ++ pt ++ exp_part o)).
  { destruct neg; [reflexivity|]. exact (read_sign_digits c _ C). }
  rewrite R. cbn [app]. rewrite (digits_not_word c _ C).
  assert (NE : forall x s, exp_part o = x :: s -> is_digit x = false).
  { intros x s E. destruct o as [e|]; [|discriminate E]. cbn [exp_part] in E. unfold sci_exp_text in E. cbn [txt list_ascii_of_string app] in E. injection E as <- <-. reflexivity. }
  assert (T : take_digits (c :: ip ++ pt ++ exp_part o) = (c :: ip, pt ++ exp_part o)).
  { rewrite app_comm_cons. apply take_digits_app; [exact D|]. intros x s E. unfold pt in E. destruct fp; cbn [nonempty app] in E; [exact (NE x s E)|]. injection E as <- <-. reflexivity. }
  rewrite T. 
  assert (P : read_point (pt ++ exp_part o) = (fp, exp_part o)).
  { unfold pt. destruct fp as [|f fp]; cbn [nonempty app].
    - unfold read_point. destruct o as [e|]; [|reflexivity]. cbn [exp_part]. unfold sci_exp_text. cbn [txt list_ascii_of_string app]. reflexivity.
    - unfold read_point. rewrite Ascii.eqb_refl. rewrite app_comm_cons. apply take_digits_app; [exact F|exact NE]. }
  rewrite P. cbn [app nonempty].
  assert (RE : read_exponent (exp_part o) = Some (exp_value o)) by (destruct o as [e|]; [apply read_exponent_text|reflexivity]).
  rewrite RE. reflexivity.
Qed.
Lemma zeros_digits k : forallb is_digit (zeros k) = true.
Proof. induction k; [reflexivity|exact IHk]. Qed.
Lemma zeros_number k : number_of (zeros k) = 0.
Proof. induction k as [|k IH]; [reflexivity|]. change (zeros (S k)) with (["0"%char] ++ zeros k). rewrite number_of_concat, IH. reflexivity. Qed.
Lemma forallb_firstn {A} (f : A -> bool) n : forall l, forallb f l = true -> forallb f (firstn n l) = true.
Proof. induction n as [|n IH]; intros [|a l] H; try reflexivity. cbn in *. apply andb_true_iff in H as [H1 H2]. rewrite H1. exact (IH l H2). Qed.
Lemma forallb_skipn {A} (f : A -> bool) n : forall l, forallb f l = true -> forallb f (skipn n l) = true.
Proof. induction n as [|n IH]; intros [|a l] H; try reflexivity; try exact H. cbn in *. apply andb_true_iff in H as [H1 H2]. exact (IH l H2). Qed.
Lemma pow_split a b : (Qpower (10 # 1) (a + b) == Qpower (10 # 1) a * Qpower (10 # 1) b)%Q.
Proof. apply Qpower_plus. discriminate. Qed.
Lemma read_place (neg : bool) d p : d <> [] -> forallb is_digit d = true ->
  exists v, read_float ((if neg then ["-"%char] else []) ++ place_point d p) = Some (Fin v) /\
    (v == inject_Z ((if neg then -1 else 1) * number_of d) * Qpower (10 # 1) (p - Z.of_nat (length d)))%Q.
Proof.
  intros N D. set (sg := if neg then -1 else 1). unfold place_point. destruct ((-4 <? p) && (p <=? 16))%bool.
  - destruct (Z.leb_spec p 0) as [L|L]; [|destruct (Z.ltb_spec p (Z.of_nat (length d))) as [L2|L2]].
    + pose proof (read_general neg ["0"%char] (zeros (Z.to_nat (- p)) ++ d) None ltac:(discriminate) eq_refl) as R.
      rewrite forallb_app, zeros_digits, D in R. specialize (R eq_refl).
      assert (NE : nonempty (zeros (Z.to_nat (- p)) ++ d) = true) by (destruct (zeros (Z.to_nat (- p))); [destruct d; [congruence|reflexivity]|reflexivity]).
      rewrite NE in R. cbn [exp_part exp_value] in R. rewrite app_nil_r in R. eexists. split; [exact R|].
      fold sg. rewrite app_length. unfold zeros at 2. rewrite repeat_length. 
      change (["0"%char] ++ zeros (Z.to_nat (- p)) ++ d) with (zeros (S (Z.to_nat (- p))) ++ d). rewrite number_of_concat, zeros_number. 
      replace (0 - Z.of_nat (Z.to_nat (- p) + length d)) with (p - Z.of_nat (length d)) by lia. rewrite Z.mul_0_l. reflexivity.
    + pose proof (read_general neg (firstn (Z.to_nat p) d) (skipn (Z.to_nat p) d) None) as R.
      assert (LF : length (firstn (Z.to_nat p) d) = Z.to_nat p) by (apply firstn_length_le; lia).
      assert (LS : length (skipn (Z.to_nat p) d) = (length d - Z.to_nat p)%nat) by apply skipn_length.
      assert (NE : nonempty (skipn (Z.to_nat p) d) = true) by (destruct (skipn (Z.to_nat p) d); [cbn [length] in LS; lia|reflexivity]).
      rewrite NE in R. cbn [exp_part exp_value] in R. rewrite app_nil_r in R. rewrite firstn_skipn in R. rewrite LS in R. eexists. split.
      * apply R; [intros E; rewrite E in LF; cbn [length] in LF; lia|apply forallb_firstn; exact D|apply forallb_skipn; exact D].
      * fold sg. replace (0 - Z.of_nat (length d - Z.to_nat p)) with (p - Z.of_nat (length d)) by lia. reflexivity.
    + pose proof (read_general neg (d ++ zeros (Z.to_nat p - length d)) (txt "0") None) as R. cbn [exp_part exp_value nonempty txt list_ascii_of_string] in R. rewrite app_nil_r in R.
      eexists. split.
      * rewrite <- app_assoc in R. apply R; [destruct d; [congruence|discriminate]|rewrite forallb_app, D, zeros_digits; reflexivity|reflexivity].
      * fold sg. rewrite !number_of_concat. unfold zeros. rewrite repeat_length. fold (zeros (Z.to_nat p - length d)). rewrite zeros_number. change (number_of ["0"%char]) with 0. cbn [length].
        replace (sg * ((number_of d * 10 ^ Z.of_nat (Z.to_nat p - length d) + 0) * 10 ^ Z.of_nat 1 + 0)) with (sg * number_of d * 10 ^ (p - Z.of_nat (length d) + 1)).
        -- rewrite inject_Z_mult. rewrite <- pow_pos_10 by lia. rewrite <- Qmult_assoc, <- pow_split. replace (p - Z.of_nat (length d) + 1 + (0 - Z.of_nat 1)) with (p - Z.of_nat (length d)) by lia. reflexivity.
        -- rewrite Z.pow_add_r by lia. replace (Z.of_nat (Z.to_nat p - length d)) with (p - Z.of_nat (length d)) by lia. change (Z.of_nat 1) with 1. ring.
  - destruct d as [|c [|c2 r]]; [congruence| |].
    + pose proof (read_general neg [c] [] (Some (p - 1)) ltac:(discriminate) D eq_refl) as R. cbn [nonempty app exp_part exp_value] in R. eexists. split; [exact R|]. fold sg. cbn [app length]. 
      replace (p - 1 - Z.of_nat 0) with (p - Z.of_nat 1) by lia. reflexivity.
    + assert (D1 : forallb is_digit [c] = true /\ forallb is_digit (c2 :: r) = true) by (cbn [forallb] in *; apply andb_true_iff in D as [-> D]; split; [reflexivity|exact D]).
      pose proof (read_general neg [c] (c2 :: r) (Some (p - 1)) ltac:(discriminate) (proj1 D1) (proj2 D1)) as R. cbn [nonempty app exp_part exp_value] in R. eexists. split; [exact R|]. fold sg. cbn [app].
      replace (p - 1 - Z.of_nat (length (c2 :: r))) with (p - Z.of_nat (length (c :: c2 :: r))) by (cbn [length]; lia). reflexivity.
Qed.
(** ** What is written is read back *)
Theorem read_show_float q : decimal q -> exists v, read_float (show_float q) = Some (Fin v) /\ (v == q)%Q.
Proof.
  intros D. destruct (decimals_ok q D) as (k & DK & DV). unfold show_float. cbv zeta. pose proof (Qred_correct q) as RC. destruct (Z.eqb_spec (Qnum (Qred q)) 0) as [Z0|Z0].
  - exists (0 # 10)%Q. split; [reflexivity|]. rewrite <- RC. unfold Qeq. rewrite Z0. reflexivity.
  - rewrite DK. remember (Qred q) as r. destruct r as [n d]. cbn [Qnum Qden] in *. destruct DV as [c DV].
    set (m := Z.abs n * (10 ^ Z.of_nat k / Z.pos d)). assert (TP : 0 < 10 ^ Z.of_nat k) by (apply Z.pow_pos_nonneg; lia).
    assert (cP : 0 < c) by (destruct (Z_lt_le_dec 0 c) as [H|H]; [exact H|pose proof (Z.mul_nonpos_nonneg c (Z.pos d) H ltac:(lia)); lia]).
    assert (MC : m = Z.abs n * c) by (unfold m; rewrite DV, Z.div_mul by lia; reflexivity).
    assert (MP : 0 < m) by (rewrite MC; apply Z.mul_pos_pos; lia).
    destruct (strip_zeros (Z.to_nat (Z.log2 m)) m) as [a z] eqn:SZ. destruct (strip_zeros_ok _ m a z MP SZ) as [E1 E2].
    set (b := n <? 0). 
    destruct (read_place b (show_nat a) (Z.of_nat (length (show_nat a)) + Z.of_nat z - Z.of_nat k) (show_nat_nonempty a ltac:(lia)) (show_nat_digits a ltac:(lia))) as (v & R & V).
    exists v. split; [destruct b; exact R|]. rewrite V, <- RC. rewrite number_of_show_nat by lia.
    replace (Z.of_nat (length (show_nat a)) + Z.of_nat z - Z.of_nat k - Z.of_nat (length (show_nat a))) with (Z.of_nat z + - Z.of_nat k) by lia.
    rewrite pow_split, pow_pos_10 by lia.
    assert (KN : ~ (inject_Z (10 ^ Z.of_nat k) == 0)%Q) by (intros H; unfold Qeq, inject_Z in H; cbn [Qnum Qden] in H; lia).
    apply (Qmult_inj_r _ _ (inject_Z (10 ^ Z.of_nat k)) KN).
    rewrite <- !Qmult_assoc, pow_neg_10, Qmult_1_r by lia. rewrite <- inject_Z_mult.
    assert (X : (if b then -1 else 1) * a * 10 ^ Z.of_nat z * Z.pos d = n * 10 ^ Z.of_nat k).
    { rewrite <- Z.mul_assoc, <- Z.mul_assoc. rewrite (Z.mul_assoc a), <- E1, MC, DV. unfold b. destruct (Z.ltb_spec n 0); [rewrite Z.abs_neq by lia|rewrite Z.abs_eq by lia]; ring. }
    unfold Qeq, Qmult, inject_Z. cbn [Qnum Qden]. rewrite Pos.mul_1_r, Z.mul_1_r. exact X.
Qed.
Lemma read_float_decimal s q : read_float s = Some (Fin q) -> decimal q.
Proof.
  unfold read_float. destruct (read_sign (strip s)) as [sg r]. destruct (existsb _ _); [discriminate|]. destruct (take_digits r) as [ip r1]. destruct (read_point r1) as [fp r2].
  destruct (nonempty _); [|discriminate]. destruct (read_exponent r2) as [e|]; [|discriminate]. intros E. injection E as <-. eexists. eexists. reflexivity.
Qed.
Lemma show_float_comp p q : (p == q)%Q -> show_float p = show_float q.
Proof. intros E. unfold show_float. rewrite (Qred_complete p q E). reflexivity. Qed.
Lemma show_float_inj p q : decimal p -> decimal q -> show_float p = show_float q -> (p == q)%Q.
Proof.
  intros P Q0 E. destruct (read_show_float p P) as (v & R1 & V1). destruct (read_show_float q Q0) as (w & R2 & V2). rewrite E, R2 in R1. injection R1 as ->. rewrite <- V1, <- V2. reflexivity.
Qed.
