From Coq Require Import Qabs Qpower.
From Verif Require Import PyBase PyText TextFacts PyNum IsoModel IsoProofs PyFloat PyFloatFacts PySci.
Local Open Scope Z_scope.

Lemma dec_len_from_spec f : forall n, 0 < n < 2 ^ Z.of_nat f ->
  1 <= dec_len_from f n /\ 10 ^ (dec_len_from f n - 1) <= n < 10 ^ dec_len_from f n.
Proof.
  induction f as [|f IH]; intros n H; [change (2 ^ Z.of_nat 0) with 1 in H; lia|].
  cbn [dec_len_from]. destruct (Z.ltb_spec n 10) as [L|L]; [change (10 ^ (1 - 1)) with 1; change (10 ^ 1) with 10; lia|].
  rewrite Nat2Z.inj_succ, Z.pow_succ_r in H by lia.
  assert (0 < n / 10 < 2 ^ Z.of_nat f) as B by (split; [apply Z.div_str_pos; lia|apply Z.div_lt_upper_bound; lia]).
  destruct (IH _ B) as (A & C & D). set (k := dec_len_from f (n / 10)) in *. split; [lia|].
  replace (1 + k - 1) with (Z.succ (k - 1)) by lia. rewrite Z.pow_succ_r by lia.
  replace (1 + k) with (Z.succ k) by lia. rewrite Z.pow_succ_r by lia.
  pose proof (Z.div_mod n 10 ltac:(lia)). pose proof (Z.mod_pos_bound n 10 ltac:(lia)). lia.
Qed.
Lemma dec_len_spec n : 0 < n -> 10 ^ (dec_len n - 1) <= n < 10 ^ dec_len n /\ 1 <= dec_len n.
Proof.
  intros H. unfold dec_len. pose proof (dec_len_from_spec (S (Z.to_nat (Z.log2 n))) n) as S0.
  pose proof (show_nat_fuel n ltac:(lia)). specialize (S0 ltac:(lia)). lia.
Qed.

Definition ten (e : Z) : Q := Qpower (10 # 1) e.
Lemma ten_pos e : (0 < ten e)%Q.
Proof. apply Qpower_0_lt. reflexivity. Qed.
Lemma ten_plus a b : (ten (a + b) == ten a * ten b)%Q.
Proof. apply Qpower_plus. discriminate. Qed.
Lemma ten_Z n : 0 <= n -> (ten n == inject_Z (10 ^ n))%Q.
Proof.
  intros H. unfold ten. change (10 # 1)%Q with (inject_Z 10). symmetry. apply Zpower_Qpower. exact H.
Qed.
Lemma ten_0 : ten 0 = 1%Q. Proof. reflexivity. Qed.
Lemma ten_1 : (ten 1 == 10)%Q. Proof. reflexivity. Qed.
Lemma ten_opp a : (ten (- a) * ten a == 1)%Q.
Proof. rewrite <- ten_plus. replace (- a + a) with 0 by lia. reflexivity. Qed.
Lemma ten_le a b : a <= b -> (ten a <= ten b)%Q.
Proof.
  intros H. replace b with (a + (b - a)) by lia. rewrite ten_plus. pose proof (ten_pos a).
  assert (1 <= ten (b - a))%Q.
  { rewrite ten_Z by lia. change 1%Q with (inject_Z 1). rewrite <- Zle_Qle. pose proof (Z.pow_pos_nonneg 10 (b - a)). lia. }
  nra.
Qed.
Lemma ten_lt a b : a < b -> (ten a < ten b)%Q.
Proof.
  intros H. apply Qlt_le_trans with (ten (a + 1)); [|apply ten_le; lia]. rewrite ten_plus, ten_1. pose proof (ten_pos a). lra.
Qed.
Lemma ten_inj a b : (ten a < ten (b + 1))%Q -> a <= b.
Proof. intros H. destruct (Z.le_gt_cases a b) as [L|L]; [exact L|]. pose proof (ten_le (b + 1) a ltac:(lia)). lra. Qed.

Lemma sci_exp_spec a : (0 < a)%Q -> (ten (sci_exp a) <= a /\ a < ten (sci_exp a + 1))%Q.
Proof.
  intros P. unfold sci_exp. set (k := dec_len (Qnum a)). set (l := dec_len (Zpos (Qden a))).
  assert (N : 0 < Qnum a) by (unfold Qlt in P; cbn in P; lia).
  destruct (dec_len_spec (Qnum a) N) as [[A B] K1]. destruct (dec_len_spec (Zpos (Qden a)) ltac:(lia)) as [[C D] L1]. fold k in A, B, K1. fold l in C, D, L1.
  assert (E : (a * inject_Z (Zpos (Qden a)) == inject_Z (Qnum a))%Q) by (unfold Qeq, Qmult, inject_Z; cbn; destruct a; cbn; lia).
  set (dq := inject_Z (Zpos (Qden a))) in *. set (nq := inject_Z (Qnum a)) in *.
  assert (A' : (ten (k - 1) <= nq)%Q) by (rewrite ten_Z by lia; unfold nq; rewrite <- Zle_Qle; exact A).
  assert (B' : (nq < ten k)%Q) by (rewrite ten_Z by lia; unfold nq; rewrite <- Zlt_Qlt; exact B).
  assert (C' : (ten (l - 1) <= dq)%Q) by (rewrite ten_Z by lia; unfold dq; rewrite <- Zle_Qle; exact C).
  assert (D' : (dq < ten l)%Q) by (rewrite ten_Z by lia; unfold dq; rewrite <- Zlt_Qlt; exact D).
  assert (U : (a < ten (k - l + 1))%Q).
  { apply Qnot_le_lt. intros G. assert (ten (k - l + 1) * ten (l - 1) <= a * dq)%Q.
    { pose proof (ten_pos (k - l + 1)). pose proof (ten_pos (l - 1)). nra. }
    rewrite <- ten_plus in H. replace (k - l + 1 + (l - 1)) with k in H by lia. lra. }
  assert (V : (ten (k - l - 1) < a)%Q).
  { apply Qnot_le_lt. intros G. assert (a * dq < ten (k - l - 1) * ten l)%Q.
    { pose proof (ten_pos (k - l - 1)). pose proof (ten_pos (l - 1)). apply Qle_lt_trans with (ten (k - l - 1) * dq)%Q; [nra|].
      rewrite !(Qmult_comm (ten (k - l - 1))). apply Qmult_lt_compat_r; assumption. }
    rewrite <- ten_plus in H. replace (k - l - 1 + l) with (k - 1) in H by lia. lra. }
  change (Qpower (10 # 1) (k - l)) with (ten (k - l)).
  destruct (Qle_bool (ten (k - l)) a) eqn:Q0.
  - apply Qle_bool_iff in Q0. split; [exact Q0|exact U].
  - assert (a < ten (k - l))%Q by (apply Qnot_le_lt; intros G; apply Qle_bool_iff in G; congruence).
    split; [apply Qlt_le_weak; exact V|]. replace (k - l - 1 + 1) with (k - l) by lia. exact H.
Qed.
Lemma sci_exp_unique a e : (ten e <= a)%Q -> (a < ten (e + 1))%Q -> sci_exp a = e.
Proof.
  intros A B. assert (P : (0 < a)%Q) by (pose proof (ten_pos e); lra).
  destruct (sci_exp_spec a P) as [C D]. apply Z.le_antisymm; apply ten_inj; lra.
Qed.

(** The mantissa. *)
Lemma mant_bounds d a : (0 < a)%Q ->
  let m := round_half_even (a * ten (Z.of_nat d - sci_exp a)) in 10 ^ Z.of_nat d <= m <= 10 ^ (Z.of_nat d + 1).
Proof.
  intros P m. destruct (sci_exp_spec a P) as [C D]. set (e := sci_exp a) in *.
  pose proof (ten_pos (Z.of_nat d - e)).
  assert (L : (ten (Z.of_nat d) <= a * ten (Z.of_nat d - e))%Q).
  { replace (Z.of_nat d) with (e + (Z.of_nat d - e)) at 1 by lia. rewrite ten_plus. apply Qmult_le_compat_r; [exact C|apply Qlt_le_weak; assumption]. }
  assert (U : (a * ten (Z.of_nat d - e) <= ten (Z.of_nat d + 1))%Q).
  { replace (Z.of_nat d + 1) with (e + 1 + (Z.of_nat d - e)) by lia. rewrite ten_plus. apply Qmult_le_compat_r; apply Qlt_le_weak; assumption. }
  rewrite (ten_Z (Z.of_nat d)) in L by lia. rewrite (ten_Z (Z.of_nat d + 1)) in U by lia. apply round_half_even_mono in L. apply round_half_even_mono in U.
  rewrite round_half_even_Z in L. rewrite round_half_even_Z in U. fold m in L, U. lia.
Qed.
(** Digits and exponent: zero, or [d + 1] digits. *)
Lemma sci_shape d q m e : sci d q = (m, e) ->
  ((q == 0)%Q /\ m = 0 /\ e = 0) \/
  (~ (q == 0)%Q /\ 10 ^ Z.of_nat d <= Z.abs m < 10 ^ (Z.of_nat d + 1) /\ ((q < 0)%Q <-> m < 0)).
Proof.
  unfold sci. intros E. pose proof (Z.pow_pos_nonneg 10 (Z.of_nat d) ltac:(lia) ltac:(lia)) as P0.
  assert (P1 : 10 ^ (Z.of_nat d + 1) = 10 * 10 ^ Z.of_nat d) by (rewrite Z.add_1_r, Z.pow_succ_r by lia; reflexivity).
  destruct (Qcompare_spec q 0) as [Z0|L|G].
  - left. injection E as <- <-. repeat split. exact Z0.
  - right. assert (P : (0 < Qabs q)%Q) by (rewrite Qabs_neg; lra). pose proof (mant_bounds d (Qabs q) P) as B. cbn zeta in B.
    unfold ten in B. split; [lra|]. cbv beta iota zeta in E. set (T10 := 10 ^ (Z.of_nat d + 1)) in *. set (T0 := 10 ^ Z.of_nat d) in *. destruct (Z.eqb_spec (round_half_even (Qabs q * Qpower (10 # 1) (Z.of_nat d - sci_exp (Qabs q)))) T10) as [T|T];
      apply pair_equal_spec in E; destruct E as [E1 E2]; (split; [lia|split; intros _; [lia|exact L]]).
  - right. assert (P : (0 < Qabs q)%Q) by (rewrite Qabs_pos; lra). pose proof (mant_bounds d (Qabs q) P) as B. cbn zeta in B.
    unfold ten in B. split; [lra|]. cbv beta iota zeta in E. set (T10 := 10 ^ (Z.of_nat d + 1)) in *. set (T0 := 10 ^ Z.of_nat d) in *. destruct (Z.eqb_spec (round_half_even (Qabs q * Qpower (10 # 1) (Z.of_nat d - sci_exp (Qabs q)))) T10) as [T|T];
      apply pair_equal_spec in E; destruct E as [E1 E2]; (split; [lia|split; intros F; [exfalso; lra|exfalso; lia]]).
Qed.
(** The text says [q] up to half a unit of its last digit. *)
Lemma sci_value_near d q : (Qabs (sci_value d q - q) <= (1 # 2) * ten (- Z.of_nat d) * Qabs q)%Q.
Proof.
  unfold sci_value, sci. destruct (Qcompare_spec q 0) as [Z0|L|G].
  - rewrite Z0. change (inject_Z 0 * Qpower (10 # 1) (0 - Z.of_nat d) - 0)%Q with (0 * ten (0 - Z.of_nat d) - 0)%Q.
    setoid_replace (0 * ten (0 - Z.of_nat d) - 0)%Q with 0%Q by ring. change (Qabs 0) with 0%Q. lra.
  - assert (P : (0 < Qabs q)%Q) by (rewrite Qabs_neg; lra). set (a := Qabs q) in *. assert (Q0 : (q == - a)%Q) by (unfold a; rewrite Qabs_neg; lra).
    set (e := sci_exp a). change (Qpower (10 # 1) (Z.of_nat d - e)) with (ten (Z.of_nat d - e)).
    set (m := round_half_even (a * ten (Z.of_nat d - e))).
    assert (M : (Qabs (inject_Z m * ten (e - Z.of_nat d) - a) <= (1 # 2) * ten (- Z.of_nat d) * a)%Q).
    { destruct (round_half_even_bound (a * ten (Z.of_nat d - e))) as [B1 B2]. fold m in B1, B2.
      destruct (sci_exp_spec a P) as [C _]. fold e in C. pose proof (ten_pos (e - Z.of_nat d)) as T.
      assert (I : (ten (Z.of_nat d - e) * ten (e - Z.of_nat d) == 1)%Q) by (rewrite <- ten_plus; replace (Z.of_nat d - e + (e - Z.of_nat d)) with 0 by lia; reflexivity).
      assert (I2 : (ten (e - Z.of_nat d) == ten (- Z.of_nat d) * ten e)%Q) by (rewrite <- ten_plus; replace (- Z.of_nat d + e) with (e - Z.of_nat d) by lia; reflexivity).
      assert (I3 : (a * ten (Z.of_nat d - e) * ten (e - Z.of_nat d) == a)%Q) by (rewrite <- Qmult_assoc, I; ring).
      pose proof (ten_pos (- Z.of_nat d)) as T2.
      assert (J : ((1 # 2) * ten (e - Z.of_nat d) <= (1 # 2) * ten (- Z.of_nat d) * a)%Q) by (rewrite I2; nra).
      apply Qabs_case; intros _; nra. }
    destruct (Z.eqb_spec m (10 ^ (Z.of_nat d + 1))) as [E|E].
    + rewrite E in M.
      assert (X : (inject_Z (10 ^ (Z.of_nat d + 1)) * ten (e - Z.of_nat d) == inject_Z (10 ^ Z.of_nat d) * ten (e + 1 - Z.of_nat d))%Q).
      { rewrite <- !ten_Z by lia. rewrite <- !ten_plus. replace (Z.of_nat d + 1 + (e - Z.of_nat d)) with (Z.of_nat d + (e + 1 - Z.of_nat d)) by lia. reflexivity. }
      rewrite X in M. change (Qpower (10 # 1) (e + 1 - Z.of_nat d)) with (ten (e + 1 - Z.of_nat d)).
      rewrite inject_Z_mult. change (inject_Z (-1)) with (-1 # 1)%Q. rewrite Q0 at 1.
      setoid_replace ((-1 # 1) * inject_Z (10 ^ Z.of_nat d) * ten (e + 1 - Z.of_nat d) - - a)%Q with (- (inject_Z (10 ^ Z.of_nat d) * ten (e + 1 - Z.of_nat d) - a))%Q by ring.
      rewrite Qabs_opp. exact M.
    + change (Qpower (10 # 1) (e - Z.of_nat d)) with (ten (e - Z.of_nat d)).
      rewrite inject_Z_mult. change (inject_Z (-1)) with (-1 # 1)%Q. rewrite Q0 at 1.
      setoid_replace ((-1 # 1) * inject_Z m * ten (e - Z.of_nat d) - - a)%Q with (- (inject_Z m * ten (e - Z.of_nat d) - a))%Q by ring.
      rewrite Qabs_opp. exact M.
  - assert (P : (0 < Qabs q)%Q) by (rewrite Qabs_pos; lra). set (a := Qabs q) in *. assert (Q0 : (q == a)%Q) by (unfold a; rewrite Qabs_pos; lra).
    set (e := sci_exp a). change (Qpower (10 # 1) (Z.of_nat d - e)) with (ten (Z.of_nat d - e)).
    set (m := round_half_even (a * ten (Z.of_nat d - e))).
    assert (M : (Qabs (inject_Z m * ten (e - Z.of_nat d) - a) <= (1 # 2) * ten (- Z.of_nat d) * a)%Q).
    { destruct (round_half_even_bound (a * ten (Z.of_nat d - e))) as [B1 B2]. fold m in B1, B2.
      destruct (sci_exp_spec a P) as [C _]. fold e in C. pose proof (ten_pos (e - Z.of_nat d)) as T.
      assert (I : (ten (Z.of_nat d - e) * ten (e - Z.of_nat d) == 1)%Q) by (rewrite <- ten_plus; replace (Z.of_nat d - e + (e - Z.of_nat d)) with 0 by lia; reflexivity).
      assert (I2 : (ten (e - Z.of_nat d) == ten (- Z.of_nat d) * ten e)%Q) by (rewrite <- ten_plus; replace (- Z.of_nat d + e) with (e - Z.of_nat d) by lia; reflexivity).
      assert (I3 : (a * ten (Z.of_nat d - e) * ten (e - Z.of_nat d) == a)%Q) by (rewrite <- Qmult_assoc, I; ring).
      pose proof (ten_pos (- Z.of_nat d)) as T2.
      assert (J : ((1 # 2) * ten (e - Z.of_nat d) <= (1 # 2) * ten (- Z.of_nat d) * a)%Q) by (rewrite I2; nra).
      apply Qabs_case; intros _; nra. }
    destruct (Z.eqb_spec m (10 ^ (Z.of_nat d + 1))) as [E|E].
    + rewrite E in M.
      assert (X : (inject_Z (10 ^ (Z.of_nat d + 1)) * ten (e - Z.of_nat d) == inject_Z (10 ^ Z.of_nat d) * ten (e + 1 - Z.of_nat d))%Q).
      { rewrite <- !ten_Z by lia. rewrite <- !ten_plus. replace (Z.of_nat d + 1 + (e - Z.of_nat d)) with (Z.of_nat d + (e + 1 - Z.of_nat d)) by lia. reflexivity. }
      rewrite X in M. change (Qpower (10 # 1) (e + 1 - Z.of_nat d)) with (ten (e + 1 - Z.of_nat d)).
      rewrite Z.mul_1_l. rewrite Q0 at 1. exact M.
    + change (Qpower (10 # 1) (e - Z.of_nat d)) with (ten (e - Z.of_nat d)). rewrite Z.mul_1_l. rewrite Q0 at 1. exact M.
Qed.

(** ** Reading *)
Lemma read_exponent_text e : read_exponent (sci_exp_text e) = Some e.
Proof.
  unfold sci_exp_text.
  assert (W : forall w, forallb is_digit w = true -> w <> [] -> number_of w = Z.abs e ->
     read_exponent (txt "e" ++ (if e <? 0 then txt "-" else txt "+") ++ w)%list = Some e).
  { intros w D N V. unfold read_exponent. cbn [txt list_ascii_of_string app Ascii.eqb orb].
    change (Ascii.eqb "e" "e" || Ascii.eqb "e" "E") with true. cbv iota.
    destruct (Z.ltb_spec e 0) as [L|L].
    - cbn [app read_sign]. change (Ascii.eqb "-" "-") with true. cbv iota. rewrite (take_digits_end w D). destruct w; [congruence|].
      cbn [nonempty negb andb]. rewrite V. apply f_equal. destruct e; cbn [Z.abs]; lia.
    - cbn [app read_sign]. change (Ascii.eqb "+" "-") with false. change (Ascii.eqb "+" "+") with true. cbv iota.
      rewrite (take_digits_end w D). destruct w; [congruence|]. cbn [nonempty negb andb]. rewrite V. apply f_equal. destruct e; cbn [Z.abs]; lia. }
  destruct (Z.ltb_spec (Z.abs e) 100) as [L|L].
  - apply W; [apply pad_digits|discriminate|]. apply number_of_pad. change (10 ^ Z.of_nat 2) with 100. lia.
  - apply W; [apply show_nat_digits; lia|apply show_nat_nonempty; lia|apply number_of_show_nat; lia].
Qed.
Definition sci_char (c : ascii) : bool := (num_char c || Ascii.eqb c "e" || Ascii.eqb c "+")%bool.
Lemma sci_char_not c : sci_char c = true -> is_space c = false /\ c <> ">"%char /\ c <> "!"%char /\ c <> "/"%char.
Proof.
  intros H. assert (G : implb (sci_char c) (negb (is_space c) && negb (Ascii.eqb c ">") && negb (Ascii.eqb c "!") && negb (Ascii.eqb c "/")) = true).
  { clear H. revert c. apply ascii_forall. vm_compute. reflexivity. }
  rewrite H in G. cbn [implb] in G. apply andb_prop in G as [G G4]. apply andb_prop in G as [G G3]. apply andb_prop in G as [G1 G2].
  apply negb_true_iff in G1, G2, G3, G4. repeat split; [exact G1| | |]; apply Ascii.eqb_neq; assumption.
Qed.
Lemma digits_sci_char s : forallb is_digit s = true -> forallb sci_char s = true.
Proof.
  intros H. rewrite forallb_forall in *. intros c I. specialize (H c I).
  assert (G : implb (is_digit c) (sci_char c) = true) by (clear; revert c; apply ascii_forall; vm_compute; reflexivity).
  rewrite H in G. exact G.
Qed.
Lemma exp_text_chars e : forallb sci_char (sci_exp_text e) = true.
Proof.
  unfold sci_exp_text. rewrite !forallb_app.
  assert (A : forallb sci_char (txt "e") = true) by reflexivity. assert (B : forallb sci_char (if e <? 0 then txt "-" else txt "+") = true) by (destruct (e <? 0); reflexivity).
  rewrite A, B. cbn [andb]. apply digits_sci_char. destruct (Z.abs e <? 100); [apply pad_digits|apply show_nat_digits; lia].
Qed.
Lemma sci_body_chars d m e : 0 <= Z.abs m < 10 ^ (Z.of_nat d + 1) -> forallb sci_char (sci_body d m e) = true.
Proof.
  intros B. unfold sci_body. change (forallb sci_char (?a :: ?b :: ?c)) with (sci_char a && (sci_char b && forallb sci_char c))%bool.
  assert (D0 : is_digit (digit (Z.abs m / 10 ^ Z.of_nat d)) = true).
  { pose proof (pad_digits 1 (Z.abs m / 10 ^ Z.of_nat d)) as P. cbn [pad app forallb] in P. rewrite andb_true_r in P.
    rewrite Z.mod_small in P; [exact P|]. split; [apply Z.div_pos; [lia|apply Z.pow_pos_nonneg; lia]|].
    apply Z.div_lt_upper_bound; [apply Z.pow_pos_nonneg; lia|]. rewrite Z.add_1_r, Z.pow_succ_r in B by lia. lia. }
  assert (E0 : sci_char (digit (Z.abs m / 10 ^ Z.of_nat d)) = true).
  { pose proof (digits_sci_char [digit (Z.abs m / 10 ^ Z.of_nat d)]) as G. cbn [forallb] in G. rewrite D0 in G. specialize (G eq_refl). rewrite andb_true_r in G. exact G. }
  rewrite E0. change (sci_char ".") with true. cbn [andb]. rewrite forallb_app, exp_text_chars, (digits_sci_char _ (pad_digits _ _)). reflexivity.
Qed.
Lemma sci_range d q m e : sci d q = (m, e) -> 0 <= Z.abs m < 10 ^ (Z.of_nat d + 1).
Proof.
  intros E. destruct (sci_shape d q m e E) as [(_ & -> & _)|(_ & B & _)]; [|lia].
  pose proof (Z.pow_pos_nonneg 10 (Z.of_nat d + 1)). lia.
Qed.
Lemma show_sci_chars d q : forallb sci_char (show_sci d q) = true.
Proof.
  unfold show_sci. destruct (sci d q) as [m e] eqn:E. pose proof (sci_body_chars d m e (sci_range d q m e E)).
  destruct (m <? 0); [|assumption]. change (forallb sci_char ("-"%char :: ?s)) with (forallb sci_char s). exact H.
Qed.
Lemma lstrip_sci s : forallb sci_char s = true -> lstrip s = s.
Proof.
  intros H. apply lstrip_fixed. intros c r ->. cbn [forallb] in H. apply andb_prop in H as [H _]. apply (sci_char_not c H).
Qed.
Lemma strip_sci s : forallb sci_char s = true -> strip s = s.
Proof.
  intros H. unfold strip, rstrip. rewrite (lstrip_sci s H). rewrite lstrip_sci by (rewrite forallb_rev; exact H). apply rev_involutive.
Qed.
Lemma read_show_sci d q : (0 < d)%nat -> exists v, read_float (show_sci d q) = Some (Fin v) /\ (v == sci_value d q)%Q.
Proof.
  intros D. unfold show_sci, sci_value. destruct (sci d q) as [m e] eqn:E. pose proof (sci_range d q m e E) as B.
  pose proof (sci_body_chars d m e B) as C.
  set (p := 10 ^ Z.of_nat d) in *. assert (P : 0 < p) by (apply Z.pow_pos_nonneg; lia).
  assert (B' : Z.abs m / p < 10).
  { apply Z.div_lt_upper_bound; [exact P|]. rewrite Z.add_1_r, Z.pow_succ_r in B by lia. fold p in B. lia. }
  assert (A : forall sg, (let '(ip, r1) := take_digits (sci_body d m e) in let '(fp, r2) := read_point r1 in
     if nonempty (ip ++ fp)%list then match read_exponent r2 with
       | Some x => Some (Fin (inject_Z (sg * number_of (ip ++ fp)%list) * Qpower (10 # 1) (x - Z.of_nat (length fp)))) | None => None end else None)
     = Some (Fin (inject_Z (sg * Z.abs m) * Qpower (10 # 1) (e - Z.of_nat d)))).
  { intros sg. unfold sci_body. fold p. set (c := digit (Z.abs m / p)).
    assert (CD : is_digit c = true).
    { pose proof (pad_digits 1 (Z.abs m / p)) as X. cbn [pad app forallb] in X. rewrite andb_true_r in X. rewrite Z.mod_small in X; [exact X|].
      split; [apply Z.div_pos; lia|exact B']. }
    assert (T1 : take_digits (c :: "."%char :: pad d (Z.abs m mod p) ++ sci_exp_text e) = ([c], "."%char :: pad d (Z.abs m mod p) ++ sci_exp_text e)).
    { apply (take_digits_app [c]); [cbn [forallb]; rewrite CD; reflexivity|]. intros x s X. injection X as <- <-. reflexivity. }
    rewrite T1. unfold read_point. change (Ascii.eqb "." ".") with true. cbv iota.
    rewrite (take_digits_app (pad d (Z.abs m mod p)) (sci_exp_text e) (pad_digits _ _)).
    2: { intros x s X. unfold sci_exp_text in X. cbn [txt list_ascii_of_string app] in X. injection X as <- <-. reflexivity. }
    cbn [app nonempty]. rewrite read_exponent_text, pad_length. do 4 f_equal.
    change (c :: pad d (Z.abs m mod p)) with ([c] ++ pad d (Z.abs m mod p))%list. rewrite number_of_concat, pad_length. fold p.
    rewrite number_of_pad by (fold p; apply Z.mod_pos_bound; exact P).
    assert (NC : number_of [c] = Z.abs m / p).
    { pose proof (number_of_pad 1 (Z.abs m / p)) as X. cbn [pad app] in X. rewrite Z.mod_small in X by (split; [apply Z.div_pos; lia|exact B']).
      apply X. change (10 ^ Z.of_nat 1) with 10. split; [apply Z.div_pos; lia|exact B']. }
    rewrite NC. pose proof (Z.div_mod (Z.abs m) p ltac:(lia)). lia. }
  assert (W : forall sg r, read_sign r = (sg, sci_body d m e) -> strip r = r ->
     read_float r = Some (Fin (inject_Z (sg * Z.abs m) * Qpower (10 # 1) (e - Z.of_nat d)))).
  { intros sg r R SR. unfold read_float. rewrite SR, R.
    assert (NW : existsb (text_eqb (lower (sci_body d m e))) words_nonfinite = false).
    { unfold sci_body. apply digits_not_word. pose proof (pad_digits 1 (Z.abs m / p)) as X. cbn [pad app forallb] in X. rewrite andb_true_r in X.
      rewrite Z.mod_small in X; [exact X|]. split; [apply Z.div_pos; lia|exact B']. }
    rewrite NW. apply A. }
  destruct (Z.ltb_spec m 0) as [L|L].
  - exists (inject_Z (-1 * Z.abs m) * Qpower (10 # 1) (e - Z.of_nat d))%Q. split.
    + apply W; [reflexivity|]. apply strip_sci. change (forallb sci_char ("-"%char :: ?s)) with (forallb sci_char s). exact C.
    + replace (-1 * Z.abs m) with m by lia. reflexivity.
  - exists (inject_Z (1 * Z.abs m) * Qpower (10 # 1) (e - Z.of_nat d))%Q. split.
    + apply W; [|apply strip_sci; exact C]. unfold sci_body. apply read_sign_digits.
      pose proof (pad_digits 1 (Z.abs m / p)) as X. cbn [pad app forallb] in X. rewrite andb_true_r in X.
      rewrite Z.mod_small in X; [exact X|]. split; [apply Z.div_pos; lia|exact B'].
    + replace (1 * Z.abs m) with m by lia. reflexivity.
Qed.

(** ** The text depends on the number only, and the number it says has the same text *)
Lemma sci_exp_comp a b : (0 < a)%Q -> (a == b)%Q -> sci_exp a = sci_exp b.
Proof.
  intros P E. assert (P' : (0 < b)%Q) by (rewrite <- E; exact P). destruct (sci_exp_spec b P') as [A B].
  apply sci_exp_unique; rewrite E; assumption.
Qed.
#[global] Instance sci_comp : Proper (eq ==> Qeq ==> eq) sci.
Proof.
  intros d d' <- p q E. unfold sci. assert (C : Qcompare p 0 = Qcompare q 0) by (rewrite E; reflexivity). rewrite C.
  destruct (Qcompare_spec q 0) as [Z0|L|G]; [reflexivity| |].
  - assert (P : (0 < Qabs p)%Q) by (rewrite Qabs_neg; lra). rewrite (sci_exp_comp (Qabs p) (Qabs q) P) by (rewrite E; reflexivity).
    cbn zeta. assert (RE : round_half_even (Qabs p * Qpower (10 # 1) (Z.of_nat d - sci_exp (Qabs q))) = round_half_even (Qabs q * Qpower (10 # 1) (Z.of_nat d - sci_exp (Qabs q)))) by (rewrite E; reflexivity).
    rewrite RE. reflexivity.
  - assert (P : (0 < Qabs p)%Q) by (rewrite Qabs_pos; lra). rewrite (sci_exp_comp (Qabs p) (Qabs q) P) by (rewrite E; reflexivity).
    cbn zeta. assert (RE : round_half_even (Qabs p * Qpower (10 # 1) (Z.of_nat d - sci_exp (Qabs q))) = round_half_even (Qabs q * Qpower (10 # 1) (Z.of_nat d - sci_exp (Qabs q)))) by (rewrite E; reflexivity).
    rewrite RE. reflexivity.
Qed.
#[global] Instance sci_value_comp : Proper (eq ==> Qeq ==> Qeq) sci_value.
Proof. intros d d' <- p q E. unfold sci_value. rewrite E. reflexivity. Qed.
#[global] Instance show_sci_comp : Proper (eq ==> Qeq ==> eq) show_sci.
Proof. intros d d' <- p q E. unfold show_sci. rewrite E. reflexivity. Qed.
(** Numbers of [d + 1] digits are printed as they are. *)
Lemma sci_exact d m e : 10 ^ Z.of_nat d <= Z.abs m < 10 ^ (Z.of_nat d + 1) ->
  sci d (inject_Z m * ten (e - Z.of_nat d)) = (m, e).
Proof.
  intros B. pose proof (Z.pow_pos_nonneg 10 (Z.of_nat d) ltac:(lia) ltac:(lia)) as P0.
  set (q := (inject_Z m * ten (e - Z.of_nat d))%Q). pose proof (ten_pos (e - Z.of_nat d)) as T.
  assert (Aq : (Qabs q == inject_Z (Z.abs m) * ten (e - Z.of_nat d))%Q).
  { unfold q. rewrite Qabs_Qmult. rewrite (Qabs_pos (ten _)) by lra. unfold Qabs at 1. cbn [inject_Z]. reflexivity. }
  assert (P : (0 < Qabs q)%Q).
  { rewrite Aq. assert (0 < inject_Z (Z.abs m))%Q by (change 0%Q with (inject_Z 0); rewrite <- Zlt_Qlt; lia). nra. }
  assert (X : sci_exp (Qabs q) = e).
  { apply sci_exp_unique; rewrite Aq.
    - replace e with (Z.of_nat d + (e - Z.of_nat d)) at 1 by lia. rewrite ten_plus. apply Qmult_le_compat_r; [|lra].
      rewrite ten_Z by lia. rewrite <- Zle_Qle. lia.
    - replace (e + 1) with (Z.of_nat d + 1 + (e - Z.of_nat d)) by lia. rewrite ten_plus. apply Qmult_lt_compat_r; [exact T|].
      rewrite ten_Z by lia. rewrite <- Zlt_Qlt. lia. }
  assert (R : round_half_even (Qabs q * Qpower (10 # 1) (Z.of_nat d - e)) = Z.abs m).
  { change (Qpower (10 # 1) (Z.of_nat d - e)) with (ten (Z.of_nat d - e)). rewrite Aq. rewrite <- Qmult_assoc, <- ten_plus.
    replace (e - Z.of_nat d + (Z.of_nat d - e)) with 0 by lia. rewrite ten_0, Qmult_1_r. apply round_half_even_Z. }
  unfold sci. cbn zeta. rewrite X, R. destruct (Z.eqb_spec (Z.abs m) (10 ^ (Z.of_nat d + 1))) as [Y|_]; [lia|].
  destruct (Qcompare_spec q 0) as [Z0|L|G].
  - exfalso. rewrite Z0 in P. change (Qabs 0) with 0%Q in P. lra.
  - assert (m < 0).
    { destruct (Z.lt_ge_cases m 0) as [M|M]; [exact M|]. exfalso. assert (0 <= inject_Z m)%Q by (change 0%Q with (inject_Z 0); rewrite <- Zle_Qle; lia).
      unfold q in L. nra. }
    f_equal. lia.
  - assert (0 < m).
    { destruct (Z.lt_ge_cases 0 m) as [M|M]; [exact M|]. exfalso. assert (inject_Z m <= 0)%Q by (change 0%Q with (inject_Z 0); rewrite <- Zle_Qle; lia).
      unfold q in G. nra. }
    f_equal. lia.
Qed.
Lemma sci_again d q : sci d (sci_value d q) = sci d q.
Proof.
  unfold sci_value. destruct (sci d q) as [m e] eqn:E. destruct (sci_shape d q m e E) as [(_ & -> & ->)|(_ & B & _)].
  - assert (Z0 : (inject_Z 0 * Qpower (10 # 1) (0 - Z.of_nat d) == 0)%Q) by (change (inject_Z 0) with 0%Q; ring).
    rewrite Z0. reflexivity.
  - exact (sci_exact d m e B).
Qed.
Lemma show_sci_again d q : show_sci d (sci_value d q) = show_sci d q.
Proof. unfold show_sci. rewrite sci_again. reflexivity. Qed.
Lemma sci_value_again d q : sci_value d (sci_value d q) = sci_value d q.
Proof. unfold sci_value at 1. rewrite sci_again. reflexivity. Qed.
Lemma sci_value_zero d q : (sci_value d q == 0)%Q <-> (q == 0)%Q.
Proof.
  unfold sci_value. destruct (sci d q) as [m e] eqn:E. destruct (sci_shape d q m e E) as [(Z0 & -> & ->)|(N & B & _)].
  - split; intros _; [exact Z0|]. change (inject_Z 0) with 0%Q. ring.
  - split; intros H; [exfalso|contradiction]. pose proof (ten_pos (e - Z.of_nat d)) as T. change (Qpower (10 # 1) (e - Z.of_nat d)) with (ten (e - Z.of_nat d)) in H.
    apply Qmult_integral in H as [H|H]; [|lra]. assert (M0 : m = 0) by (apply inject_Z_injective; exact H).
    pose proof (Z.pow_pos_nonneg 10 (Z.of_nat d) ltac:(lia) ltac:(lia)). subst m. cbn [Z.abs] in B. lia.
Qed.
