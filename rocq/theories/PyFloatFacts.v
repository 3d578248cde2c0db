(** Facts about the texts of numbers. *)
From Coq Require Import Qpower.
From Verif Require Import PyBase PyText TextFacts PyNum IsoModel IsoProofs PyFloat.
Local Open Scope Z_scope.

Lemma show_digits_spec f : forall n, 0 <= n < 2 ^ Z.of_nat f ->
  number_of (show_digits f n) = n /\ forallb is_digit (show_digits f n) = true
  /\ (f <> O -> show_digits f n <> []).
Proof.
  induction f as [|f IH]; intros n H.
  - cbn in H. assert (n = 0) by lia. subst. repeat split; congruence.
  - cbn [show_digits]. destruct (Z.ltb_spec n 10) as [L|L].
    + split; [|split].
      * unfold number_of. cbn [fold_left]. rewrite digit_value_digit; lia.
      * cbn. now rewrite is_digit_digit by lia.
      * discriminate.
    + rewrite Nat2Z.inj_succ, Z.pow_succ_r in H by lia.
      assert (B : 0 <= n / 10 < 2 ^ Z.of_nat f).
      { split; [apply Z.div_pos; lia|]. apply Z.div_lt_upper_bound; lia. }
      destruct (IH _ B) as (I1 & I2 & _).
      pose proof (Z.mod_pos_bound n 10 ltac:(lia)) as M.
      split; [|split].
      * rewrite number_of_app, I1, digit_value_digit by lia. pose proof (Z.div_mod n 10). lia.
      * rewrite forallb_app, I2. cbn. now rewrite is_digit_digit by lia.
      * intros _ E. now apply app_eq_nil in E.
Qed.
Lemma show_nat_fuel n : 0 <= n -> 0 <= n < 2 ^ Z.of_nat (S (Z.to_nat (Z.log2 n))).
Proof.
  intros H. split; [assumption|]. rewrite Nat2Z.inj_succ, Z2Nat.id by apply Z.log2_nonneg.
  destruct (Z.eq_dec n 0) as [->|N]; [reflexivity|]. apply Z.log2_spec. lia.
Qed.
Lemma number_of_show_nat n : 0 <= n -> number_of (show_nat n) = n.
Proof. intros H. apply show_digits_spec, show_nat_fuel, H. Qed.
Lemma show_nat_digits n : 0 <= n -> forallb is_digit (show_nat n) = true.
Proof. intros H. apply show_digits_spec, show_nat_fuel, H. Qed.
Lemma show_nat_nonempty n : 0 <= n -> show_nat n <> [].
Proof. intros H. apply (proj2 (proj2 (show_digits_spec _ n (show_nat_fuel n H)))). discriminate. Qed.

Lemma number_of_acc s : forall a, fold_left (fun acc c => 10 * acc + digit_value c) s a
  = a * 10 ^ Z.of_nat (length s) + number_of s.
Proof.
  unfold number_of. induction s as [|c s IH]; intros a.
  - cbn. lia.
  - cbn [fold_left length]. rewrite IH. rewrite (IH (10 * 0 + digit_value c)).
    rewrite Nat2Z.inj_succ, Z.pow_succ_r by lia. lia.
Qed.
Lemma number_of_concat a b : number_of (a ++ b) = number_of a * 10 ^ Z.of_nat (length b) + number_of b.
Proof. unfold number_of at 1. rewrite fold_left_app. fold (number_of a). apply number_of_acc. Qed.

(** *** reading a plain number *)
Lemma digit_not c : is_digit c = true -> is_space c = false /\ c <> "-"%char /\ c <> "+"%char /\ c <> "."%char
  /\ c <> ":"%char /\ c <> "e"%char /\ c <> "E"%char /\ c <> "="%char /\ c <> ">"%char /\ c <> "i"%char /\ c <> "n"%char
  /\ c <> "I"%char /\ c <> "N"%char.
Proof.
  intros H.
  assert (G : implb (is_digit c) (negb (is_space c) && negb (Ascii.eqb c "-") && negb (Ascii.eqb c "+")
     && negb (Ascii.eqb c ".") && negb (Ascii.eqb c ":") && negb (Ascii.eqb c "e") && negb (Ascii.eqb c "E")
     && negb (Ascii.eqb c "=") && negb (Ascii.eqb c ">") && negb (Ascii.eqb c "i") && negb (Ascii.eqb c "n")
     && negb (Ascii.eqb c "I") && negb (Ascii.eqb c "N")) = true).
  { clear H. revert c. apply ascii_forall. vm_compute. reflexivity. }
  rewrite H in G. cbn [implb] in G. rewrite !andb_true_iff, !negb_true_iff in G.
  repeat match goal with
  | H : _ /\ _ |- _ => destruct H
  | H : Ascii.eqb _ _ = false |- _ => apply Ascii.eqb_neq in H
  end. repeat split; assumption.
Qed.

(** A character of a written decimal number. *)
Definition num_char (c : ascii) : bool := is_digit c || Ascii.eqb c "." || Ascii.eqb c "-".
Lemma num_char_not c : num_char c = true -> is_space c = false /\ c <> ":"%char /\ c <> "="%char /\ c <> ">"%char.
Proof.
  unfold num_char. rewrite !orb_true_iff. intros [[H|H]|H].
  - apply digit_not in H. tauto.
  - apply Ascii.eqb_eq in H. subst. repeat split; discriminate || reflexivity.
  - apply Ascii.eqb_eq in H. subst. repeat split; discriminate || reflexivity.
Qed.
Lemma lstrip_no_space s : forallb num_char s = true -> lstrip s = s.
Proof.
  intros H. apply lstrip_fixed. intros c r ->. cbn in H. apply andb_true_iff in H. destruct H as [H _].
  now apply num_char_not in H.
Qed.
Lemma strip_no_space s : forallb num_char s = true -> strip s = s.
Proof.
  intros H. unfold strip, rstrip. rewrite (lstrip_no_space s H).
  rewrite lstrip_no_space by now rewrite forallb_rev. apply rev_involutive.
Qed.
Lemma digits_num_char s : forallb is_digit s = true -> forallb num_char s = true.
Proof. rewrite !forallb_forall. intros H c I. unfold num_char. now rewrite (H c I). Qed.
Lemma digits_no_char c s : is_digit c = false -> forallb is_digit s = true -> ~ In c s.
Proof. intros D H I. rewrite forallb_forall in H. rewrite (H c I) in D. discriminate. Qed.

Lemma take_digits_end w : forallb is_digit w = true -> take_digits w = (w, []).
Proof.
  intros H. pose proof (take_digits_app w [] H ltac:(discriminate)) as E. now rewrite app_nil_r in E.
Qed.
Lemma read_sign_digits c r : is_digit c = true -> read_sign (c :: r) = (1, c :: r).
Proof.
  intros H. apply digit_not in H. unfold read_sign.
  destruct (Ascii.eqb_spec c "-"); [tauto|]. destruct (Ascii.eqb_spec c "+"); [tauto|]. reflexivity.
Qed.
Lemma digit_lower c : is_digit c = true -> to_lower c = c.
Proof.
  intros H. assert (G : implb (is_digit c) (Ascii.eqb (to_lower c) c) = true).
  { clear H. revert c. apply ascii_forall. vm_compute. reflexivity. }
  rewrite H in G. now apply Ascii.eqb_eq in G.
Qed.
Lemma digits_not_word c r : is_digit c = true -> existsb (text_eqb (lower (c :: r))) words_nonfinite = false.
Proof.
  intros H. cbn [lower map]. rewrite (digit_lower c H). apply digit_not in H.
  unfold words_nonfinite. cbn [existsb].
  repeat match goal with |- context [text_eqb ?a ?b] =>
    let E := fresh "E" in
    destruct (text_eqb a b) eqn:E; [apply text_eqb_eq in E; cbn in E; injection E; intros; subst; exfalso; tauto|] end.
  reflexivity.
Qed.

(** The body of a number: digits, or digits, a point and digits. *)
Lemma read_body sg ip fp e : ip <> [] -> forallb is_digit ip = true -> forallb is_digit fp = true ->
  (e = (if nonempty fp then "."%char :: fp else [])) ->
  (let '(w, r1) := take_digits (ip ++ e) in
   let '(f, r2) := read_point r1 in
   if nonempty (w ++ f) then
     match read_exponent r2 with
     | Some x => Some (Fin (inject_Z (sg * number_of (w ++ f)) * Qpower (10 # 1) (x - Z.of_nat (length f))))
     | None => None
     end
   else None)
  = Some (Fin (inject_Z (sg * number_of (ip ++ fp)) * Qpower (10 # 1) (0 - Z.of_nat (length fp)))).
Proof.
  intros N D F ->.
  assert (T : take_digits (ip ++ (if nonempty fp then "."%char :: fp else []))
              = (ip, if nonempty fp then "."%char :: fp else [])).
  { apply take_digits_app; [assumption|]. intros c s E. destruct fp; cbn in E; [discriminate|]. injection E as <- <-. reflexivity. }
  rewrite T. destruct fp as [|c fp].
  - cbn [nonempty read_point]. destruct ip; [congruence|]. reflexivity.
  - cbn [nonempty]. unfold read_point. rewrite Ascii.eqb_refl. rewrite (take_digits_end _ F).
    destruct ip; [congruence|]. reflexivity.
Qed.

Lemma read_float_plain ip fp : ip <> [] -> forallb is_digit ip = true -> forallb is_digit fp = true ->
  read_float (ip ++ (if nonempty fp then "."%char :: fp else []))
  = Some (Fin (inject_Z (1 * number_of (ip ++ fp)) * Qpower (10 # 1) (0 - Z.of_nat (length fp)))).
Proof.
  intros N D F. unfold read_float.
  rewrite strip_no_space.
  2:{ rewrite forallb_app, (digits_num_char _ D). destruct fp; [reflexivity|]. cbn [nonempty].
      change (forallb num_char ("."%char :: a :: fp)) with (forallb num_char (a :: fp)).
      now rewrite (digits_num_char _ F). }
  destruct ip as [|c ip]; [congruence|].
  assert (C : is_digit c = true) by (cbn in D; now apply andb_true_iff in D).
  cbn [app]. rewrite (read_sign_digits c _ C). rewrite (digits_not_word c _ C).
  rewrite app_comm_cons. exact (read_body 1 (c :: ip) fp _ N D F eq_refl).
Qed.
Lemma read_float_minus ip fp : ip <> [] -> forallb is_digit ip = true -> forallb is_digit fp = true ->
  read_float ("-"%char :: ip ++ (if nonempty fp then "."%char :: fp else []))
  = Some (Fin (inject_Z (-1 * number_of (ip ++ fp)) * Qpower (10 # 1) (0 - Z.of_nat (length fp)))).
Proof.
  intros N D F. unfold read_float.
  rewrite strip_no_space.
  2:{ cbn [forallb num_char]. change (num_char "-") with true. cbn [andb]. rewrite forallb_app, (digits_num_char _ D). destruct fp; [reflexivity|]. cbn [nonempty].
      change (forallb num_char ("."%char :: a :: fp)) with (forallb num_char (a :: fp)).
      now rewrite (digits_num_char _ F). }
  unfold read_sign. rewrite Ascii.eqb_refl.
  destruct ip as [|c ip]; [congruence|].
  assert (C : is_digit c = true) by (cbn in D; now apply andb_true_iff in D).
  cbn [app]. rewrite (digits_not_word c _ C).
  rewrite app_comm_cons. exact (read_body (-1) (c :: ip) fp _ N D F eq_refl).
Qed.

(** *** what is written is read back *)
Lemma pow10_split d a : 0 <= a -> 10 ^ Z.of_nat d * (a / 10 ^ Z.of_nat d) + a mod 10 ^ Z.of_nat d = a.
Proof. intros. symmetry. apply Z.div_mod. apply Z.pow_nonzero; lia. Qed.
Lemma scaled_number d a : 0 <= a ->
  number_of (show_nat (a / 10 ^ Z.of_nat d) ++ pad d (a mod 10 ^ Z.of_nat d)) = a.
Proof.
  intros H. pose proof (Z.pow_pos_nonneg 10 (Z.of_nat d) ltac:(lia) ltac:(lia)) as P.
  rewrite number_of_concat, pad_length, number_of_show_nat, number_of_pad.
  - pose proof (pow10_split d a H). lia.
  - apply Z.mod_pos_bound. lia.
  - apply Z.div_pos; lia.
Qed.
Lemma pad_nonempty d n : nonempty (pad d n) = negb (d =? 0)%nat.
Proof.
  pose proof (pad_length d n) as L. destruct (pad d n); cbn in L; destruct d; try discriminate; reflexivity.
Qed.
Lemma read_show_scaled d n :
  exists q, read_float (show_scaled d n) = Some (Fin q) /\ (q == inject_Z n / inject_Z (10 ^ Z.of_nat d))%Q.
Proof.
  unfold show_scaled. set (a := Z.abs n). assert (A : 0 <= a) by apply Z.abs_nonneg.
  pose proof (Z.pow_pos_nonneg 10 (Z.of_nat d) ltac:(lia) ltac:(lia)) as P.
  assert (B : 0 <= a / 10 ^ Z.of_nat d) by (apply Z.div_pos; lia).
  set (ip := show_nat (a / 10 ^ Z.of_nat d)). set (fp := pad d (a mod 10 ^ Z.of_nat d)).
  assert (E : (if (d =? 0)%nat then [] else "."%char :: fp) = if nonempty fp then "."%char :: fp else []).
  { unfold fp. rewrite pad_nonempty. now destruct (d =? 0)%nat. }
  rewrite E. unfold ip. clear ip.
  pose proof (show_nat_nonempty _ B) as N. pose proof (show_nat_digits _ B) as D.
  pose proof (pad_digits d (a mod 10 ^ Z.of_nat d)) as F. fold fp in F.
  assert (Pw : (Qpower (10 # 1) (0 - Z.of_nat (length fp)) == / inject_Z (10 ^ Z.of_nat d))%Q).
  { unfold fp. rewrite pad_length. replace (0 - Z.of_nat d) with (- Z.of_nat d) by lia.
    rewrite Qpower_opp, Zpower_Qpower by lia. reflexivity. }
  assert (S : number_of (show_nat (a / 10 ^ Z.of_nat d) ++ fp) = a) by (apply scaled_number, A).
  destruct (Z.ltb_spec n 0) as [L|L].
  - rewrite (read_float_minus _ _ N D F). eexists. split; [reflexivity|].
    rewrite S, Pw. replace (-1 * a) with n by (unfold a; lia). reflexivity.
  - rewrite (read_float_plain _ _ N D F). eexists. split; [reflexivity|].
    rewrite S, Pw. replace (1 * a) with n by (unfold a; lia). reflexivity.
Qed.
Lemma show_int_scaled n : show_int n = show_scaled 0 n.
Proof.
  unfold show_int, show_scaled. cbn [Nat.eqb]. change (10 ^ Z.of_nat 0) with 1. rewrite Z.div_1_r, app_nil_r.
  destruct (Z.ltb_spec n 0); [rewrite Z.abs_neq by lia|rewrite Z.abs_eq by lia]; reflexivity.
Qed.
Lemma read_show_int n : exists q, read_float (show_int n) = Some (Fin q) /\ (q == inject_Z n)%Q.
Proof.
  rewrite show_int_scaled. destruct (read_show_scaled 0 n) as (q & H & E). exists q. split; [assumption|].
  rewrite E. change (inject_Z (10 ^ Z.of_nat 0)) with 1%Q. field.
Qed.
Lemma read_pad k n : (0 < k)%nat -> 0 <= n < 10 ^ Z.of_nat k ->
  exists q, read_float (pad k n) = Some (Fin q) /\ (q == inject_Z n)%Q.
Proof.
  intros K H. pose proof (read_float_plain (pad k n) []) as E. cbn [nonempty] in E. rewrite !app_nil_r in E.
  rewrite E; [|intros C; pose proof (pad_length k n) as L; rewrite C in L; cbn in L; lia|apply pad_digits|reflexivity].
  eexists. split; [reflexivity|]. rewrite number_of_pad by assumption. rewrite Z.mul_1_l. cbn [length Z.of_nat].
  change (Qpower (10 # 1) (0 - 0)) with 1%Q. ring.
Qed.
Lemma show_scaled_chars d n : forallb num_char (show_scaled d n) = true.
Proof.
  unfold show_scaled. pose proof (Z.pow_pos_nonneg 10 (Z.of_nat d) ltac:(lia) ltac:(lia)) as P.
  assert (B : forallb num_char (show_nat (Z.abs n / 10 ^ Z.of_nat d) ++
     (if (d =? 0)%nat then [] else "."%char :: pad d (Z.abs n mod 10 ^ Z.of_nat d))) = true).
  { rewrite forallb_app, (digits_num_char _ (show_nat_digits _ (Z.div_pos _ _ (Z.abs_nonneg n) P))).
    destruct (d =? 0)%nat; [reflexivity|]. cbn [forallb]. change (num_char ".") with true. cbn [andb].
    apply digits_num_char, pad_digits. }
  destruct (n <? 0); [|exact B]. cbn [forallb]. now rewrite B.
Qed.
Lemma show_int_chars n : forallb num_char (show_int n) = true.
Proof. rewrite show_int_scaled. apply show_scaled_chars. Qed.
Lemma num_chars_no c s : num_char c = false -> forallb num_char s = true -> ~ In c s.
Proof. intros D H I. rewrite forallb_forall in H. rewrite (H c I) in D. discriminate. Qed.
