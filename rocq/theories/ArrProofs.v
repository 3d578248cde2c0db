(** Proofs about texts with numbers. *)
From Verif Require Import PyBase PyFacts PyText TextFacts PyNum PyFloat PyFloatFacts IsoModel IsoProofs AvgText ArrModel ArrSpec.
From Coq Require Import Lia.
Local Open Scope nat_scope.
Local Open Scope list_scope.

Lemma take_digits_decomp s : exists w r, take_digits s = (w, r) /\ s = w ++ r /\ forallb is_digit w = true /\ match r with c :: _ => is_digit c = false | [] => True end.
Proof.
  induction s as [|c s (w & r & E & S & D & N)]; [exists [], []; repeat split; reflexivity|]. cbn [take_digits]. destruct (is_digit c) eqn:C.
  - rewrite E. exists (c :: w), r. repeat split; [rewrite S; reflexivity|cbn; rewrite C; exact D|exact N].
  - exists [], (c :: s). repeat split; exact C.
Qed.
(** Where a number may end. *)
Definition stops (r : text) : Prop :=
  match r with
  | [] => True
  | c :: r1 => is_digit c = false /\
      match r1 with
      | [] => True
      | d :: r2 => (Ascii.eqb c "." = true -> is_digit d = false) /\ (is_e c = true -> is_digit d = false /\ (is_sign d = true -> match r2 with [] => True | x :: _ => is_digit x = false end))
      end
  end.
Lemma char_table c : is_digit c = true -> is_sign c = false /\ is_e c = false /\ Ascii.eqb c "." = false /\ is_space c = false.
Proof.
  intros D. assert (T : implb (is_digit c) (negb (is_sign c) && negb (is_e c) && negb (Ascii.eqb c ".") && negb (is_space c)) = true) by (revert c D; intros c _; revert c; apply ascii_forall; vm_compute; reflexivity).
  rewrite D in T. cbn [implb] in T. rewrite !andb_true_iff, !negb_true_iff in T. tauto.
Qed.
Lemma first_digit d : digits d -> exists c r, d = c :: r /\ is_digit c = true /\ forallb is_digit r = true.
Proof. intros (N & D). destruct d as [|c r]; [contradiction|]. cbn in D. apply andb_true_iff in D. exists c, r. tauto. Qed.
Lemma sign_part_app s x : sign s -> (forall c r, x = c :: r -> is_sign c = false) -> sign_part (s ++ x) = (length s, x).
Proof. intros [| |] H; [|reflexivity|reflexivity]. cbn [app length]. unfold sign_part. destruct x as [|c x]; [reflexivity|]. rewrite (H c x eq_refl). reflexivity. Qed.
Lemma exponent_part_app e r : exponent e -> e <> [] \/ stops r -> stops r -> exponent_part (e ++ r) = length e.
Proof.
  intros [|x s d E S D] _ R.
  - cbn [app length]. unfold exponent_part. destruct r as [|c r]; [reflexivity|]. destruct (is_e c) eqn:EC; [|reflexivity]. cbn in R. destruct R as (_ & R). destruct r as [|b r]; [reflexivity|]. destruct R as (_ & R). destruct (R EC) as (B & R'). unfold sign_part. destruct (is_sign b) eqn:SB.
    + specialize (R' eq_refl). destruct r as [|y r]; [reflexivity|]. cbn [take_digits]. rewrite R'. reflexivity.
    + cbn [take_digits]. rewrite B. reflexivity.
  - assert (X : exists c, x = [c] /\ is_e c = true) by (destruct E as [-> | ->]; [exists "e"%char|exists "E"%char]; split; reflexivity). destruct X as (c & -> & EC). cbn [app]. unfold exponent_part. rewrite EC.
    destruct (first_digit d D) as (y & t & -> & Y & T). rewrite <- app_assoc, sign_part_app; [|exact S|intros b q B; injection B as <- _; apply (char_table y Y)].
    rewrite take_digits_app.
    + cbn [nonempty length]. rewrite app_length. cbn [length]. lia.
    + exact (proj2 D).
    + intros b q ->. cbn in R. apply R.
Qed.
Lemma number_at_numeral n r : numeral n -> stops r -> number_at (n ++ r) = Some (length n).
Proof.
  intros [s i f e S I F NE E] R. unfold number_at. rewrite <- !app_assoc.
  assert (SS : forall x, stops r -> exponent x -> match x ++ r with c :: _ => is_digit c = false | [] => True end).
  { intros x R0 [|y s0 d Y _ _]; [destruct r; [exact Logic.I|apply R0]|]. destruct Y as [-> | ->]; reflexivity. }
  rewrite sign_part_app; [|exact S|].
  - assert (B : body_part (i ++ f ++ e ++ r) = Some (length i + length f, e ++ r)).
    { unfold body_part. destruct F as [|d D].
      - cbn [app]. rewrite take_digits_app; [|exact I|intros c q Q; pose proof (SS e R E) as X; rewrite Q in X; exact X]. destruct i as [|c0 i]; [destruct NE as [X|X]; contradiction X; reflexivity|]. cbn [nonempty]. rewrite Nat.add_0_r.
        destruct (e ++ r) as [|c q] eqn:Q; [reflexivity|]. destruct (Ascii.eqb c ".") eqn:P; [|reflexivity].
        destruct E as [|y s0 d Y _ _].
        + cbn [app] in Q. subst r. cbn in R. destruct q as [|b q]; [reflexivity|]. cbn [take_digits]. rewrite (proj1 (proj2 R) P). reflexivity.
        + exfalso. destruct Y as [-> | ->]; cbn in Q; injection Q as <- _; discriminate P.
      - rewrite take_digits_app; [|exact I|intros c q Q; cbn in Q; injection Q as <- _; reflexivity]. cbn [txt list_ascii_of_string app]. rewrite Ascii.eqb_refl.
        rewrite take_digits_app; [|exact (proj2 D)|intros c q Q; pose proof (SS e R E) as X; rewrite Q in X; exact X]. destruct D as (D1 & _). destruct d as [|d0 d]; [contradiction|]. cbn [nonempty length]. f_equal. f_equal. lia. }
    rewrite B, (exponent_part_app e r E (or_intror R) R), !app_length. f_equal. lia.
  - intros c q Q. destruct i as [|c0 i].
    + destruct F as [|d D]; [destruct NE as [X|X]; contradiction X; reflexivity|]. cbn in Q. injection Q as <- _. reflexivity.
    + cbn in Q. injection Q as <- _. cbn in I. apply andb_true_iff in I. apply (char_table c0 (proj1 I)).
Qed.
Lemma find_skip a : forall b, find_from (length a) (a ++ b) = find_from 0 b.
Proof. induction a as [|c a IH]; intros b; [reflexivity|]. cbn [length app find_from]. apply IH. Qed.
Lemma numeral_nonempty n : numeral n -> exists c r, n = c :: r.
Proof.
  intros [s i f e S I F NE E]. destruct s as [|c s]; [|eexists; eexists; reflexivity]. destruct i as [|c i]; [|eexists; eexists; reflexivity]. destruct f as [|c f]; [destruct NE as [X|X]; contradiction X; reflexivity|eexists; eexists; reflexivity].
Qed.
Lemma find_match n c t r : number_at ((c :: t) ++ r) = Some n -> n = length (c :: t) -> find_from 0 ((c :: t) ++ r) = (c :: t) :: find_from 0 r.
Proof.
  intros A ->. assert (F : firstn (length (c :: t)) ((c :: t) ++ r) = c :: t) by (rewrite firstn_app, Nat.sub_diag, firstn_all; apply app_nil_r).
  rewrite <- F at 2. rewrite <- (find_skip t r). cbn [app] in *. cbn [find_from]. rewrite A. cbn [length Nat.sub]. rewrite Nat.sub_0_r. reflexivity.
Qed.
Lemma find_numeral n r : numeral n -> stops r -> find_from 0 (n ++ r) = n :: find_from 0 r.
Proof. intros N R. pose proof (number_at_numeral n r N R) as A. destruct (numeral_nonempty n N) as (c & t & ->). exact (find_match _ c t r A eq_refl). Qed.
(** Before a number. *)
Lemma no_digits_cons c s : no_digits (c :: s) <-> is_digit c = false /\ no_digits s.
Proof. unfold no_digits. cbn [forallb]. rewrite andb_true_iff, negb_true_iff. tauto. Qed.
Lemma body_none c r : is_digit c = false -> Ascii.eqb c "." = false -> body_part (c :: r) = None.
Proof. intros D P. unfold body_part. cbn [take_digits]. rewrite D. cbn [nonempty]. rewrite P. reflexivity. Qed.
Lemma body_point c r : is_digit c = false -> body_part ("."%char :: c :: r) = None.
Proof. intros D. unfold body_part. cbn [take_digits]. change (is_digit ".") with false. cbv iota. rewrite Ascii.eqb_refl. cbn [take_digits]. rewrite D. reflexivity. Qed.
Lemma body_one c : is_digit c = false -> body_part [c] = None.
Proof. intros D. unfold body_part. cbn [take_digits]. rewrite D. cbn [nonempty]. destruct (Ascii.eqb c "."); reflexivity. Qed.
Lemma in_signs c : ~ In c (txt ".+-") -> Ascii.eqb c "." = false /\ is_sign c = false.
Proof.
  intros N. unfold is_sign. split; [|rewrite orb_false_iff; split]; apply Ascii.eqb_neq; intros ->; apply N; cbn; auto.
Qed.
Lemma number_none a s r : no_digits (a :: s) -> free_end (a :: s) -> number_at ((a :: s) ++ r) = None.
Proof.
  intros D F. rewrite no_digits_cons in D. destruct D as (A & D). unfold number_at. cbn [app]. unfold sign_part. destruct s as [|b s].
  - destruct (in_signs a (F [] a eq_refl)) as (P & S). rewrite S. cbn [app]. rewrite (body_none a r A P). reflexivity.
  - rewrite no_digits_cons in D. destruct D as (B & D). cbn [app]. destruct (is_sign a) eqn:S.
    + destruct (Ascii.eqb b ".") eqn:P; [|rewrite (body_none b _ B P); reflexivity]. apply Ascii.eqb_eq in P. subst b. destruct s as [|x s].
      * destruct (in_signs _ (F [a] "."%char eq_refl)) as (X & _). discriminate X.
      * rewrite no_digits_cons in D. cbn [app]. rewrite (body_point x _ (proj1 D)). reflexivity.
    + destruct (Ascii.eqb a ".") eqn:P; [|rewrite (body_none a _ A P); reflexivity]. apply Ascii.eqb_eq in P. subst a. rewrite (body_point b _ B). reflexivity.
Qed.
Lemma free_tail a b s : free_end (a :: b :: s) -> free_end (b :: s).
Proof. intros F r c E. apply (F (a :: r) c). rewrite E. reflexivity. Qed.
Lemma find_between s r : no_digits s -> free_end s -> find_from 0 (s ++ r) = find_from 0 r.
Proof.
  induction s as [|a s IH]; intros D F; [reflexivity|]. pose proof (number_none a s r D F) as N. cbn [app] in *. cbn [find_from]. rewrite N. rewrite no_digits_cons in D. destruct s as [|b s]; [reflexivity|]. apply IH; [apply D|exact (free_tail _ _ _ F)].
Qed.
Lemma number_no s : no_digits s -> number_at s = None.
Proof.
  intros D. destruct s as [|a s]; [reflexivity|]. rewrite no_digits_cons in D. destruct D as (A & D). unfold number_at, sign_part.
  assert (B : forall x, no_digits x -> body_part x = None).
  { intros x X. destruct x as [|c x]; [reflexivity|]. rewrite no_digits_cons in X. destruct X as (C & X). destruct (Ascii.eqb c ".") eqn:P; [|exact (body_none c x C P)]. apply Ascii.eqb_eq in P. subst c. destruct x as [|y x]; [reflexivity|]. rewrite no_digits_cons in X. exact (body_point y x (proj1 X)). }
  destruct (is_sign a); [rewrite (B s D)|rewrite (B (a :: s)) by (apply no_digits_cons; split; assumption)]; reflexivity.
Qed.
Lemma find_no s : no_digits s -> find_from 0 s = [].
Proof. induction s as [|a s IH]; intros D; [reflexivity|]. cbn [find_from]. rewrite (number_no _ D). apply IH. rewrite no_digits_cons in D. apply D. Qed.
Lemma foreign_not c : foreign c -> is_digit c = false /\ Ascii.eqb c "." = false /\ is_sign c = false /\ is_e c = false.
Proof.
  intros (D & N). split; [exact D|]. unfold is_sign, is_e. repeat split; rewrite ?orb_false_iff; repeat split; apply Ascii.eqb_neq; intros ->; apply N; cbn; auto 10.
Qed.
Lemma stops_between s n r : between s -> stops (s ++ n ++ r).
Proof.
  intros (D & (c & I & C) & F). destruct (foreign_not c C) as (C1 & C2 & C3 & C4). destruct s as [|a s]; [destruct I|]. rewrite no_digits_cons in D. destruct D as (A & D). cbn [app stops]. split; [exact A|]. destruct s as [|b s].
  - destruct I as [->|[]]. destruct (n ++ r) as [|d r2]; [exact Logic.I|]. rewrite C2, C4. split; discriminate.
  - rewrite no_digits_cons in D. destruct D as (B & D). cbn [app]. split; [intros _; exact B|]. intros EA. split; [exact B|]. intros SB. destruct s as [|x s].
    + exfalso. destruct I as [->|[->|[]]]; congruence.
    + rewrite no_digits_cons in D. cbn [app]. apply D.
Qed.
Lemma stops_no s : no_digits s -> stops s.
Proof.
  intros D. destruct s as [|a s]; [exact Logic.I|]. rewrite no_digits_cons in D. destruct D as (A & D). split; [exact A|]. destruct s as [|b s]; [exact Logic.I|]. rewrite no_digits_cons in D. destruct D as (B & D). split; [intros _; exact B|]. intros _. split; [exact B|]. intros _. destruct s as [|x s]; [exact Logic.I|]. rewrite no_digits_cons in D. apply D.
Qed.
Lemma stops_after r l : after r l -> stops r.
Proof. intros [s (D & _)|s n q k B _ _]; [exact (stops_no s D)|exact (stops_between s n q B)]. Qed.
Lemma find_after r l : after r l -> find_from 0 r = l.
Proof.
  induction 1 as [s (D & _)|s n r l (D & C & F) N A IH]; [exact (find_no s D)|]. rewrite (find_between s _ D F), (find_numeral n r N (stops_after r l A)), IH. reflexivity.
Qed.
Lemma find_holds s l : holds_numbers s l -> find_from 0 s = l.
Proof. intros [s0 n r l0 (D & _) F N A]. rewrite (find_between s0 _ D F), (find_numeral n r N (stops_after r l0 A)), (find_after r l0 A). reflexivity. Qed.

(** ** float *)
Definition number_char (c : ascii) : bool := is_digit c || Ascii.eqb c "." || is_sign c || is_e c.
Lemma foreign_char c : foreign c -> number_char c = false.
Proof. intros F. destruct (foreign_not c F) as (A & B & C & D). unfold number_char. rewrite A, B, C, D. reflexivity. Qed.
Lemma number_char_space c : number_char c = true -> is_space c = false.
Proof.
  intros D. assert (T : implb (number_char c) (negb (is_space c)) = true) by (revert c D; intros c _; revert c; apply ascii_forall; vm_compute; reflexivity). rewrite D in T. cbn [implb] in T. apply negb_true_iff, T.
Qed.
Lemma digits_chars w : forallb is_digit w = true -> forallb number_char w = true.
Proof. rewrite !forallb_forall. intros H c I. unfold number_char. rewrite (H c I). reflexivity. Qed.
Lemma read_sign_chars s : exists sg a r, read_sign s = (sg, r) /\ s = a ++ r /\ forallb number_char a = true.
Proof.
  destruct s as [|c s]; [exists 1%Z, [], []; repeat split|]. unfold read_sign. destruct (Ascii.eqb c "-") eqn:M.
  - apply Ascii.eqb_eq in M. subst c. exists (-1)%Z, ["-"%char], s. repeat split.
  - destruct (Ascii.eqb c "+") eqn:P.
    + apply Ascii.eqb_eq in P. subst c. exists 1%Z, ["+"%char], s. repeat split.
    + exists 1%Z, [], (c :: s). repeat split.
Qed.
Lemma read_exponent_chars s e : read_exponent s = Some e -> forallb number_char s = true.
Proof.
  destruct s as [|c s]; [reflexivity|]. unfold read_exponent. change (Ascii.eqb c "e" || Ascii.eqb c "E") with (is_e c). destruct (is_e c) eqn:E; [|discriminate]. destruct (read_sign_chars s) as (sg & a & r & -> & -> & A). destruct (take_digits_decomp r) as (w & r2 & -> & -> & W & _).
  destruct (nonempty w && negb (nonempty r2)) eqn:N; [|discriminate]. intros _. apply andb_true_iff in N. destruct N as (_ & N). destruct r2 as [|x r2]; [|discriminate N]. rewrite app_nil_r. cbn [forallb]. rewrite forallb_app, A, (digits_chars w W). unfold number_char. rewrite E, !orb_true_r. reflexivity.
Qed.
Lemma read_float_chars s q : read_float s = Some (Fin q) -> forallb number_char (strip s) = true.
Proof.
  unfold read_float. destruct (read_sign_chars (strip s)) as (sg & a & r & -> & -> & A). destruct (existsb _ words_nonfinite); [discriminate|]. destruct (take_digits_decomp r) as (w & r1 & -> & -> & W & _). rewrite !forallb_app, A, (digits_chars w W). cbn [andb].
  unfold read_point. destruct r1 as [|c r1]; [reflexivity|]. destruct (Ascii.eqb c ".") eqn:P.
  - destruct (take_digits_decomp r1) as (w2 & r2 & -> & -> & W2 & _). destruct (nonempty _); [|discriminate]. destruct (read_exponent r2) as [e|] eqn:E; [|discriminate]. intros _. cbn [forallb]. rewrite forallb_app, (digits_chars w2 W2), (read_exponent_chars r2 e E). unfold number_char. rewrite P, orb_true_r. reflexivity.
  - destruct (nonempty _); [|discriminate]. destruct (read_exponent (c :: r1)) as [e|] eqn:E; [|discriminate]. intros _. exact (read_exponent_chars _ e E).
Qed.
(** A text with a digit is not one of the words. *)
Lemma lower_digit c : is_digit c = true -> to_lower c = c.
Proof. apply digit_lower. Qed.
Lemma nonfinite_no_digit s c : read_float s = Some NonFinite -> In c s -> is_digit c = false.
Proof.
  intros R I. destruct (is_digit c) eqn:D; [exfalso|reflexivity]. assert (I2 : In c (strip s)).
  { destruct (lstrip_decomp s) as (sp & E & SP). assert (J : In c (lstrip s)). { rewrite E in I. apply in_app_iff in I. destruct I as [I|I]; [|exact I]. rewrite forallb_forall in SP. pose proof (char_table c D) as T. rewrite (SP c I) in T. destruct T as (_ & _ & _ & T). discriminate T. }
    unfold strip, rstrip. apply -> in_rev. destruct (lstrip_decomp (rev (lstrip s))) as (sp2 & E2 & SP2). apply in_rev in J. rewrite E2 in J. apply in_app_iff in J. destruct J as [J|J]; [|exact J]. rewrite forallb_forall in SP2. pose proof (char_table c D) as T. rewrite (SP2 c J) in T. destruct T as (_ & _ & _ & T). discriminate T. }
  unfold read_float in R. destruct (read_sign_chars (strip s)) as (sg & a & r & E & S & A). rewrite E in R.
  destruct (existsb (text_eqb (lower r)) words_nonfinite) eqn:W.
  - rewrite S in I2. apply in_app_iff in I2. destruct I2 as [I2|I2].
    + unfold read_sign in E. destruct (strip s) as [|x t]; [injection E as _ <-; destruct a; [destruct I2|discriminate S]|].
      destruct (Ascii.eqb x "-") eqn:M; [|destruct (Ascii.eqb x "+") eqn:P]; injection E as _ <-.
      * destruct a as [|y a]; [destruct I2|]. injection S as <- S. assert (a = []) by (destruct a; [reflexivity|apply (f_equal (@length ascii)) in S; rewrite app_length in S; cbn in S; lia]). subst a. destruct I2 as [<-|[]]. apply Ascii.eqb_eq in M. subst x. discriminate D.
      * destruct a as [|y a]; [destruct I2|]. injection S as <- S. assert (a = []) by (destruct a; [reflexivity|apply (f_equal (@length ascii)) in S; rewrite app_length in S; cbn in S; lia]). subst a. destruct I2 as [<-|[]]. apply Ascii.eqb_eq in P. subst x. discriminate D.
      * apply (f_equal (@length ascii)) in S. rewrite app_length in S. cbn in S. destruct a; [destruct I2|cbn in S; lia].
    + apply existsb_exists in W. destruct W as (w & W & X). apply text_eqb_eq in X. assert (J : In c w) by (rewrite <- X; unfold lower; rewrite <- (lower_digit c D); apply in_map, I2).
      assert (Z : forallb (fun w => forallb (fun c => negb (is_digit c)) w) words_nonfinite = true) by (vm_compute; reflexivity). rewrite forallb_forall in Z. specialize (Z w W). rewrite forallb_forall in Z. specialize (Z c J). rewrite D in Z. discriminate Z.
  - destruct (take_digits r) as [ip r1]. destruct (read_point r1) as [fp r2]. destruct (nonempty _); [|discriminate R]. destruct (read_exponent r2); discriminate R.
Qed.
Lemma in_strip c s : In c s -> is_space c = false -> In c (strip s).
Proof.
  intros I N. destruct (lstrip_decomp s) as (sp & E & SP). assert (J : In c (lstrip s)). { rewrite E in I. apply in_app_iff in I. destruct I as [I|I]; [|exact I]. rewrite forallb_forall in SP. rewrite (SP c I) in N. discriminate N. }
  unfold strip, rstrip. apply -> in_rev. destruct (lstrip_decomp (rev (lstrip s))) as (sp2 & E2 & SP2). apply in_rev in J. rewrite E2 in J. apply in_app_iff in J. destruct J as [J|J]; [|exact J]. rewrite forallb_forall in SP2. rewrite (SP2 c J) in N. discriminate N.
Qed.
Lemma in_strip_mid x m y c d1 d2 : In d1 x -> is_space d1 = false -> In d2 y -> is_space d2 = false -> In c m -> In c (strip (x ++ m ++ y)).
Proof.
  intros X1 X2 Y1 Y2 I. apply in_split in X1. destruct X1 as (x1 & x2 & ->). apply in_split in Y1. destruct Y1 as (y1 & y2 & ->).
  unfold strip. rewrite <- !app_assoc. cbn [app]. rewrite (lstrip_app_nonspace x1 d1 _ X2). unfold rstrip. apply -> in_rev.
  assert (E : rev (lstrip x1 ++ d1 :: x2 ++ m ++ y1 ++ d2 :: y2) = rev y2 ++ d2 :: rev (lstrip x1 ++ d1 :: x2 ++ m ++ y1)).
  { rewrite (app_assoc m y1), (app_assoc x2), app_comm_cons, app_assoc, rev_app_distr. cbn [rev]. rewrite <- app_assoc. reflexivity. }
  rewrite E, (lstrip_app_nonspace (rev y2) d2 _ Y2). apply in_app_iff. right. right. apply -> in_rev. apply in_app_iff. right. right. apply in_app_iff. right. apply in_app_iff. left. exact I.
Qed.
Lemma numeral_digit n : numeral n -> exists c, In c n /\ is_digit c = true.
Proof.
  intros [s i f e S I F NE E]. destruct i as [|c i].
  - destruct F as [|d D]; [destruct NE as [X|X]; contradiction X; reflexivity|]. destruct (first_digit d D) as (c & r & -> & C & _). exists c. split; [|exact C]. rewrite !in_app_iff. right. right. left. right. left. reflexivity.
  - exists c. cbn in I. apply andb_true_iff in I. split; [|apply I]. apply in_app_iff. right. left. reflexivity.
Qed.
Lemma digit_space c : is_digit c = true -> is_space c = false.
Proof. intros D. apply (char_table c D). Qed.
Lemma foreign_not_float s c : In c (strip s) -> foreign c -> (exists d, In d s /\ is_digit d = true) -> read_float s = None.
Proof.
  intros I F (d & DI & DD). destruct (read_float s) as [[q|]|] eqn:R; [|rewrite (nonfinite_no_digit s d R DI) in DD; discriminate DD|reflexivity].
  apply read_float_chars in R. rewrite forallb_forall in R. specialize (R c I). rewrite (foreign_char c F) in R. discriminate R.
Qed.
(** float of a number. *)
Lemma sign_chars s : sign s -> forallb number_char s = true.
Proof. intros [| |]; reflexivity. Qed.
Lemma fraction_chars f : fraction f -> forallb number_char f = true.
Proof. intros [|d D]; [reflexivity|]. cbn. apply digits_chars, D. Qed.
Lemma exponent_chars e : exponent e -> forallb number_char e = true.
Proof. intros [|x s d X S D]; [reflexivity|]. rewrite !forallb_app, (sign_chars s S), (digits_chars d (proj2 D)). destruct X as [-> | ->]; reflexivity. Qed.
Lemma numeral_chars n : numeral n -> forallb number_char n = true.
Proof. intros [s i f e S I F NE E]. rewrite !forallb_app, (sign_chars s S), (digits_chars i I), (fraction_chars f F), (exponent_chars e E). reflexivity. Qed.
Lemma strip_number n : forallb number_char n = true -> strip n = n.
Proof.
  intros C. rewrite forallb_forall in C. apply strip_trimmed. unfold trimmed. split.
  - intros c r ->. apply number_char_space, C. left. reflexivity.
  - intros c r ->. apply number_char_space, C. apply in_app_iff. right. left. reflexivity.
Qed.
Lemma read_sign_app s x : sign s -> (forall c r, x = c :: r -> is_sign c = false) -> exists sg, read_sign (s ++ x) = (sg, x).
Proof.
  intros [| |] H; [|eexists; reflexivity|eexists; reflexivity]. exists 1%Z. cbn [app]. unfold read_sign. destruct x as [|c x]; [reflexivity|]. specialize (H c x eq_refl). unfold is_sign in H. apply orb_false_iff in H. destruct H as (-> & ->). reflexivity.
Qed.
Lemma word_not i f e : (exists c, In c (i ++ f) /\ is_digit c = true) -> existsb (text_eqb (lower (i ++ f ++ e))) words_nonfinite = false.
Proof.
  intros (c & I & D). destruct (existsb _ _) eqn:W; [exfalso|reflexivity]. apply existsb_exists in W. destruct W as (w & W & X). apply text_eqb_eq in X. assert (J : In c w) by (rewrite <- X; unfold lower; rewrite <- (lower_digit c D); apply in_map; rewrite app_assoc; apply in_app_iff; left; exact I).
  assert (Z : forallb (fun w => forallb (fun c => negb (is_digit c)) w) words_nonfinite = true) by (vm_compute; reflexivity). rewrite forallb_forall in Z. specialize (Z w W). rewrite forallb_forall in Z. specialize (Z c J). rewrite D in Z. discriminate Z.
Qed.
Lemma exponent_reads e : exponent e -> exists k, read_exponent e = Some k.
Proof.
  intros [|x s d X S D]; [eexists; reflexivity|]. assert (Y : exists c, x = [c] /\ is_e c = true) by (destruct X as [-> | ->]; [exists "e"%char|exists "E"%char]; split; reflexivity). destruct Y as (c & -> & EC). cbn [app]. unfold read_exponent. change (Ascii.eqb c "e" || Ascii.eqb c "E") with (is_e c). rewrite EC.
  destruct (first_digit d D) as (y & t & -> & Y & T). destruct (read_sign_app s (y :: t) S) as (sg & ->); [intros b q B; injection B as <- _; apply (char_table y Y)|]. rewrite (take_digits_end _ (proj2 D)). eexists. reflexivity.
Qed.
Lemma numeral_reads n : numeral n -> exists q, read_float n = Some (Fin q).
Proof.
  intros N. pose proof (numeral_chars n N) as C. destruct N as [s i f e S I F NE E]. unfold read_float. rewrite (strip_number _ C).
  destruct (read_sign_app s (i ++ f ++ e) S) as (sg & ->).
  { intros c r Q. destruct i as [|c0 i].
    - destruct F as [|d D]; [destruct NE as [X|X]; contradiction X; reflexivity|]. cbn in Q. injection Q as <- _. reflexivity.
    - cbn in Q. injection Q as <- _. cbn in I. apply andb_true_iff in I. apply (char_table c0 (proj1 I)). }
  rewrite word_not.
  2:{ destruct i as [|c i].
      - destruct F as [|d D]; [destruct NE as [X|X]; contradiction X; reflexivity|]. destruct (first_digit d D) as (c & r & -> & DC & _). exists c. split; [right; left; reflexivity|exact DC].
      - exists c. cbn in I. apply andb_true_iff in I. split; [left; reflexivity|apply I]. }
  assert (EH : forall c r, e = c :: r -> is_digit c = false /\ Ascii.eqb c "." = false) by (intros c r Q; destruct E as [|x s0 d X _ _]; [discriminate Q|]; destruct X as [-> | ->]; cbn in Q; injection Q as <- _; split; reflexivity).
  destruct (exponent_reads e E) as (k & K).
  assert (T : take_digits (i ++ f ++ e) = (i, f ++ e)) by (apply take_digits_app; [exact I|]; intros c r Q; destruct F as [|d D]; [exact (proj1 (EH c r Q))|cbn in Q; injection Q as <- _; reflexivity]).
  rewrite T. destruct F as [|d D].
  - cbn [app]. assert (P : read_point e = ([], e)) by (unfold read_point; destruct e as [|c e]; [reflexivity|]; rewrite (proj2 (EH c e eq_refl)); reflexivity). rewrite P, app_nil_r, K. destruct i; [destruct NE as [X|X]; contradiction X; reflexivity|]. eexists. reflexivity.
  - assert (P : read_point ((txt "." ++ d) ++ e) = (d, e)) by (cbn [txt list_ascii_of_string app]; unfold read_point; rewrite Ascii.eqb_refl; apply take_digits_app; [apply D|intros c r Q; exact (proj1 (EH c r Q))]). rewrite P, K. destruct (first_digit d D) as (y & t & -> & _ & _). destruct i; eexists; reflexivity.
Qed.
