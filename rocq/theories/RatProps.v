(** C150: ratings of data quality. *)
From Verif Require Import PyBase PyFacts PyText TextFacts PyNum PyFloat PyFloatFacts ZmmModel ZmmProofs LocationModel LocationProofs RatModel RatSpec.
From Coq Require Import Lia Lqa.
Local Open Scope list_scope.
Local Open Scope Z_scope.

Lemma in_range z : ((z <? 0) || (z >? 5)) = false <-> 0 <= z <= 5.
Proof. rewrite orb_false_iff, Z.ltb_ge, Z.gtb_ltb, Z.ltb_ge. tauto. Qed.
Lemma out_of_range z : ((z <? 0) || (z >? 5)) = true <-> ~ 0 <= z <= 5.
Proof. rewrite <- in_range. destruct (_ || _); intuition congruence. Qed.
Lemma null_iff t : existsb (text_eqb t) null_texts = true <-> nothing t.
Proof.
  rewrite existsb_exists. unfold nothing. change (map txt _) with null_texts. split.
  - intros (x & I & E). apply text_eqb_eq in E. subst x. exact I.
  - intros I. exists t. split; [exact I|]. apply text_eqb_eq. reflexivity.
Qed.
Lemma cut_py q : cut_off q (py_int q).
Proof.
  destruct (Qlt_le_dec q 0) as [L|L].
  - right. rewrite (py_int_neg q L). pose proof (Qfloor_le (- q)) as A. pose proof (Qlt_floor (- q)) as B. set (f := Qfloor (- q)) in *. replace (- f - 1) with (- (f + 1)) by lia. rewrite !inject_Z_opp. split; [exact L|]. split; lra.
  - left. rewrite (py_int_pos q L). split; [exact L|]. split; [apply Qfloor_le|apply Qlt_floor].
Qed.
Lemma zq_lt a b : (inject_Z a < inject_Z b)%Q -> a < b.
Proof. rewrite <- Zlt_Qlt. trivial. Qed.
Lemma cut_unique q z z' : cut_off q z -> cut_off q z' -> z = z'.
Proof.
  intros [(A & B & C)|(A & B & C)] [(A' & B' & C')|(A' & B' & C')]; try lra.
  - assert (X : (inject_Z z < inject_Z (z' + 1))%Q) by lra. assert (Y : (inject_Z z' < inject_Z (z + 1))%Q) by lra. apply zq_lt in X, Y. lia.
  - assert (X : (inject_Z (z - 1) < inject_Z z')%Q) by lra. assert (Y : (inject_Z (z' - 1) < inject_Z z)%Q) by lra. apply zq_lt in X, Y. lia.
Qed.
Lemma set_int r v z : is_null v = false -> RatModel.to_int v = Ok z -> (0 <= z <= 5 -> set_value r v = (None, Some z)) /\ (~ 0 <= z <= 5 -> set_value r v = (Some ValueError, r)).
Proof.
  intros N I. unfold set_value, validate_value. rewrite N, I. split; intros H; [apply in_range in H|apply out_of_range in H]; rewrite H; reflexivity.
Qed.

Lemma num_trimmed s : forallb num_char s = true -> trimmed s.
Proof.
  intros H. rewrite forallb_forall in H. assert (N : forall c, In c s -> is_space c = false) by (intros c I; exact (proj1 (num_char_not c (H c I)))).
  split; intros c r E; apply N; rewrite E; [left; reflexivity|apply in_or_app; right; left; reflexivity].
Qed.

(** Whatever is set, a rating is None or one of 0 to 5; what raises an error leaves it as it was. *)
Theorem C150_range vs : match after None vs with None => True | Some z => 0 <= z <= 5 end.
Proof.
  assert (G : forall vs r, match r with None => True | Some z => 0 <= z <= 5 end -> match after r vs with None => True | Some z => 0 <= z <= 5 end); [|apply G; exact I].
  clear vs. induction vs as [|v vs IH]; intros r H; [exact H|]. unfold after. cbn [fold_left]. apply IH. unfold set_value, validate_value. destruct (is_null v); [exact I|]. destruct (RatModel.to_int v) as [z|e]; [|exact H].
  destruct (_ || _) eqn:E; [exact H|]. apply in_range. exact E.
Qed.
Example C150_range_hyp : after None [GInt 4; GStr (txt " 5 "); GInt 9; GFloat (7 # 2)] = Some 3 /\ after None [GInt 4; GStr (txt "6")] = Some 4.
Proof. vm_compute. split; reflexivity. Qed.
Theorem C150_error r v e r' : set_value r v = (Some e, r') -> r' = r.
Proof. unfold set_value. destruct (validate_value v); intros E; inversion E; reflexivity. Qed.

(** Integers, and the same integers as texts with blanks around, are taken from 0 to 5 and refused else. *)
Theorem C150_integers r z before_ after_ : blanks before_ -> blanks after_ ->
  (0 <= z <= 5 -> set_value r (GInt z) = (None, Some z) /\ set_value r (GStr (before_ ++ show_int z ++ after_)) = (None, Some z)) /\
  (~ 0 <= z <= 5 -> set_value r (GInt z) = (Some ValueError, r) /\ set_value r (GStr (before_ ++ show_int z ++ after_)) = (Some ValueError, r)).
Proof.
  intros B A. set (t := before_ ++ show_int z ++ after_).
  assert (R : read_int t = Some z).
  { pose proof (read_int_show z) as R. unfold read_int in *. replace (strip t) with (strip (show_int z)); [exact R|]. rewrite (strip_no_space _ (show_int_chars z)). symmetry. unfold t. unfold blanks in A, B. rewrite Forall_forall in A, B. apply strip_pad; [apply forallb_forall; exact B|apply forallb_forall; exact A|].
    apply num_trimmed, show_int_chars. }
  assert (N : is_null (GStr t) = false).
  { cbn [is_null]. destruct (existsb _ _) eqn:E; [|reflexivity]. apply null_iff in E. unfold nothing in E. cbn [map In] in E. repeat (destruct E as [E|E]; [rewrite <- E in R; vm_compute in R; discriminate R|]). contradiction. }
  destruct (set_int r (GInt z) z eq_refl eq_refl) as [I1 I2]. destruct (set_int r (GStr t) z N) as [T1 T2]; [cbn [RatModel.to_int]; rewrite R; reflexivity|]. split; intros H; split; auto.
Qed.
Example C150_integers_hyp : set_value None (GStr (txt "  3")) = (None, Some 3) /\ set_value (Some 2) (GStr (txt "-1 ")) = (Some ValueError, Some 2).
Proof. vm_compute. split; reflexivity. Qed.

(** None and the texts that stand for nothing take the rating away. *)
Theorem C150_nothing r t : set_value r GNone = (None, None) /\ (nothing t -> set_value r (GStr t) = (None, None)).
Proof. split; [reflexivity|]. intros N. unfold set_value, validate_value. cbn [is_null]. apply null_iff in N. rewrite N. reflexivity. Qed.
Example C150_nothing_hyp : nothing (txt "NULL").
Proof. unfold nothing. cbn. tauto. Qed.

(** A text that has something else in it than digits, signs and blanks is refused, if it does not stand for nothing. *)
Theorem C150_other_texts r t c : In c t -> is_digit c = false -> is_space c = false -> c <> "+"%char -> c <> "-"%char -> ~ nothing t -> set_value r (GStr t) = (Some ValueError, r).
Proof.
  intros I D W P M N. assert (E : existsb (text_eqb t) null_texts = false) by (destruct (existsb _ _) eqn:E; [apply null_iff in E; contradiction|reflexivity]).
  unfold set_value, validate_value. cbn [is_null RatModel.to_int]. rewrite E.
  assert (Is : In c (strip t)).
  { assert (L : forall s, In c s -> In c (lstrip s)) by (induction s as [|a s IH]; intros J; [exact J|]; cbn [lstrip]; destruct (is_space a) eqn:Wa; [destruct J as [-> |J]; [congruence|exact (IH J)]|exact J]).
    unfold strip, rstrip. apply in_rev. rewrite rev_involutive. apply L. apply -> in_rev. apply L. exact I. }
  replace (read_int t) with (@None Z); [reflexivity|]. symmetry. unfold read_int. destruct (strip t) as [|a s]; [contradiction|]. cbn [read_sign].
  assert (F : forall s, In c s -> (nonempty s && forallb is_digit s) = false). { intros s0 J. apply andb_false_iff. right. apply not_true_iff_false. intros F. rewrite forallb_forall in F. rewrite (F c J) in D. discriminate D. }
  destruct (Ascii.eqb_spec a "-") as [-> |Na]; [destruct Is as [Is|Is]; [congruence|rewrite (F s Is); reflexivity]|]. destruct (Ascii.eqb_spec a "+") as [-> |Na']; [destruct Is as [Is|Is]; [congruence|rewrite (F s Is); reflexivity]|]. rewrite (F (a :: s) Is). reflexivity.
Qed.
Example C150_other_texts_hyp : set_value (Some 1) (GStr (txt "4.0")) = (Some ValueError, Some 1) /\ ~ nothing (txt "4.0").
Proof. split; [vm_compute; reflexivity|]. intros N. unfold nothing in N. cbn in N. repeat (destruct N as [N|N]; [discriminate N|]). contradiction. Qed.

(** Floats are cut off towards zero: those between -1 and 6 are taken, the others refused; nan is refused and the infinite ones raise another error. *)
Theorem C150_floats r q : (forall z, cut_off q z -> (0 <= z <= 5 -> set_value r (GFloat q) = (None, Some z)) /\ (~ 0 <= z <= 5 -> set_value r (GFloat q) = (Some ValueError, r))) /\
  ((exists z, set_value r (GFloat q) = (None, Some z)) <-> (-1 < q < 6)%Q) /\ set_value r GNan = (Some ValueError, r) /\ set_value r GInf = (Some OverflowError, r).
Proof.
  destruct (set_int r (GFloat q) (py_int q) eq_refl eq_refl) as [A B]. split; [|split; [|split; reflexivity]].
  - intros z C. rewrite (cut_unique q z (py_int q) C (cut_py q)). split; assumption.
  - pose proof (cut_py q) as C. set (z := py_int q) in *. split.
    + intros (z' & E). assert (R : 0 <= z <= 5). { destruct (Z_le_dec 0 z); [destruct (Z_le_dec z 5); [lia|]|]; rewrite B in E by lia; discriminate E. }
      destruct C as [(C1 & C2 & C3)|(C1 & C2 & C3)].
      * split; [lra|]. apply (Qlt_le_trans _ _ _ C3). change 6%Q with (inject_Z 6). rewrite <- Zle_Qle. lia.
      * split; [|lra]. apply (Qle_lt_trans _ (inject_Z (z - 1))); [change (-1)%Q with (inject_Z (-1)); rewrite <- Zle_Qle; lia|exact C2].
    + intros [L H]. exists z. apply A. destruct C as [(C1 & C2 & C3)|(C1 & C2 & C3)].
      * assert (X : (inject_Z z < inject_Z 6)%Q) by (change (inject_Z 6) with 6%Q; lra). assert (Y : (inject_Z 0 < inject_Z (z + 1))%Q) by (change (inject_Z 0) with 0%Q; lra). apply zq_lt in X, Y. lia.
      * assert (X : (inject_Z (z - 1) < inject_Z 0)%Q) by (change (inject_Z 0) with 0%Q; lra). assert (Y : (inject_Z (-1) < inject_Z z)%Q) by (change (inject_Z (-1)) with (-1)%Q; lra). apply zq_lt in X, Y. lia.
Qed.
Example C150_floats_hyp : cut_off (47 # 10) 4 /\ set_value None (GFloat (47 # 10)) = (None, Some 4) /\ set_value (Some 2) (GFloat (61 # 10)) = (Some ValueError, Some 2).
Proof. split; [left; vm_compute; repeat split; discriminate|]. vm_compute. split; reflexivity. Qed.

(** Not so: that numbers below 0 or above 5 are refused. *)
Theorem C150_outside_refuted : ~ (forall r q z, set_value r (GFloat q) = (None, Some z) -> (0 <= q <= 5)%Q).
Proof. intros A. destruct (A None (- (1 # 2))%Q 0) as [X _]; [vm_compute; reflexivity|]. vm_compute in X. apply X. reflexivity. Qed.
(** Not so: that a number is taken as its text is. *)
Theorem C150_text_refuted : ~ (forall r q, set_value r (GFloat q) = set_value r (GStr (show_fixed 1 q))).
Proof. intros A. specialize (A None 4%Q). vm_compute in A. discriminate A. Qed.
(** Not so: that what is refused is refused as an invalid value. *)
Theorem C150_invalid_refuted : ~ (forall r v e r', set_value r v = (Some e, r') -> e = ValueError).
Proof. intros A. specialize (A None GInf OverflowError None eq_refl). discriminate A. Qed.

Print Assumptions C150_integers.
Print Assumptions C150_floats.
Print Assumptions C150_other_texts.
