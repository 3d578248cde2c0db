(** The text of a float has no white space. *)
From Verif Require Import PyBase PyText TextFacts PyNum IsoModel IsoProofs PyFloat PyFloatFacts PySci PySciFacts PyRepr PyReprFacts.
Local Open Scope list_scope.

Definition dense (s : text) : bool := forallb (fun c => negb (is_space c)) s.
Lemma dense_app a b : dense (a ++ b) = (dense a && dense b)%bool.
Proof. apply forallb_app. Qed.
Lemma digits_dense s : forallb is_digit s = true -> dense s = true.
Proof. intros H. apply forallb_forall. intros c I. rewrite forallb_forall in H. specialize (H c I). apply negb_true_iff. destruct (num_char_not c) as [S0 _]; [unfold num_char; rewrite H; reflexivity|exact S0]. Qed.
Lemma zeros_dense k : dense (zeros k) = true.
Proof. induction k; [reflexivity|exact IHk]. Qed.
Lemma firstn_skipn_dense n s : dense s = true -> dense (firstn n s) = true /\ dense (skipn n s) = true.
Proof. intros H. rewrite <- (firstn_skipn n s), dense_app in H. apply andb_prop in H. exact H. Qed.
Lemma sci_exp_dense e : dense (sci_exp_text e) = true.
Proof.
  unfold sci_exp_text. rewrite !dense_app. apply andb_true_intro. split; [reflexivity|]. apply andb_true_intro. split; [destruct (e <? 0)%Z; reflexivity|]. apply digits_dense. destruct (Z.abs e <? 100)%Z; [apply pad_digits|apply show_nat_digits; lia].
Qed.
Lemma place_point_dense d p : dense d = true -> dense (place_point d p) = true.
Proof.
  intros H. unfold place_point. destruct ((-4 <? p)%Z && (p <=? 16)%Z)%bool.
  - destruct (p <=? 0)%Z; [rewrite !dense_app, zeros_dense, H; reflexivity|]. destruct (p <? _)%Z.
    + destruct (firstn_skipn_dense (Z.to_nat p) d H) as [A B]. rewrite dense_app, A. exact B.
    + rewrite !dense_app, zeros_dense, H. reflexivity.
  - cbv zeta. rewrite dense_app, sci_exp_dense, andb_true_r. destruct d as [|c [|c2 r]]; [reflexivity|exact H|]. unfold dense in *. cbn [forallb] in *. exact H.
Qed.
Lemma strip_zeros_nonneg fuel : forall m, (0 <= m)%Z -> (0 <= fst (strip_zeros fuel m))%Z.
Proof.
  induction fuel as [|fuel IH]; intros m H; [exact H|]. cbn [strip_zeros]. destruct (m mod 10 =? 0)%Z; [|exact H]. pose proof (IH (m / 10)%Z ltac:(apply Z.div_pos; lia)) as X. destruct (strip_zeros fuel (m / 10)) as [a k]. exact X.
Qed.
Lemma show_float_dense q : dense (show_float q) = true.
Proof.
  unfold show_float. cbv zeta. destruct (Qnum (Qred q) =? 0)%Z; [reflexivity|]. destruct (decimals (Qred q)) as [k|]; [|reflexivity].
  set (m := (Z.abs _ * _)%Z). assert (M : (0 <= m)%Z) by (apply Z.mul_nonneg_nonneg; [lia|apply Z.div_pos; [apply Z.pow_nonneg; lia|lia]]).
  pose proof (strip_zeros_nonneg (Z.to_nat (Z.log2 m)) m M) as X. destruct (strip_zeros _ m) as [a z]. cbn [fst] in X.
  pose proof (place_point_dense (show_nat a) (Z.of_nat (List.length (show_nat a)) + Z.of_nat z - Z.of_nat k) (digits_dense _ (show_nat_digits a X))) as P. destruct (Qnum (Qred q) <? 0)%Z; exact P.
Qed.
Lemma show_float_ne q : decimal q -> show_float q <> [].
Proof. intros D E. destruct (read_show_float q D) as (v & R & _). rewrite E in R. discriminate R. Qed.
