From Coq Require Import Reals Lra.
From Verif Require Import PyBase PyText TextFacts PyNum PySort FdsnModel FdsnSpec.

Local Open Scope R_scope.

(** *** angles *)
Lemma abs_cos_shift x k : Rabs (cos (x + IZR k * PI)) = Rabs (cos x).
Proof.
  revert k. apply Z.peano_ind.
  - now rewrite Rmult_0_l, Rplus_0_r.
  - intros k IH. rewrite succ_IZR. replace (x + (IZR k + 1) * PI) with ((x + IZR k * PI) + PI) by ring.
    rewrite neg_cos, Rabs_Ropp. exact IH.
  - intros k IH. rewrite <- IH. rewrite <- (Z.succ_pred k) at 2. rewrite succ_IZR.
    replace (x + (IZR (Z.pred k) + 1) * PI) with ((x + IZR (Z.pred k) * PI) + PI) by ring.
    now rewrite neg_cos, Rabs_Ropp.
Qed.
Lemma value_mod a : Rabs (cos (deg2rad (mod360 a))) = angle a.
Proof.
  unfold angle, mod360, deg2rad. set (n := Int_part (a / 360)).
  rewrite <- (abs_cos_shift (a * (PI / 180)) (-2 * n)). f_equal. f_equal. rewrite mult_IZR. field.
Qed.
Lemma angle_shift a k : angle (a + 180 * IZR k) = angle a.
Proof.
  unfold angle, deg2rad. rewrite <- (abs_cos_shift (a * (PI / 180)) k). f_equal. f_equal. field.
Qed.
Lemma angle_opp a : angle (- a) = angle a.
Proof. unfold angle, deg2rad. now rewrite Ropp_mult_distr_l_reverse, cos_neg. Qed.
Lemma angle_line a t : line_angle a t -> angle a = angle t.
Proof.
  intros (_ & k & [-> | ->]).
  - rewrite Rplus_comm. apply angle_shift.
  - replace (180 * IZR k - t) with (- t + 180 * IZR k) by ring. rewrite angle_shift. apply angle_opp.
Qed.
Lemma deg2rad_range t : 0 <= t <= 90 -> 0 <= deg2rad t <= PI / 2.
Proof. unfold deg2rad. pose proof PI_RGT_0. intros H0. split; [apply Rmult_le_pos; Lra.lra|]. Lra.nra. Qed.
Lemma angle_cos t : 0 <= t <= 90 -> angle t = cos (deg2rad t).
Proof.
  intros H. unfold angle. apply Rabs_pos_eq. apply cos_ge_0; pose proof (deg2rad_range t H); pose proof PI_RGT_0; Lra.lra.
Qed.
Lemma angle_lt s t : 0 <= s <= 90 -> 0 <= t <= 90 -> angle s < angle t <-> t < s.
Proof.
  intros S T. rewrite !angle_cos by assumption. pose proof (deg2rad_range s S). pose proof (deg2rad_range t T). pose proof PI_RGT_0.
  split; intros L.
  - apply cos_decreasing_0 in L; try Lra.lra. unfold deg2rad in L. apply Rmult_lt_reg_r in L; Lra.lra.
  - apply cos_decreasing_1; try Lra.lra. unfold deg2rad. apply Rmult_lt_compat_r; Lra.lra.
Qed.
Lemma angle_le s t : 0 <= s <= 90 -> 0 <= t <= 90 -> angle s <= angle t <-> t <= s.
Proof.
  intros S T. split; intros L.
  - apply Rnot_lt_le. intros C. apply (angle_lt t s T S) in C. Lra.lra.
  - apply Rnot_lt_le. intros C. apply (angle_lt t s T S) in C. Lra.lra.
Qed.
Lemma angle_105 : angle 105 = angle 75.
Proof.
  replace 105 with (- (75) + 180 * IZR 1) by Lra.lra. rewrite angle_shift. apply angle_opp.
Qed.
Lemma line_angle_exists a : exists t, line_angle a t.
Proof.
  set (n := Int_part (a / 180)). destruct (base_Int_part (a / 180)) as [B1 B2]. fold n in B1, B2.
  set (r := a - 180 * IZR n).
  assert (R1 : 0 <= r < 180) by (unfold r; split; Lra.lra).
  destruct (Rle_dec r 90) as [L|L].
  - exists r. split; [Lra.lra|]. exists n. left. unfold r. ring.
  - exists (180 - r). split; [Lra.lra|]. exists (n + 1)%Z. right. rewrite plus_IZR. unfold r. ring.
Qed.
Lemma rleb_true a b : a <= b -> rleb a b = true.
Proof. intros. unfold rleb. destruct (Rle_dec a b); [reflexivity|contradiction]. Qed.
Lemma rleb_false a b : b < a -> rleb a b = false.
Proof. intros. unfold rleb. destruct (Rle_dec a b); [Lra.lra|reflexivity]. Qed.
Lemma rltb_true a b : a < b -> rltb a b = true.
Proof. intros. unfold rltb. destruct (Rlt_dec a b); [reflexivity|contradiction]. Qed.

Lemma horizontal_code a t : line_angle a t ->
  code_of_azimuth a Horizontal =
  Some (if Rle_dec t 15 then "N" else if Rle_dec t 45 then "1" else if Rlt_dec t 75 then "2" else "E")%char.
Proof.
  intros H. pose proof (proj1 H) as T. unfold code_of_azimuth. rewrite value_mod, (angle_line a t H), angle_105.
  destruct (Rle_dec t 15) as [L|L].
  - rewrite rleb_true by (apply angle_le; Lra.lra). reflexivity.
  - rewrite rleb_false by (apply angle_lt; Lra.lra).
    destruct (Rle_dec t 45) as [L2|L2].
    + rewrite rleb_false by (apply angle_lt; Lra.lra). rewrite rltb_true by (apply angle_lt; Lra.lra).
      rewrite rleb_true by (apply angle_le; Lra.lra). reflexivity.
    + destruct (Rlt_dec t 75) as [L3|L3].
      * rewrite (rleb_false (angle t) (angle 75)) by (apply angle_lt; Lra.lra).
        rewrite rltb_true by (apply angle_lt; Lra.lra). rewrite (rleb_false (angle 45)) by (apply angle_lt; Lra.lra).
        rewrite rltb_true by (apply angle_lt; Lra.lra). rewrite rleb_true by (apply angle_le; Lra.lra). reflexivity.
      * rewrite rleb_true by (apply angle_le; Lra.lra). reflexivity.
Qed.
Lemma vertical_code a t : line_angle a t ->
  code_of_azimuth a Vertical = Some (if Rle_dec t 15 then "Z" else "3")%char.
Proof.
  intros H. pose proof (proj1 H) as T. unfold code_of_azimuth. rewrite value_mod, (angle_line a t H).
  destruct (Rle_dec t 15) as [L|L].
  - now rewrite rleb_true by (apply angle_le; Lra.lra).
  - now rewrite rleb_false by (apply angle_lt; Lra.lra).
Qed.

(** *** rates *)
Local Open Scope Q_scope.
Definition sorted_table : list (ascii * (Q * Q)) :=
  [ ("B"%char, (inject_Z 10, inject_Z 80)); ("C"%char, (inject_Z 250, inject_Z 1000));
    ("D"%char, (inject_Z 250, inject_Z 1000)); ("E"%char, (inject_Z 80, inject_Z 250));
    ("F"%char, (inject_Z 1000, inject_Z 5000)); ("G"%char, (inject_Z 1000, inject_Z 5000));
    ("H"%char, (inject_Z 80, inject_Z 250)); ("L"%char, (95 # 100, 105 # 100));
    ("M"%char, (inject_Z 1, inject_Z 10)); ("P"%char, (1 # 100000, 1 # 10000)); ("Q"%char, (0, 1 # 1000000));
    ("R"%char, (1 # 10000, 1 # 1000)); ("S"%char, (inject_Z 10, inject_Z 80)); ("T"%char, (1 # 1000000, 1 # 100000));
    ("U"%char, (95 # 10000, 105 # 10000)); ("V"%char, (95 # 1000, 105 # 1000)) ].
Lemma sorted_codes_eq : sorted_codes = sorted_table.
Proof. vm_compute. reflexivity. Qed.
Lemma in_band_iff b r : in_band b r = true <-> fst b <= r /\ r <= snd b.
Proof. unfold in_band. rewrite andb_true_iff, !Qle_bool_iff. reflexivity. Qed.
Lemma in_band_not b r : in_band b r = false <-> r < fst b \/ snd b < r.
Proof.
  rewrite <- not_true_iff_false, in_band_iff. split.
  - intros H. destruct (Qlt_le_dec r (fst b)); [auto|]. destruct (Qlt_le_dec (snd b) r); [auto|]. tauto.
  - intros [H|H] [A B]; lra.
Qed.
Ltac bands := unfold first_band, sorted_table;
  repeat match goal with
  | |- context [in_band ?b ?r] =>
      let E := fresh "E" in destruct (in_band b r) eqn:E;
      [apply in_band_iff in E|apply in_band_not in E]; cbn [fst snd] in E
  end.
Lemma first_band_in l r c : first_band l r = c -> c <> "A"%char -> exists b, In (c, b) l /\ fst b <= r <= snd b.
Proof.
  induction l as [|(k & b) l IH]; cbn [first_band]; intros H N; [congruence|].
  destruct (in_band b r) eqn:E.
  - subst k. apply in_band_iff in E. exists b. split; [now left|exact E].
  - destruct (IH H N) as (b' & I & B). exists b'. split; [now right|exact B].
Qed.
Lemma first_band_skip k b l r : (r < fst b \/ snd b < r) -> first_band ((k, b) :: l) r = first_band l r.
Proof. intros H. cbn [first_band]. apply in_band_not in H. now rewrite H. Qed.
Lemma first_band_hit k b l r : fst b <= r -> r <= snd b -> first_band ((k, b) :: l) r = k.
Proof. intros A B. cbn [first_band]. assert (H : in_band b r = true) by (apply in_band_iff; auto). now rewrite H. Qed.
Ltac walk := unfold get_period_code; rewrite sorted_codes_eq; unfold sorted_table;
  unfold inject_Z in *;
  repeat first [ rewrite first_band_skip by (cbn [fst snd]; first [left; lra|right; lra])
               | rewrite first_band_hit by (cbn [fst snd]; lra) ]; try reflexivity.
Lemma letter_of_rate c r : rate_of_letter c r -> get_period_code r = c.
Proof.
  unfold rate_of_letter. intros H.
  repeat match type of H with _ \/ _ => destruct H as [(-> & H)|H] end; try (walk; fail).
  destruct H as (-> & H). walk.
Qed.
Lemma letter_of_uncovered r : uncovered r -> get_period_code r = "A"%char.
Proof.
  unfold uncovered. intros H.
  repeat match type of H with _ \/ _ => destruct H as [H|H] end; walk.
Qed.
Lemma rate_cases r : uncovered r \/ exists c, rate_of_letter c r.
Proof.
  unfold uncovered, rate_of_letter, inject_Z.
  destruct (Qlt_le_dec r 0); [left; auto|].
  destruct (Qlt_le_dec (1 # 1000000) r); [|right; exists "Q"%char; left; split; [reflexivity|lra]].
  destruct (Qlt_le_dec r (1 # 100000)); [right; exists "T"%char; right; left; split; [reflexivity|lra]|].
  destruct (Qlt_le_dec (1 # 10000) r); [|right; exists "P"%char; do 2 right; left; split; [reflexivity|lra]].
  destruct (Qlt_le_dec (1 # 1000) r); [|right; exists "R"%char; do 3 right; left; split; [reflexivity|lra]].
  destruct (Qlt_le_dec r (95 # 10000)); [left; right; left; lra|].
  destruct (Qlt_le_dec (105 # 10000) r); [|right; exists "U"%char; do 4 right; left; split; [reflexivity|lra]].
  destruct (Qlt_le_dec r (95 # 1000)); [left; do 2 right; left; lra|].
  destruct (Qlt_le_dec (105 # 1000) r); [|right; exists "V"%char; do 5 right; left; split; [reflexivity|lra]].
  destruct (Qlt_le_dec r (95 # 100)); [left; do 3 right; left; lra|].
  destruct (Qlt_le_dec (105 # 100) r); [|right; exists "L"%char; do 6 right; left; split; [reflexivity|lra]].
  destruct (Qlt_le_dec r (10 # 1)); [right; exists "M"%char; do 7 right; left; split; [reflexivity|lra]|].
  destruct (Qlt_le_dec (80 # 1) r); [|right; exists "B"%char; do 8 right; left; split; [reflexivity|lra]].
  destruct (Qlt_le_dec r (250 # 1)); [right; exists "E"%char; do 9 right; left; split; [reflexivity|lra]|].
  destruct (Qlt_le_dec (1000 # 1) r); [|right; exists "C"%char; do 10 right; left; split; [reflexivity|lra]].
  destruct (Qlt_le_dec (5000 # 1) r); [left; do 4 right; lra|right; exists "F"%char; do 11 right; split; [reflexivity|lra]].
Qed.
Lemma letter_not_A c r : rate_of_letter c r -> c <> "A"%char.
Proof.
  unfold rate_of_letter. intros H ->. repeat match type of H with _ \/ _ => destruct H as [(C & _)|H]; [discriminate|] end.
  destruct H as (C & _). discriminate.
Qed.
Lemma band_in_dict c b : In (c, b) sorted_codes -> dget ascii_dec c period_code_dict = Some b.
Proof.
  rewrite sorted_codes_eq. intros H.
  repeat (destruct H as [H|H]; [injection H as <- <-; reflexivity|]). destruct H.
Qed.

(** *** measurements *)
Lemma measurement_round_trip m name : lower m = name -> In name measurements ->
  exists c, get_measurement_code m = c /\ dget ascii_dec c measurement_code_dict_reverse = Some name
  /\ text_eqb name (txt "tide") = false.
Proof.
  intros E I. unfold get_measurement_code. rewrite E.
  unfold measurements in I.
  repeat (destruct I as [<-|I]; [eexists; split; [reflexivity|]; split; vm_compute; reflexivity|]). destruct I.
Qed.
