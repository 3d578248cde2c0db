From Coq Require Import Qabs Qpower.
From Verif Require Import PyBase PyText TextFacts PyNum IsoModel IsoProofs PyFloat PyFloatFacts LocationModel LocationSpec.
Local Open Scope Q_scope.

Lemma Qfloor_unique q z : inject_Z z <= q -> q < inject_Z (z + 1) -> Qfloor q = z.
Proof.
  intros A B. pose proof (Qfloor_le q) as C. pose proof (Qlt_floor q) as D.
  assert (inject_Z z < inject_Z (Qfloor q + 1)) by lra. assert (inject_Z (Qfloor q) < inject_Z (z + 1)) by lra.
  rewrite <- Zlt_Qlt in *. lia.
Qed.
Lemma Qfloor_plus q z : Qfloor (q + inject_Z z) = (Qfloor q + z)%Z.
Proof.
  pose proof (Qfloor_le q) as C. pose proof (Qlt_floor q) as D.
  apply Qfloor_unique; rewrite !inject_Z_plus in *; lra.
Qed.
Lemma round_half_even_shift q z : Z.even z = true ->
  round_half_even (q + inject_Z z) = (round_half_even q + z)%Z.
Proof.
  intros E. unfold round_half_even. rewrite Qfloor_plus.
  assert (Q1 : q + inject_Z z - inject_Z (Qfloor q + z) == q - inject_Z (Qfloor q)) by (rewrite inject_Z_plus; ring).
  rewrite Q1. rewrite Z.even_add, E. destruct (Qcompare _ _); destruct (Z.even (Qfloor q)); cbn; lia.
Qed.

Lemma py_int_pos q : 0 <= q -> py_int q = Qfloor q.
Proof. intros H. unfold py_int. now apply Qle_bool_iff in H as ->. Qed.
Lemma py_int_neg q : q < 0 -> py_int q = (- Qfloor (- q))%Z.
Proof.
  intros H. unfold py_int. destruct (Qle_bool 0 q) eqn:E; [apply Qle_bool_iff in E; lra|reflexivity].
Qed.
Lemma py_int_abs q : Z.abs (py_int q) = Qfloor (Qabs q).
Proof.
  destruct (Qlt_le_dec q 0) as [N|N].
  - rewrite py_int_neg by assumption. rewrite (Qabs_neg q) by lra. rewrite Z.abs_opp. apply Z.abs_eq.
    change 0%Z with (Qfloor 0). apply Qfloor_resp_le. lra.
  - rewrite py_int_pos by assumption. rewrite (Qabs_pos q) by assumption. apply Z.abs_eq.
    change 0%Z with (Qfloor 0). apply Qfloor_resp_le. lra.
Qed.
Lemma py_int_sign q : (py_int q <? 0)%Z = true <-> q <= inject_Z (-1).
Proof.
  rewrite Z.ltb_lt. destruct (Qlt_le_dec q 0) as [N|N].
  - rewrite py_int_neg by assumption. split; intros H.
    + pose proof (Qfloor_le (- q)) as L. assert (G : inject_Z 1 <= inject_Z (Qfloor (- q))) by (rewrite <- Zle_Qle; lia).
      change (inject_Z (-1)) with (- inject_Z 1). lra.
    + assert (G : (Qfloor (inject_Z 1) <= Qfloor (- q))%Z).
      { apply Qfloor_resp_le. change (inject_Z (-1)) with (- inject_Z 1) in H. lra. }
      rewrite Qfloor_Z in G. lia.
  - rewrite py_int_pos by assumption. split; intros H.
    + assert (G : (Qfloor 0 <= Qfloor q)%Z) by now apply Qfloor_resp_le. change (Qfloor 0) with 0%Z in G. lia.
    + change (inject_Z (-1)) with (- inject_Z 1) in H. change (inject_Z 1) with 1 in H. lra.
Qed.

(** The parts written add up to the nearest multiple of a ten-thousandth of a second. *)
Lemma dms_parts_spec q sign deg m s : dms_parts q = (sign, deg, m, s) ->
  (sign = if py_int q <? 0 then -1 else 1)%Z /\ (0 <= deg)%Z /\ (0 <= m < 60)%Z /\ (0 <= s < 600000)%Z
  /\ (deg * 36000000 + m * 600000 + s = round_half_even (Qabs q * inject_Z 36000000))%Z.
Proof.
  unfold dms_parts. rewrite py_int_abs. set (a := Qabs q). assert (A : 0 <= a) by apply Qabs_nonneg.
  set (D := Qfloor a). pose proof (Qfloor_le a) as D1. pose proof (Qlt_floor a) as D2. fold D in D1, D2.
  rewrite inject_Z_plus in D2. change (inject_Z 1) with 1 in D2.
  assert (DP : (0 <= D)%Z) by (change 0%Z with (Qfloor 0); now apply Qfloor_resp_le).
  set (M := (a - inject_Z D) * inject_Z 60). assert (M1 : 0 <= M < inject_Z 60) by (unfold M; split; change (inject_Z 60) with (60#1); lra).
  rewrite (py_int_pos M) by tauto. set (mi := Qfloor M).
  pose proof (Qfloor_le M) as F1. pose proof (Qlt_floor M) as F2. fold mi in F1, F2.
  assert (MI : (0 <= mi < 60)%Z).
  { split; [change 0%Z with (Qfloor 0); now apply Qfloor_resp_le|].
    rewrite Zlt_Qlt. lra. }
  rewrite inject_Z_plus in F2. change (inject_Z 1) with 1 in F2.
  set (x := (M - inject_Z mi) * inject_Z 60 * inject_Z 10000). set (R := round_half_even x).
  assert (XE : x == (M - inject_Z mi) * inject_Z 600000) by (unfold x; change (inject_Z 60) with (60#1); change (inject_Z 10000) with (10000#1); change (inject_Z 600000) with (600000#1); ring).
  assert (XB : 0 <= x /\ x <= inject_Z 600000) by (rewrite XE; change (inject_Z 600000) with (600000#1); split; lra).
  assert (RB : (0 <= R <= 600000)%Z).
  { unfold R. rewrite <- (round_half_even_Z 0), <- (round_half_even_Z 600000).
    split; apply round_half_even_mono; tauto. }
  assert (T : round_half_even (a * inject_Z 36000000) = (R + (D * 36000000 + mi * 600000))%Z).
  { unfold R. rewrite <- round_half_even_shift.
    - apply round_half_even_comp. rewrite XE, inject_Z_plus, !inject_Z_mult. unfold M.
      change (inject_Z 60) with (60#1); change (inject_Z 600000) with (600000#1); change (inject_Z 36000000) with (36000000#1). ring.
    - replace (D * 36000000 + mi * 600000)%Z with (2 * (D * 18000000 + mi * 300000))%Z by ring.
      rewrite Z.even_mul. reflexivity. }
  rewrite T. clearbody R. clear T XE XB.
  destruct (Z.leb_spec 600000 R) as [L|L].
  - assert (R = 600000)%Z by lia. subst R.
    assert (I : py_int (M + 1) = (mi + 1)%Z).
    { rewrite py_int_pos by lra. change (M + 1) with (M + inject_Z 1). apply Qfloor_plus. }
    rewrite I. destruct (Z.eqb_spec (mi + 1) 60) as [E|E]; intros H.
    + injection H as <- <- <- <-. change (py_int 0) with 0%Z. repeat split; lia.
    + rewrite I in H. injection H as <- <- <- <-. repeat split; lia.
  - rewrite (py_int_pos M) by tauto. fold mi. destruct (Z.eqb_spec mi 60) as [E|E]; intros H; [lia|].
    rewrite (py_int_pos M) in H by tauto. fold mi in H. injection H as <- <- <- <-. repeat split; lia.
Qed.

(** What the text of a position is read as. *)
Lemma float2str_read q sign deg m s : dms_parts q = (sign, deg, m, s) ->
  exists v, str2float (float2str q) = Ok (Fin v)
  /\ v == inject_Z (if (sign * deg <? 0)%Z then -1 else 1) * (inject_Z (deg * 36000000 + m * 600000 + s) / inject_Z 36000000)
  /\ proper_dms (float2str q).
Proof.
  intros E. destruct (dms_parts_spec _ _ _ _ _ E) as (SG & D & M & S & _).
  assert (Sg : sign = 1%Z \/ sign = (-1)%Z) by (rewrite SG; destruct (py_int q <? 0)%Z; auto).
  unfold float2str. rewrite E.
  pose proof (show_int_chars (sign * deg)) as C1. pose proof (digits_num_char _ (pad_digits 2 m)) as C2.
  pose proof (show_scaled_chars 6 (s * 100)) as C3.
  apply (num_chars_no ":"%char) in C1; [|reflexivity]. apply (num_chars_no ":"%char) in C2; [|reflexivity].
  apply (num_chars_no ":"%char) in C3; [|reflexivity].
  destruct (read_show_int (sign * deg)) as (dv & R1 & V1).
  destruct (read_pad 2 m ltac:(lia)) as (mv & R2 & V2); [change (10 ^ Z.of_nat 2)%Z with 100%Z; lia|].
  destruct (read_show_scaled 6 (s * 100)) as (cv & R3 & V3).
  change (inject_Z (10 ^ Z.of_nat 6)) with (1000000 # 1) in V3.
  exists (inject_Z (if (sign * deg <? 0)%Z then -1 else 1) * (Qabs dv + mv / inject_Z 60 + cv / inject_Z 3600)).
  split; [|split].
  - unfold str2float.
    destruct (text_eqb _ (txt "None")) eqn:N.
    { exfalso. apply text_eqb_eq in N. apply (f_equal (fun l => has_char ":" l)) in N.
      change (has_char ":" (txt "None")) with false in N. apply has_char_notIn in N. apply N. apply in_or_app. right. now left. }
    rewrite (split_on_app ":" _ _ C1), (split_on_app ":" _ _ C2), (split_on_no ":" _ C3).
    rewrite R1, R2, R3. unfold num_add3, deg_negative. do 4 f_equal.
    destruct (Qle_bool 0 dv) eqn:B; cbn [negb].
    + apply Qle_bool_iff in B. rewrite V1 in B. change 0 with (inject_Z 0) in B. rewrite <- Zle_Qle in B.
      destruct (Z.ltb_spec (sign * deg) 0); [lia|reflexivity].
    + destruct (Z.ltb_spec (sign * deg) 0) as [|L]; [reflexivity|]. exfalso.
      assert (0 <= dv) by (rewrite V1; change 0 with (inject_Z 0); rewrite <- Zle_Qle; lia).
      apply Qle_bool_iff in H. congruence.
  - rewrite V1, V2, V3. apply Qmult_comp; [reflexivity|].
    assert (AB : Qabs (inject_Z (sign * deg)) == inject_Z deg).
    { rewrite <- (Z.abs_eq deg D) at 2. destruct Sg as [-> | ->].
      - rewrite Z.mul_1_l. reflexivity.
      - replace (-1 * deg)%Z with (- deg)%Z by lia. rewrite inject_Z_opp, Qabs_opp. reflexivity. }
    rewrite AB. rewrite !inject_Z_plus, !inject_Z_mult.
    change (inject_Z 60) with (60#1); change (inject_Z 3600) with (3600#1); change (inject_Z 600000) with (600000#1);
    change (inject_Z 36000000) with (36000000#1); change (inject_Z 100) with (100#1). field.
  - exists (show_int (sign * deg)), (pad 2 m), (show_scaled 6 (s * 100)), dv, mv, cv.
    split; [reflexivity|]. do 6 (split; [assumption|]).
    split; [now exists (sign * deg)%Z|]. split; [now exists m|].
    split; [split; rewrite V2; [change 0 with (inject_Z 0); rewrite <- Zle_Qle; lia|rewrite <- Zlt_Qlt; lia]|].
    rewrite V3. assert (S1 : 0 <= inject_Z s) by (change 0 with (inject_Z 0); rewrite <- Zle_Qle; lia).
    assert (S2 : inject_Z s < inject_Z 600000) by (rewrite <- Zlt_Qlt; lia).
    rewrite inject_Z_mult. change (inject_Z 100) with (100#1). change (inject_Z 60) with (60#1). change (inject_Z 600000) with (600000#1) in S2.
    assert (EQ : inject_Z s * (100 # 1) / (1000000 # 1) == inject_Z s * (1 # 10000)) by field.
    rewrite EQ. split; lra.
Qed.

(** The nearest multiple of a ten-thousandth of a second. *)
Definition nearest (q : Q) : Q := inject_Z (round_half_even (q * inject_Z 36000000)) / inject_Z 36000000.
Lemma nearest_close q : close_position (nearest q) q.
Proof.
  unfold close_position, nearest. pose proof (round_half_even_bound (q * inject_Z 36000000)) as [B1 B2].
  set (r := inject_Z (round_half_even (q * inject_Z 36000000))) in *. clearbody r.
  change (inject_Z 36000000) with (36000000 # 1) in *. change (inject_Z 3600) with (3600 # 1).
  assert (E : r / (36000000 # 1) == r * (1 # 36000000)) by field. rewrite E.
  assert (E2 : (5 # 100000) / (3600 # 1) == (1 # 72000000)) by reflexivity. rewrite E2.
  apply Qabs_Qle_condition. split; lra.
Qed.
Lemma nearest_le q z : q <= inject_Z z -> nearest q <= inject_Z z.
Proof.
  intros H. unfold nearest.
  assert (R : (round_half_even (q * inject_Z 36000000) <= z * 36000000)%Z).
  { rewrite <- (round_half_even_Z (z * 36000000)). apply round_half_even_mono. rewrite inject_Z_mult.
    change (inject_Z 36000000) with (36000000 # 1). lra. }
  rewrite Zle_Qle in R. rewrite inject_Z_mult in R.
  set (r := inject_Z (round_half_even (q * inject_Z 36000000))) in *. clearbody r.
  change (inject_Z 36000000) with (36000000 # 1) in *.
  assert (E : r / (36000000 # 1) == r * (1 # 36000000)) by field. rewrite E. lra.
Qed.
Lemma nearest_nonneg q : 0 <= q -> 0 <= nearest q.
Proof.
  intros H. unfold nearest.
  assert (R : (0 <= round_half_even (q * inject_Z 36000000))%Z).
  { rewrite <- (round_half_even_Z 0). apply round_half_even_mono. change (inject_Z 0) with 0.
    change (inject_Z 36000000) with (36000000 # 1). lra. }
  rewrite Zle_Qle in R. change (inject_Z 0) with 0 in R.
  set (r := inject_Z (round_half_even (q * inject_Z 36000000))) in *. clearbody r.
  change (inject_Z 36000000) with (36000000 # 1) in *.
  assert (E : r / (36000000 # 1) == r * (1 # 36000000)) by field. rewrite E. lra.
Qed.
#[global] Instance close_comp : Proper (Qeq ==> Qeq ==> iff) close_position.
Proof. intros a b E c d F. unfold close_position. now rewrite E, F. Qed.

Lemma round_trip q : exists v, str2float (float2str q) = Ok (Fin v)
  /\ v == (if (py_int q <? 0)%Z then -1 # 1 else 1) * nearest (Qabs q).
Proof.
  destruct (dms_parts q) as (((sign & deg) & m) & s) eqn:E.
  destruct (dms_parts_spec _ _ _ _ _ E) as (SG & D & M & S & T).
  destruct (float2str_read _ _ _ _ _ E) as (v & H & V & _). exists v. split; [assumption|].
  rewrite V. unfold nearest. rewrite <- T. rewrite SG.
  destruct (py_int q <? 0)%Z eqn:N.
  - assert (0 < deg)%Z.
    { apply py_int_sign in N.
      change (inject_Z (-1)) with (-1#1) in N.
      assert (G : 1 <= Qabs q) by (rewrite (Qabs_neg q) by lra; lra).
      assert (R : (36000000 <= round_half_even (Qabs q * inject_Z 36000000))%Z).
      { pose proof (round_half_even_Z 36000000) as RZ. etransitivity; [rewrite <- RZ; apply Z.le_refl|].
        apply round_half_even_mono.
        clear - G. set (x := Qabs q) in *. clearbody x. change (inject_Z 36000000) with (36000000 # 1). lra. }
      lia. }
    destruct (Z.ltb_spec (-1 * deg) 0); [reflexivity|lia].
  - destruct (Z.ltb_spec (1 * deg) 0); [lia|reflexivity].
Qed.
