(** C10-C13, C64: leap seconds, time comparison, parsing of numbers, time arithmetic. *)
From Verif Require Import PyBase PyNum MTimeModel MTimeSpec MTimeProofs.
Local Open Scope Z_scope.

(** *** C10 *)
(** Correct on every date of the table's span except two days. *)
Theorem C10_leap_seconds_correct_partial :
  forall (d : date) (n : Z), valid_date d ->
    ~ before d (mkDate 1980 1 1) -> before d (mkDate 2026 7 1) ->
    d <> mkDate 2012 6 30 -> d <> mkDate 2016 12 31 ->
    leaps_until d leap_days n ->
    calculate_leap_seconds (year d) (month d) (day d) = Ok n.
Proof.
  intros d n V H1 H2 H3 H4 L. pose proof (valid_inb d V) as I.
  rewrite before_enc in H1, H2 by (unfold inb; simpl; lia || assumption).
  rewrite calc_enc by assumption.
  pose proof (no_day_between d V) as [N1 N2].
  assert (E : forall y m k, inb (mkDate y m k) -> d <> mkDate y m k -> enc d <> enc (mkDate y m k)).
  { intros y m k Hi Hd He. apply Hd. destruct d as [y' m' k']. unfold enc, inb in *. simpl in *.
    assert (y' = y) by nia. subst. assert (m' = m) by nia. subst. f_equal; nia. }
  assert (E1 := E 2012 6 30 ltac:(unfold inb; simpl; lia) H3).
  assert (E2 := E 2016 12 31 ltac:(unfold inb; simpl; lia) H4).
  change (enc (mkDate 1980 1 1)) with 19800101 in H1. change (enc (mkDate 2026 7 1)) with 20260701 in H2.
  change (enc (mkDate 2012 6 30)) with 20120630 in E1. change (enc (mkDate 2016 12 31)) with 20161231 in E2.
  rewrite table_correct by lia. f_equal.
  eapply leaps_until_fun; [apply leaps_until_leap_days; assumption|exact L].
Qed.
Example C10_case : valid_date (mkDate 2015 6 30) /\ leaps_until (mkDate 2015 6 30) leap_days 16 /\
  calculate_leap_seconds 2015 6 30 = Ok 16.
Proof.
  split; [reflexivity|]. split; [|reflexivity].
  apply (leaps_until_leap_days (mkDate 2015 6 30)). unfold inb. simpl. lia.
Qed.

(** The last day before the 2012 and 2017 steps is missing from the table, and so is every date
    from 2026-07-01 on. *)
Theorem C10_total_refuted :
  calculate_leap_seconds 2012 6 30 = Err ValueError /\
  calculate_leap_seconds 2016 12 31 = Err ValueError /\
  forall d, valid_date d -> ~ before d (mkDate 2026 7 1) ->
    calculate_leap_seconds (year d) (month d) (day d) = Err ValueError.
Proof.
  split; [reflexivity|]. split; [reflexivity|]. intros d V H. pose proof (valid_inb d V) as I.
  rewrite before_enc in H by (unfold inb; simpl; lia || assumption).
  pose proof (make_date_Ok _ _ _ _ V) as (_ & Hy & Hm & Hd).
  rewrite calc_enc by assumption. apply table_outside; unfold enc in *; simpl in *; lia.
Qed.

(** Before 1980 there is no entry; invalid dates are refused. *)
Theorem C10_before_table_raises :
  forall d, valid_date d -> before d (mkDate 1980 1 1) ->
    calculate_leap_seconds (year d) (month d) (day d) = Err ValueError.
Proof.
  intros d V H. pose proof (valid_inb d V) as I.
  rewrite before_enc in H by (unfold inb; simpl; lia || assumption).
  pose proof (make_date_Ok _ _ _ _ V) as (_ & Hy & Hm & Hd).
  rewrite calc_enc by assumption. apply table_outside; unfold enc in *; simpl in *; lia.
Qed.
Example C10_before_case : valid_date (mkDate 1979 12 31) /\ before (mkDate 1979 12 31) (mkDate 1980 1 1).
Proof. split; [reflexivity|left; reflexivity]. Qed.

(** Whenever a number is returned it is the right one, so the function is monotone. *)
Theorem C10_never_wrong :
  forall (d : date) (k n : Z), valid_date d -> leaps_until d leap_days n ->
    calculate_leap_seconds (year d) (month d) (day d) = Ok k -> k = n.
Proof.
  intros d k n V L H. pose proof (valid_inb d V) as I.
  pose proof (make_date_Ok _ _ _ _ V) as (_ & Hy & Hm & Hd).
  rewrite calc_enc in H by assumption. apply table_values in H; [|unfold enc; lia]. subst k.
  eapply leaps_until_fun; [apply leaps_until_leap_days; assumption|exact L].
Qed.
Theorem C10_nondecreasing :
  forall (a b : date) (m n : Z), valid_date a -> valid_date b -> ~ before b a ->
    calculate_leap_seconds (year a) (month a) (day a) = Ok m ->
    calculate_leap_seconds (year b) (month b) (day b) = Ok n -> m <= n.
Proof.
  intros a b m n Va Vb H Ha Hb. pose proof (valid_inb a Va). pose proof (valid_inb b Vb).
  pose proof (make_date_Ok _ _ _ _ Va) as (_ & A1 & A2 & A3).
  pose proof (make_date_Ok _ _ _ _ Vb) as (_ & B1 & B2 & B3).
  rewrite before_enc in H by assumption. rewrite calc_enc in Ha, Hb by assumption.
  apply table_values in Ha; [|unfold enc; lia]. apply table_values in Hb; [|unfold enc; lia]. subst.
  apply count_mono. lia.
Qed.
Example C10_mono_case : calculate_leap_seconds 1980 1 1 = Ok 0 /\ calculate_leap_seconds 2026 6 30 = Ok 18.
Proof. split; reflexivity. Qed.

(** *** C11 *)
(** [<], [<=], [==], [!=] and [>=] agree with one total order; [>] is the same as [>=]. *)
Theorem C11_order_without_gt_partial :
  forall a b c : Z,
    (mt_le a b = true <-> mt_lt a b = true \/ mt_eq a b = true) /\
    (mt_ge a b = true <-> mt_le b a = true) /\
    (mt_ne a b = true <-> mt_eq a b = false) /\
    (mt_lt a b = true -> mt_lt b c = true -> mt_lt a c = true) /\
    (mt_le a b = true -> mt_le b a = true -> mt_eq a b = true) /\
    (mt_lt a b = true /\ mt_eq a b = false /\ mt_lt b a = false \/
     mt_lt a b = false /\ mt_eq a b = true /\ mt_lt b a = false \/
     mt_lt a b = false /\ mt_eq a b = false /\ mt_lt b a = true).
Proof.
  intros a b c. unfold mt_le, mt_lt, mt_ge, mt_ne, mt_eq.
  repeat split; intros; rewrite ?Z.leb_le, ?Z.ltb_lt, ?Z.eqb_eq, ?negb_true_iff, ?Z.eqb_neq, ?Z.ltb_ge in *; lia.
Qed.

(** Trichotomy fails: every time is greater than itself. *)
Theorem C11_trichotomy_refuted :
  forall a, mt_eq a a = true /\ mt_gt a a = true /\ mt_lt a a = false.
Proof. intros a. unfold mt_gt, mt_eq, mt_lt. rewrite Z.ltb_irrefl, Z.eqb_refl. auto. Qed.

(** [>] differs from the strict order exactly on equal times. *)
Theorem C11_gt_wrong_exactly_on_equal_times :
  forall a b, mt_gt a b = mt_ge a b /\ (mt_gt a b = mt_lt b a <-> mt_eq a b = false).
Proof.
  intros a b. unfold mt_gt, mt_ge, mt_lt, mt_eq. rewrite <- Z.leb_antisym. split; [reflexivity|].
  destruct (Z.leb_spec b a), (Z.ltb_spec b a), (Z.eqb_spec a b); split; intros; try lia; congruence.
Qed.

(** *** C12 *)
Theorem C12_parsed_number_in_range :
  forall (x : Q) (v : Z), parse_number x = Ok v -> TMIN <= v <= TMAX /\ parse_stamp v = Ok v.
Proof.
  intros x v. rewrite parse_number_unfold. destruct (from_seconds _) as [w|]; [|discriminate].
  simpl. intros H. apply parse_stamp_stored in H. split; [|now apply parse_stamp_fixed].
  assert (TMIN < TMAX) by reflexivity. unfold stored in H. lia.
Qed.
Theorem C12_parsed_stamp_in_range :
  forall (u v : Z), parse_stamp u = Ok v -> TMIN <= v <= TMAX /\ parse_stamp v = Ok v.
Proof.
  intros u v H. apply parse_stamp_stored in H. split; [|now apply parse_stamp_fixed].
  assert (TMIN < TMAX) by reflexivity. unfold stored in H. lia.
Qed.
Example C12_clamp_case : parse_stamp (TMAX + 5) = Ok TMAX /\ parse_number (10000000000 # 1) = Ok TMAX /\
  parse_number (-10000000000 # 1) = Ok TMIN /\ parse_number (3 # 2) = Ok 1500000000.
Proof. repeat split; reflexivity. Qed.

(** A number of seconds in range is stored to the nearest microsecond. *)
Theorem C12_in_range_seconds_kept :
  forall x : Q, (inject_Z (-9223372036) <= x)%Q -> (x <= inject_Z 9223372036)%Q ->
    exists v, parse_number x = Ok v /\
      (inject_Z v - inject_Z 500 <= x * inject_Z 1000000000)%Q /\
      (x * inject_Z 1000000000 <= inject_Z v + inject_Z 500)%Q.
Proof.
  intros x H1 H2. rewrite parse_number_unfold, seconds_branch.
  2:{ eapply Qle_trans; [exact H2|discriminate]. }
  destruct (from_seconds_ok x) as (v & E & B1 & B2 & M).
  - eapply Qle_trans; [|exact H1]. discriminate.
  - eapply Qle_lt_trans; [exact H2|reflexivity].
  - rewrite E. simpl. exists v. split; [|auto]. apply parse_stamp_fixed. right. right.
    change (inject_Z 1000000000) with (1000000000 # 1)%Q in *. change (inject_Z 500) with (500 # 1)%Q in *.
    change (inject_Z (-9223372036)) with (-9223372036 # 1)%Q in H1.
    change (inject_Z 9223372036) with (9223372036 # 1)%Q in H2.
    assert (U : (inject_Z v <= inject_Z 9223372036000000500)%Q).
    { change (inject_Z 9223372036000000500) with (9223372036000000500 # 1)%Q. lra. }
    assert (L : (inject_Z (-9223372036000000500) <= inject_Z v)%Q).
    { change (inject_Z (-9223372036000000500)) with (-9223372036000000500 # 1)%Q. lra. }
    rewrite <- Zle_Qle in U, L. unfold TMIN, TMAX. lia.
Qed.
Example C12_kept_case : parse_number (1579095045 # 1) = Ok 1579095045000000000.
Proof. reflexivity. Qed.

(** Monotone as long as the numbers are read as seconds ... *)
Theorem C12_monotone_seconds_partial :
  forall (x y : Q) (u v : Z), (x <= y)%Q -> (y <= inject_Z 300000000000)%Q ->
    parse_number x = Ok u -> parse_number y = Ok v -> u <= v.
Proof.
  intros x y u v H Hy. rewrite !parse_number_unfold.
  rewrite !seconds_branch by (try assumption; eapply Qle_trans; eassumption).
  destruct (from_seconds x) as [a|] eqn:Ea; [|discriminate].
  destruct (from_seconds y) as [b|] eqn:Eb; [|intros _ B; discriminate]. simpl.
  intros A B. apply (parse_stamp_mono a b u v); [exact (from_seconds_mono x y a b H Ea Eb)|exact A|exact B].
Qed.
(** ... but a larger number is read as nanoseconds and lands in 1970. *)
Theorem C12_monotone_refuted :
  exists (x y : Q) (u v : Z), (x <= y)%Q /\ parse_number x = Ok u /\ parse_number y = Ok v /\ v < u.
Proof.
  exists (10000000000 # 1)%Q, (400000000000 # 1)%Q, TMAX, 400000000000.
  repeat split; try reflexivity; vm_compute; try reflexivity; discriminate.
Qed.
(** Numbers of seconds past the year 9999 raise instead of being clamped. *)
Theorem C12_total_refuted :
  forall x : Q, (inject_Z 253402300800 <= x)%Q -> (x <= inject_Z 300000000000)%Q ->
    parse_number x = Err ValueError.
Proof.
  intros x H1 H2. rewrite parse_number_unfold, seconds_branch by assumption.
  unfold from_seconds. rewrite (proj2 (Qle_bool_iff _ _) H1). rewrite andb_false_r. reflexivity.
Qed.
(** A number above 3e11 is nanoseconds, kept to the nearest microsecond. *)
Theorem C12_nanoseconds_kept :
  forall z : Z, 300000000000 < z < TMAX - 1000 ->
    exists v, parse_number (inject_Z z) = Ok v /\ v - 500 <= z <= v + 500.
Proof.
  intros z H. rewrite parse_number_unfold, nano_branch by (rewrite <- Zlt_Qlt; lia).
  destruct (from_seconds_ok (inject_Z z / inject_Z 1000000000)) as (v & E & B1 & B2 & M).
  - apply Qle_shift_div_l; [reflexivity|]. rewrite <- inject_Z_mult, <- Zle_Qle. lia.
  - apply Qlt_shift_div_r; [reflexivity|]. rewrite <- inject_Z_mult, <- Zlt_Qlt. unfold TMAX in H. lia.
  - rewrite E. exists v.
    assert (C : (inject_Z z / inject_Z 1000000000 * inject_Z 1000000000 == inject_Z z)%Q) by (field; discriminate).
    rewrite C in B1, B2. rewrite <- inject_Z_plus in B2. unfold Qminus in B1.
    rewrite <- inject_Z_opp, <- inject_Z_plus in B1. rewrite <- Zle_Qle in B1, B2.
    split; [|lia]. simpl. apply parse_stamp_fixed. right. right. unfold TMIN, TMAX in *. lia.
Qed.
Example C12_nano_case : parse_number (inject_Z 1579095045123456789) = Ok 1579095045123457000.
Proof. vm_compute. reflexivity. Qed.

(** *** C13 *)
(** For durations of whole microseconds, addition, subtraction and difference are inverse. *)
Theorem C13_add_subtract_partial :
  forall t d : Z, parse_stamp t = Ok t -> d mod 1000 = 0 -> TMIN < t < TMAX -> TMIN < t + d < TMAX ->
    mt_add t d = Ok (t + d) /\ mt_sub_delta (t + d) d = Ok t /\
    exists q, mt_diff (t + d) t = Ok q /\ (q == d # 1000000000)%Q.
Proof.
  intros t d P M H1 H2.
  assert (S : stored t) by now apply parse_stamp_stored in P.
  assert (R : t mod 1000 <= 500) by (unfold stored in S; lia).
  assert (M2 : (t + d) mod 1000 = t mod 1000).
  { rewrite Z.add_mod, M, Z.add_0_r by lia. apply Z.mod_mod. lia. }
  repeat split.
  - unfold mt_add, stamp_add. destruct (Z.leb_spec TMIN (t + d)); [|lia].
    destruct (Z.leb_spec (t + d) TMAX); [|lia]. simpl. apply parse_stamp_fixed. right. right. lia.
  - unfold mt_sub_delta, stamp_add. replace (t + d + - d) with t by lia.
    destruct (Z.leb_spec TMIN t); [|lia]. destruct (Z.leb_spec t TMAX); [|lia]. simpl. exact P.
  - exists ((t + d - t) # 1000000000)%Q. split; [|replace (t + d - t) with d by lia; reflexivity].
    unfold mt_diff. rewrite P. simpl. rewrite P. reflexivity.
Qed.
Example C13_case : parse_stamp 1579095045000000500 = Ok 1579095045000000500 /\ 86400000001000 mod 1000 = 0.
Proof. split; reflexivity. Qed.

(** For other durations the result is off by up to 499 ns ... *)
Theorem C13_add_error_bound :
  forall t d v : Z, mt_add t d = Ok v -> t + d <= v <= t + d + 499.
Proof.
  intros t d v. unfold mt_add, stamp_add. destruct (Z.leb_spec TMIN (t + d)); [|discriminate].
  destruct (Z.leb_spec (t + d) TMAX); [|discriminate]. simpl. apply parse_stamp_near. lia.
Qed.
(** ... because a nanosecond part above 500 is rounded up to the microsecond. *)
Theorem C13_nanoseconds_refuted :
  exists t d v q, parse_stamp t = Ok t /\ mt_add t d = Ok v /\ v <> t + d /\
    mt_diff v t = Ok q /\ ~ (q == d # 1000000000)%Q.
Proof.
  exists 300, 300, 1000, (700 # 1000000000)%Q. repeat split; try reflexivity; discriminate.
Qed.
(** Sums outside the representable range raise. *)
Theorem C13_overflow_raises :
  forall t d, ~ (TMIN <= t + d <= TMAX) -> mt_add t d = Err OverflowError.
Proof.
  intros t d H. unfold mt_add, stamp_add. destruct (Z.leb_spec TMIN (t + d)); [|reflexivity].
  destruct (Z.leb_spec (t + d) TMAX); [lia|reflexivity].
Qed.
(** Adding keeps the order of times. *)
Theorem C13_add_monotone :
  forall t u d v w, t <= u -> mt_add t d = Ok v -> mt_add u d = Ok w -> v <= w.
Proof.
  intros t u d v w H. unfold mt_add, stamp_add.
  destruct ((TMIN <=? t + d) && (t + d <=? TMAX)); [|discriminate].
  destruct ((TMIN <=? u + d) && (u + d <=? TMAX)); [|intros _ B; discriminate]. simpl.
  intros A B. eapply parse_stamp_mono; [|exact A|exact B]. lia.
Qed.

(** *** C64 *)
Theorem C64_day_arithmetic :
  forall k n : Z, let t := k * day_ns in
    TMIN < t < TMAX -> TMIN < t + n * day_ns < TMAX ->
    md_add_days t n = Ok (t + n * day_ns) /\
    exists q, md_diff (t + n * day_ns) t = Ok q /\ (q == inject_Z n)%Q.
Proof.
  intros k n t H1 H2.
  assert (M : forall j, (j * day_ns) mod 1000 = 0).
  { intros j. unfold day_ns. replace (j * 86400000000000) with (j * 86400000000 * 1000) by lia. apply Z.mod_mul. lia. }
  assert (P : forall j, TMIN < j * day_ns < TMAX -> parse_stamp (j * day_ns) = Ok (j * day_ns)).
  { intros j Hj. apply parse_stamp_fixed. right. right. split; [exact Hj|rewrite M; lia]. }
  split.
  - unfold md_add_days, stamp_add. destruct (Z.leb_spec TMIN (t + n * day_ns)); [|lia].
    destruct (Z.leb_spec (t + n * day_ns) TMAX); [|lia]. simpl bindR. unfold t in *.
    rewrite <- Z.mul_add_distr_r in *. now apply P.
  - unfold md_diff. assert (T : truncate_day t = t).
    { unfold truncate_day, t. rewrite Z.div_mul by discriminate. lia. }
    assert (Pt : parse_stamp t = Ok t) by (apply P; exact H1).
    rewrite T, Pt. cbn [bindR]. rewrite Pt. cbn [bindR].
    eexists. split; [reflexivity|]. replace (t + n * day_ns - t) with (n * day_ns) by lia.
    unfold day_ns, Qdiv, Qinv, Qmult, Qeq, inject_Z. simpl. lia.
Qed.
Example C64_case : md_add_days (18276 * day_ns) 30 = Ok (18306 * day_ns).
Proof. reflexivity. Qed.

(** A date that was given with a time of day differs from itself. *)
Theorem C64_self_difference_refuted :
  exists t q, parse_stamp t = Ok t /\ md_diff t t = Ok q /\ ~ (q == 0)%Q.
Proof. exists (18276 * day_ns + 43200000000000), ((43200000000000 # 1000000000) / inject_Z 86400)%Q.
  repeat split; try reflexivity; discriminate. Qed.

Print Assumptions C10_leap_seconds_correct_partial.
Print Assumptions C10_total_refuted.
Print Assumptions C11_order_without_gt_partial.
Print Assumptions C12_in_range_seconds_kept.
Print Assumptions C12_monotone_seconds_partial.
Print Assumptions C12_nanoseconds_kept.
Print Assumptions C13_add_subtract_partial.
Print Assumptions C64_day_arithmetic.
