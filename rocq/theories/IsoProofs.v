(** Lemmas about written times. *)
From Verif Require Import PyBase PyFacts PyText TextFacts PyNum MTimeModel MTimeSpec MTimeProofs IsoModel IsoSpec.
Local Open Scope Z_scope.

(* ---------------------------------------------------------------- digits *)

Lemma digit_cases n : 0 <= n < 10 -> n = 0 \/ n = 1 \/ n = 2 \/ n = 3 \/ n = 4 \/ n = 5 \/ n = 6 \/ n = 7 \/ n = 8 \/ n = 9.
Proof. lia. Qed.
Lemma digit_value_digit n : 0 <= n < 10 -> digit_value (digit n) = n.
Proof. intros H. apply digit_cases in H. repeat destruct H as [->|H]; try reflexivity. now subst. Qed.
Lemma is_digit_digit n : 0 <= n < 10 -> is_digit (digit n) = true.
Proof. intros H. apply digit_cases in H. repeat destruct H as [->|H]; try reflexivity. now subst. Qed.
Lemma pad_length k n : length (pad k n) = k.
Proof. revert n. induction k as [|k IH]; intros n; cbn; [reflexivity|]. rewrite app_length, IH. cbn. lia. Qed.
Lemma pad_digits k n : forallb is_digit (pad k n) = true.
Proof.
  revert n. induction k as [|k IH]; intros n; cbn; [reflexivity|].
  rewrite forallb_app, IH. cbn. rewrite is_digit_digit; [reflexivity|]. apply Z.mod_pos_bound. lia.
Qed.
Lemma number_of_app a c : number_of (a ++ [c]) = 10 * number_of a + digit_value c.
Proof. unfold number_of. now rewrite fold_left_app. Qed.
Lemma number_of_pad k n : 0 <= n < 10 ^ Z.of_nat k -> number_of (pad k n) = n.
Proof.
  revert n. induction k as [|k IH]; intros n H.
  - cbn in *. lia.
  - cbn [pad]. rewrite number_of_app, digit_value_digit by (apply Z.mod_pos_bound; lia).
    rewrite Nat2Z.inj_succ, Z.pow_succ_r in H by lia.
    rewrite IH.
    + pose proof (Z.div_mod n 10). lia.
    + split; [apply Z.div_pos; lia|]. apply Z.div_lt_upper_bound; lia.
Qed.
Lemma take_number_pad k n r : 0 <= n < 10 ^ Z.of_nat k -> take_number k (pad k n ++ r) = Ok (n, r).
Proof.
  intros H. unfold take_number.
  assert (F : firstn k (pad k n ++ r) = pad k n).
  { pose proof (firstn_app k (pad k n) r) as E. rewrite pad_length, Nat.sub_diag in E. rewrite E. cbn [firstn].
    rewrite app_nil_r. pose proof (firstn_all (pad k n)) as G. now rewrite pad_length in G. }
  assert (G : skipn k (pad k n ++ r) = r).
  { pose proof (skipn_app k (pad k n) r) as E. rewrite pad_length, Nat.sub_diag in E. rewrite E. cbn [skipn].
    pose proof (skipn_all (pad k n)) as G. rewrite pad_length in G. now rewrite G. }
  rewrite F, G, pad_length, Nat.eqb_refl, pad_digits. cbn [andb]. now rewrite number_of_pad.
Qed.
Lemma take_char_cons c r : take_char c (c :: r) = Ok r.
Proof. cbn. now rewrite Ascii.eqb_refl. Qed.
Lemma take_digits_app w r : forallb is_digit w = true -> (forall c s, r = c :: s -> is_digit c = false) ->
  take_digits (w ++ r) = (w, r).
Proof.
  intros H R. induction w as [|c w IH]; cbn in *.
  - destruct r as [|c s]; [reflexivity|]. cbn. now rewrite (R c s).
  - apply andb_true_iff in H as (H1 & H2). rewrite H1, IH by assumption. reflexivity.
Qed.

(* ---------------------------------------------------------------- calendar *)

Notation valid := calendar_day.

Lemma month_cases m : 1 <= m <= 12 -> In m all_months.
Proof. intros H. cbn. lia. Qed.
Lemma days_in_month_leap y m : days_in_month y m = if m =? 2 then (if is_leap y then 29 else 28)
  else if (m =? 4) || (m =? 6) || (m =? 9) || (m =? 11) then 30 else 31.
Proof. reflexivity. Qed.
Lemma is_leap_years y : (if is_leap y then 1 else 0) = before_year (y + 1) - before_year y - 365.
Proof.
  unfold is_leap, before_year.
  pose proof (Z.div_mod y 4). pose proof (Z.div_mod y 100). pose proof (Z.div_mod y 400).
  pose proof (Z.div_mod (y - 1) 4). pose proof (Z.div_mod (y - 1) 100). pose proof (Z.div_mod (y - 1) 400).
  pose proof (Z.mod_pos_bound y 4). pose proof (Z.mod_pos_bound y 100). pose proof (Z.mod_pos_bound y 400).
  pose proof (Z.mod_pos_bound (y - 1) 4). pose proof (Z.mod_pos_bound (y - 1) 100). pose proof (Z.mod_pos_bound (y - 1) 400).
  replace (y + 1 - 1) with y by lia.
  destruct (Z.eqb_spec (y mod 4) 0), (Z.eqb_spec (y mod 100) 0), (Z.eqb_spec (y mod 400) 0); cbn [andb orb negb]; lia.
Qed.

(** The days of a year, month by month. *)
Definition year_length (y : Z) : Z := if is_leap y then 366 else 365.
Lemma year_length_before y : before_year (y + 1) = before_year y + year_length y.
Proof. pose proof (is_leap_years y). unfold year_length. destruct (is_leap y); lia. Qed.
Lemma month_walk y r : 0 <= r < year_length y ->
  let '(m, d) := month_and_day y all_months r in
  1 <= m <= 12 /\ 1 <= d <= days_in_month y m /\ before_month y all_months m + (d - 1) = r.
Proof.
  unfold year_length, all_months. intros H. cbn [month_and_day before_month].
  unfold days_in_month. cbn [Z.eqb Pos.eqb orb]. destruct (is_leap y);
  repeat (match goal with |- context [if ?a <? ?b then _ else _] => destruct (Z.ltb_spec a b) end;
    [cbn [Z.eqb Pos.eqb orb]; lia|]); cbn [Z.eqb Pos.eqb orb]; lia.
Qed.
Lemma month_walk_back y m d : 1 <= m <= 12 -> 1 <= d <= days_in_month y m ->
  month_and_day y all_months (before_month y all_months m + (d - 1)) = (m, d)
  /\ 0 <= before_month y all_months m + (d - 1) < year_length y.
Proof.
  intros M D. apply month_cases in M. unfold all_months in *. unfold year_length. cbn [month_and_day before_month].
  cbn in M. unfold days_in_month in *.
  repeat (destruct M as [<-|M]; [cbn [Z.eqb Pos.eqb orb] in *; destruct (is_leap y); (split; [|lia]);
    repeat (match goal with |- context [if ?a <? ?b then _ else _] => destruct (Z.ltb_spec a b) end; [try lia|try lia]);
    try (f_equal; lia)|]); destruct M.
Qed.

Lemma year_walk n : let '(y, r) := year_and_day n in before_year y + r = n /\ 0 <= r < year_length y.
Proof.
  unfold year_and_day.
  pose proof (Z.div_mod n 146097). pose proof (Z.mod_pos_bound n 146097).
  set (n400 := n / 146097) in *. set (r400 := n mod 146097) in *. clearbody n400 r400.
  pose proof (Z.div_mod r400 36524). pose proof (Z.mod_pos_bound r400 36524).
  set (n100 := r400 / 36524) in *. set (r100 := r400 mod 36524) in *. clearbody n100 r100.
  pose proof (Z.div_mod r100 1461). pose proof (Z.mod_pos_bound r100 1461).
  set (n4 := r100 / 1461) in *. set (r4 := r100 mod 1461) in *. clearbody n4 r4.
  pose proof (Z.div_mod r4 365). pose proof (Z.mod_pos_bound r4 365).
  set (n1 := r4 / 365) in *. set (r1 := r4 mod 365) in *. clearbody n1 r1.
  assert (B100 : 0 <= n100 <= 4) by lia. assert (B4 : 0 <= n4 <= 24) by lia. assert (B1 : 0 <= n1 <= 4) by lia.
  destruct ((n1 =? 4) || (n100 =? 4)) eqn:E.
  - apply orb_true_iff in E. rewrite !Z.eqb_eq in E.
    replace (400 * n400 + 100 * n100 + 4 * n4 + n1 + 1 - 1) with (400 * n400 + 100 * n100 + 4 * n4 + n1) by lia.
    assert (LB : exists k, before_year (400 * n400 + 100 * n100 + 4 * n4 + n1) = k
                 /\ before_year (400 * n400 + 100 * n100 + 4 * n4 + n1 + 1) = k + 366 /\ k + 365 = n).
    { unfold before_year. set (y := 400 * n400 + 100 * n100 + 4 * n4 + n1). eexists. split; [reflexivity|].
      replace (y + 1 - 1) with y by lia.
      pose proof (Z.div_mod y 4). pose proof (Z.div_mod y 100). pose proof (Z.div_mod y 400).
      pose proof (Z.div_mod (y - 1) 4). pose proof (Z.div_mod (y - 1) 100). pose proof (Z.div_mod (y - 1) 400).
      pose proof (Z.mod_pos_bound y 4). pose proof (Z.mod_pos_bound y 100). pose proof (Z.mod_pos_bound y 400).
      pose proof (Z.mod_pos_bound (y - 1) 4). pose proof (Z.mod_pos_bound (y - 1) 100). pose proof (Z.mod_pos_bound (y - 1) 400).
      subst y. lia. }
    destruct LB as (k & L1 & L2 & L3). split; [lia|].
    rewrite year_length_before in L2. lia.
  - apply orb_false_iff in E. rewrite !Z.eqb_neq in E. destruct E as (E1 & E2).
    unfold before_year. set (y := 400 * n400 + 100 * n100 + 4 * n4 + n1).
    replace (y + 1 - 1) with y by lia.
    assert (Y4 : y / 4 = 100 * n400 + 25 * n100 + n4) by (symmetry; apply (Z.div_unique y 4 _ n1); subst y; lia).
    assert (Y100 : y / 100 = 4 * n400 + n100) by (symmetry; apply (Z.div_unique y 100 _ (4 * n4 + n1)); subst y; lia).
    assert (Y400 : y / 400 = n400) by (symmetry; apply (Z.div_unique y 400 _ (100 * n100 + 4 * n4 + n1)); subst y; lia).
    rewrite Y4, Y100, Y400. split; [subst y; lia|]. unfold year_length. destruct (is_leap (y + 1)); lia.
Qed.
Lemma before_year_mono a b : a <= b -> before_year a <= before_year b.
Proof.
  intros H. apply Z.le_exists_sub in H as (k & -> & K). pattern k. apply natlike_ind; [now rewrite Z.add_0_l; lia| |assumption].
  intros x Hx IH. replace (Z.succ x + a) with (x + a + 1) by lia. rewrite year_length_before. unfold year_length.
  destruct (is_leap (x + a)); lia.
Qed.
Lemma year_walk_unique y r n : before_year y + r = n -> 0 <= r < year_length y -> year_and_day n = (y, r).
Proof.
  intros E R. pose proof (year_walk n) as W. destruct (year_and_day n) as [y' r']. destruct W as (E' & R').
  pose proof (year_length_before y). pose proof (year_length_before y').
  assert (Y : y' = y).
  { destruct (Z.lt_trichotomy y' y) as [L|[L|L]]; [|assumption|].
    - pose proof (before_year_mono (y' + 1) y). lia.
    - pose proof (before_year_mono (y + 1) y'). lia. }
  subst y'. f_equal. lia.
Qed.

Lemma date_of_day_spec z : valid (date_of_day z) /\ day_of_date (date_of_day z) = z.
Proof.
  unfold date_of_day. pose proof (year_walk (z + 719162)) as Y. destruct (year_and_day (z + 719162)) as [y r].
  destruct Y as (E & R). pose proof (month_walk y r R) as M. destruct (month_and_day y all_months r) as [m d].
  destruct M as (M & D & K). split; [now split|]. unfold day_of_date. cbn [year month day]. lia.
Qed.
Lemma day_of_date_inv d : valid d -> date_of_day (day_of_date d) = d.
Proof.
  intros (M & D). destruct d as [y m d]. cbn [year month day] in *. unfold date_of_day, day_of_date. cbn [year month day].
  destruct (month_walk_back y m d M D) as (E & R).
  rewrite (year_walk_unique y (before_month y all_months m + (d - 1))) by (try assumption; lia).
  now rewrite E.
Qed.
Lemma year_bounds z y1 y2 : day_of_date (mkDate y1 1 1) <= z < day_of_date (mkDate (y2 + 1) 1 1) ->
  y1 <= year (date_of_day z) <= y2.
Proof.
  intros H. destruct (date_of_day_spec z) as ((M & D) & E). set (d := date_of_day z) in *. clearbody d.
  destruct d as [y m d]. cbn [year month day] in *. unfold day_of_date in *. cbn [year month day] in *.
  destruct (month_walk_back y m d M D) as (_ & R). pose proof (year_length_before y).
  replace (before_month y1 all_months 1) with 0 in H by reflexivity.
  replace (before_month (y2 + 1) all_months 1) with 0 in H by reflexivity.
  split.
  - destruct (Z.le_gt_cases y1 y); [assumption|]. pose proof (before_year_mono (y + 1) y1). lia.
  - destruct (Z.le_gt_cases y y2); [assumption|]. pose proof (before_year_mono (y2 + 1) y). lia.
Qed.

(* ---------------------------------------------------------------- texts *)

Lemma read_date_show d r : valid d -> 1 <= year d <= 9999 -> read_date (show_date d ++ r) = Ok (d, r).
Proof.
  intros (M & D) Y. destruct d as [y m d]. cbn [year month day] in *. unfold read_date, show_date. cbn [year month day].
  rewrite <- !app_assoc. rewrite take_number_pad by (change (10 ^ Z.of_nat 4) with 10000; lia). cbn [bindR].
  change (txt "-") with ["-"%char]. cbn [app]. rewrite take_char_cons. cbn [bindR].
  rewrite take_number_pad by (change (10 ^ Z.of_nat 2) with 100; lia). cbn [bindR].
  rewrite take_char_cons. cbn [bindR].
  assert (DM : days_in_month y m <= 31) by (unfold days_in_month; destruct (m =? 2), (is_leap y), ((m =? 4) || (m =? 6) || (m =? 9) || (m =? 11)); lia).
  rewrite take_number_pad by (change (10 ^ Z.of_nat 2) with 100; lia). cbn [bindR].
  unfold make_date. destruct (Z.leb_spec 1 y), (Z.leb_spec y 9999), (Z.leb_spec 1 m), (Z.leb_spec m 12), (Z.leb_spec 1 d),
    (Z.leb_spec d (days_in_month y m)); try lia. reflexivity.
Qed.
Lemma read_fraction_show f r : 0 <= f < 1000000000 ->
  (forall c s, r = c :: s -> is_digit c = false /\ c <> "."%char) ->
  read_fraction ((if f mod 1000 =? 0 then (if f =? 0 then [] else txt "." ++ pad 6 (f / 1000)) else txt "." ++ pad 9 f) ++ r)
  = Ok (f, r).
Proof.
  intros F R. change (txt ".") with ["."%char].
  pose proof (Z.div_mod f 1000). pose proof (Z.mod_pos_bound f 1000).
  destruct (Z.eqb_spec (f mod 1000) 0).
  - destruct (Z.eqb_spec f 0).
    + subst f. cbn [app]. destruct r as [|c s]; [reflexivity|]. unfold read_fraction.
      destruct (R c s eq_refl) as (_ & N). apply Ascii.eqb_neq in N. now rewrite N.
    + cbn [app]. unfold read_fraction. rewrite Ascii.eqb_refl, take_digits_app.
      * rewrite pad_length. cbn [Nat.leb andb]. rewrite number_of_pad by (change (10 ^ Z.of_nat 6) with 1000000; lia).
        change (10 ^ Z.of_nat (9 - 6)) with 1000. do 2 f_equal. lia.
      * apply pad_digits.
      * intros c s E. now apply (R c s).
  - cbn [app]. unfold read_fraction. rewrite Ascii.eqb_refl, take_digits_app.
    + rewrite pad_length. cbn [Nat.leb andb]. rewrite number_of_pad by (change (10 ^ Z.of_nat 9) with 1000000000; lia).
      change (10 ^ Z.of_nat (9 - 9)) with 1. do 2 f_equal. lia.
    + apply pad_digits.
    + intros c s E. now apply (R c s).
Qed.
Lemma read_clock_show t r : 0 <= t < day_ns ->
  (forall c s, r = c :: s -> is_digit c = false /\ c <> "."%char) ->
  read_clock (show_clock t ++ r) = Ok (t, r).
Proof.
  unfold day_ns. intros T R. unfold read_clock, show_clock.
  pose proof (Z.div_mod t 1000000000). pose proof (Z.mod_pos_bound t 1000000000).
  set (s := t / 1000000000) in *. set (f := t mod 1000000000) in *. clearbody s f. cbv zeta.
  pose proof (Z.div_mod s 60). pose proof (Z.mod_pos_bound s 60).
  pose proof (Z.div_mod (s / 60) 60). pose proof (Z.mod_pos_bound (s / 60) 60).
  assert (S3600 : s / 3600 = (s / 60) / 60) by (change 3600 with (60 * 60); now rewrite Z.div_div by lia).
  rewrite S3600. set (se := s mod 60) in *. set (mi := (s / 60) mod 60) in *. set (h := s / 60 / 60) in *.
  set (q := s / 60) in *. clearbody se mi h q.
  rewrite <- !app_assoc. rewrite take_number_pad by (change (10 ^ Z.of_nat 2) with 100; lia). cbn [bindR].
  change (txt ":") with [":"%char]. cbn [app]. rewrite take_char_cons. cbn [bindR].
  rewrite take_number_pad by (change (10 ^ Z.of_nat 2) with 100; lia). cbn [bindR].
  rewrite take_char_cons. cbn [bindR].
  rewrite take_number_pad by (change (10 ^ Z.of_nat 2) with 100; lia). cbn [bindR].
  rewrite read_fraction_show by (assumption || lia). cbn [bindR].
  destruct (Z.leb_spec h 23), (Z.leb_spec mi 59), (Z.leb_spec se 59); try lia. cbn [andb]. do 2 f_equal. lia.
Qed.

Lemma stamp_years v : TMIN <= v <= TMAX -> 1677 <= year (date_of_day (v / day_ns)) <= 2262.
Proof.
  intros H. apply year_bounds.
  replace (day_of_date (mkDate 1677 1 1)) with (-107015) by (vm_compute; reflexivity).
  replace (day_of_date (mkDate (2262 + 1) 1 1)) with 107016 by (vm_compute; reflexivity).
  unfold TMIN, TMAX, day_ns in *. split.
  - apply Z.div_le_lower_bound; lia.
  - apply Z.div_lt_upper_bound; lia.
Qed.
Lemma read_stamp_iso v (tz : text) : TMIN <= v <= TMAX -> tz = [] \/ tz = txt "+00:00" ->
  read_stamp (iso_no_tz_text v ++ tz) = Ok v.
Proof.
  intros H TZ. unfold read_stamp, iso_no_tz_text, isodate. rewrite <- !app_assoc.
  pose proof (stamp_years v H). destruct (date_of_day_spec (v / day_ns)) as (V & E).
  rewrite read_date_show by (assumption || lia). cbn [bindR]. change (txt "T") with ["T"%char]. cbn [app].
  rewrite take_char_cons. cbn [bindR].
  pose proof (Z.mod_pos_bound v day_ns ltac:(unfold day_ns; lia)). pose proof (Z.div_mod v day_ns ltac:(unfold day_ns; lia)).
  rewrite read_clock_show.
  - cbn [bindR]. rewrite E. destruct TZ as [->| ->]; cbn -[Z.mul Z.add Z.div]; f_equal; lia.
  - assumption.
  - intros c s EQ. destruct TZ as [->| ->]; [discriminate|]. injection EQ as <- <-. split; [reflexivity|discriminate].
Qed.
Lemma read_stamp_date v : TMIN <= v <= TMAX -> read_stamp (isodate v) = Ok (truncate_day v).
Proof.
  intros H. unfold read_stamp, isodate. pose proof (stamp_years v H). destruct (date_of_day_spec (v / day_ns)) as (V & E).
  rewrite <- (app_nil_r (show_date _)). rewrite read_date_show by (assumption || lia). cbn [bindR].
  unfold truncate_day. now rewrite E.
Qed.
Lemma parse_iso_stamp s v : read_stamp s = Ok v -> TMIN <= v <= TMAX -> parse_iso s = parse_stamp v.
Proof.
  intros E H. unfold parse_iso. rewrite E. cbn [bindR].
  destruct (Z.leb_spec TMIN v), (Z.leb_spec v TMAX); try lia. cbn [andb]. unfold parse_stamp. reflexivity.
Qed.

(** What characters a written time is made of. *)
Definition iso_char (c : ascii) : Prop := is_digit c = true \/ In c ["-"%char; "T"%char; ":"%char; "."%char].
Lemma pad_iso k n c : In c (pad k n) -> iso_char c.
Proof. intros H. left. exact (proj1 (forallb_forall _ _) (pad_digits k n) c H). Qed.
Lemma no_tz_chars v c : In c (iso_no_tz_text v) -> iso_char c.
Proof.
  unfold iso_no_tz_text, isodate, show_date, show_clock. cbv zeta.
  assert (L : forall s, In s [txt "-"; txt "T"; txt ":"; txt "."] -> In c s -> iso_char c).
  { intros s S I. right. cbn in S. repeat (destruct S as [<-|S]; [cbn in I |- *; tauto|]). destruct S. }
  intros H.
  repeat match goal with
  | K : In _ (_ ++ _) |- _ => apply in_app_or in K as [K|K]
  | K : In _ (pad _ _) |- _ => exact (pad_iso _ _ _ K)
  | K : In _ (txt _) |- _ => refine (L _ _ K); cbn [In]; tauto
  | K : In _ (if ?b then _ else _) |- _ => destruct b
  | K : In _ [] |- _ => destruct K
  end.
Qed.
Lemma iso_char_not c : iso_char c -> is_space c = false /\ c <> "+"%char /\ c <> "|"%char.
Proof.
  intros [H|H].
  - split; [|split; intros ->; discriminate].
    unfold is_digit, is_space, in_range in *. apply andb_true_iff in H as (H1 & H2). apply N.leb_le in H1, H2.
    apply orb_false_iff. split; [apply orb_false_iff; split|].
    + apply N.eqb_neq. lia.
    + apply andb_false_iff. right. apply N.leb_gt. lia.
    + apply andb_false_iff. right. apply N.leb_gt. lia.
  - cbn in H. repeat (destruct H as [<-|H]; [repeat split; discriminate|]). destruct H.
Qed.
Lemma iso_no_tz_eq v : iso_no_tz v = iso_no_tz_text v.
Proof.
  unfold iso_no_tz, isoformat. change (txt "+00:00") with ("+"%char :: txt "00:00").
  rewrite split1_app; [reflexivity|]. intros H. apply no_tz_chars, iso_char_not in H. now apply H.
Qed.

(* ---------------------------------------------------------------- next day *)

Lemma before_month_next y m : 1 <= m < 12 ->
  before_month y all_months (m + 1) = before_month y all_months m + days_in_month y m.
Proof.
  intros M. assert (C : In m [1; 2; 3; 4; 5; 6; 7; 8; 9; 10; 11]) by (cbn; lia).
  cbn [In] in C. unfold all_months, days_in_month.
  repeat (destruct C as [<-|C]; [cbn; unfold days_in_month; cbn; destruct (is_leap y); reflexivity|]). destruct C.
Qed.
Lemma year_end y : before_month y all_months 12 + 31 = year_length y.
Proof. unfold year_length, all_months. cbn [before_month]. unfold days_in_month. cbn [Z.eqb Pos.eqb orb]. destruct (is_leap y); lia. Qed.
Lemma next_day_spec d : valid d -> valid (next_day d) /\ day_of_date (next_day d) = day_of_date d + 1.
Proof.
  destruct d as [y m d]. intros (M & D). cbn [year month day] in *. unfold next_day. cbn [year month day].
  assert (P : forall y m, 28 <= days_in_month y m).
  { intros y' m'. unfold days_in_month. destruct (m' =? 2), (is_leap y'), ((m' =? 4) || (m' =? 6) || (m' =? 9) || (m' =? 11)); lia. }
  destruct (Z.ltb_spec d (days_in_month y m)).
  - split; [split; cbn [year month day]; lia|]. unfold day_of_date. cbn [year month day]. lia.
  - destruct (Z.ltb_spec m 12).
    + split; [split; cbn [year month day]; [lia|]; specialize (P y (m + 1)); lia|]. unfold day_of_date. cbn [year month day].
      rewrite before_month_next by lia. lia.
    + assert (m = 12) by lia. subst m. split; [split; cbn [year month day]; [lia|]; specialize (P (y + 1) 1); lia|].
      unfold day_of_date. cbn [year month day]. rewrite year_length_before. pose proof (year_end y).
      change (days_in_month y 12) with 31 in *. replace (before_month (y + 1) all_months 1) with 0 by reflexivity. lia.
Qed.
Lemma date_of_next z : date_of_day (z + 1) = next_day (date_of_day z).
Proof.
  destruct (date_of_day_spec z) as (V & E). destruct (next_day_spec _ V) as (V' & E').
  rewrite <- (day_of_date_inv _ V'). rewrite E', E. reflexivity.
Qed.

(* ---------------------------------------------------------------- components *)

Lemma within_true lo hi n : within lo hi n = true <-> lo <= n <= hi.
Proof. unfold within. rewrite andb_true_iff, !Z.leb_le. reflexivity. Qed.
Lemma make_date_Ok y m d : make_date y m d = Ok (mkDate y m d) <-> 1 <= y <= 9999 /\ valid (mkDate y m d).
Proof.
  unfold make_date, calendar_day. cbn [year month day].
  destruct (Z.leb_spec 1 y), (Z.leb_spec y 9999), (Z.leb_spec 1 m), (Z.leb_spec m 12), (Z.leb_spec 1 d),
    (Z.leb_spec d (days_in_month y m)); cbn [andb]; split; intros K; try discriminate; try lia; try reflexivity; auto.
Qed.
Lemma make_date_inv y m d r : make_date y m d = Ok r -> r = mkDate y m d.
Proof. unfold make_date. destruct (_ && _); [|discriminate]. intros H. now injection H as <-. Qed.

Lemma parts_of_build p v : build p = Ok v -> parts_of v = p /\ representable v.
Proof.
  unfold build. destruct (make_date _ _ _) as [d|] eqn:D; [|discriminate]. cbn [bindR].
  pose proof (make_date_inv _ _ _ _ D) as ->. apply make_date_Ok in D as (Y & V).
  destruct (_ && _) eqn:R; [|discriminate]. rewrite !andb_true_iff, !within_true in R.
  destruct R as ((((H & MI) & S) & US) & NS). cbv zeta.
  set (w := _ + p_nano p). destruct (within TMIN TMAX w) eqn:W; [|discriminate]. intros E. injection E as <-.
  apply within_true in W. split; [|exact W].
  assert (DAY : w / day_ns = day_of_date (mkDate (p_year p) (p_month p) (p_day p))
                /\ w mod day_ns = (3600 * p_hour p + 60 * p_minute p + p_second p) * 1000000000 + 1000 * p_micro p + p_nano p).
  { assert (B : 0 <= (3600 * p_hour p + 60 * p_minute p + p_second p) * 1000000000 + 1000 * p_micro p + p_nano p < day_ns)
      by (unfold day_ns; lia).
    split; symmetry.
    - apply (Z.div_unique w day_ns _ _ (or_introl B)). subst w. lia.
    - apply (Z.mod_unique w day_ns (day_of_date (mkDate (p_year p) (p_month p) (p_day p))) _ (or_introl B)). subst w. lia. }
  destruct DAY as (E1 & E2). unfold parts_of. rewrite E1, E2, (day_of_date_inv _ V). cbn [year month day]. cbv zeta.
  set (t := _ + p_nano p).
  assert (T1 : t / 1000000000 = 3600 * p_hour p + 60 * p_minute p + p_second p)
    by (symmetry; apply (Z.div_unique t 1000000000 _ (1000 * p_micro p + p_nano p)); subst t; lia).
  assert (T2 : t mod 1000000000 = 1000 * p_micro p + p_nano p)
    by (symmetry; apply (Z.mod_unique t 1000000000 (3600 * p_hour p + 60 * p_minute p + p_second p)); subst t; lia).
  rewrite T1, T2.
  assert (S1 : (3600 * p_hour p + 60 * p_minute p + p_second p) / 3600 = p_hour p)
    by (symmetry; apply (Z.div_unique _ 3600 _ (60 * p_minute p + p_second p)); lia).
  assert (S2 : (3600 * p_hour p + 60 * p_minute p + p_second p) / 60 = 60 * p_hour p + p_minute p)
    by (symmetry; apply (Z.div_unique _ 60 _ (p_second p)); lia).
  assert (S3 : (60 * p_hour p + p_minute p) mod 60 = p_minute p)
    by (symmetry; apply (Z.mod_unique _ 60 (p_hour p)); lia).
  assert (S4 : (3600 * p_hour p + 60 * p_minute p + p_second p) mod 60 = p_second p)
    by (symmetry; apply (Z.mod_unique _ 60 (60 * p_hour p + p_minute p)); lia).
  assert (S5 : (1000 * p_micro p + p_nano p) / 1000 = p_micro p)
    by (symmetry; apply (Z.div_unique _ 1000 _ (p_nano p)); lia).
  assert (S6 : (1000 * p_micro p + p_nano p) mod 1000 = p_nano p)
    by (symmetry; apply (Z.mod_unique _ 1000 (p_micro p)); lia).
  rewrite S1, S2, S3, S4, S5, S6. now destruct p.
Qed.
Lemma clock_parts t : 0 <= t < day_ns ->
  let s := t / 1000000000 in let f := t mod 1000000000 in
  0 <= s / 3600 <= 23 /\ 0 <= (s / 60) mod 60 <= 59 /\ 0 <= s mod 60 <= 59 /\ 0 <= f / 1000 <= 999999 /\ 0 <= f mod 1000 <= 999
  /\ (3600 * (s / 3600) + 60 * ((s / 60) mod 60) + s mod 60) * 1000000000 + 1000 * (f / 1000) + f mod 1000 = t.
Proof.
  unfold day_ns. intros T. cbv zeta.
  pose proof (Z.div_mod t 1000000000). pose proof (Z.mod_pos_bound t 1000000000).
  set (s := t / 1000000000) in *. set (f := t mod 1000000000) in *. clearbody s f.
  pose proof (Z.div_mod s 60). pose proof (Z.mod_pos_bound s 60).
  pose proof (Z.div_mod (s / 60) 60). pose proof (Z.mod_pos_bound (s / 60) 60).
  pose proof (Z.div_mod f 1000). pose proof (Z.mod_pos_bound f 1000).
  assert (S3600 : s / 3600 = (s / 60) / 60) by (change 3600 with (60 * 60); now rewrite Z.div_div by lia).
  rewrite S3600. set (se := s mod 60) in *. set (mi := (s / 60) mod 60) in *. set (h := s / 60 / 60) in *.
  set (q := s / 60) in *. set (us := f / 1000) in *. set (ns := f mod 1000) in *. clearbody se mi h q us ns. lia.
Qed.
Lemma build_parts_of v : representable v -> build (parts_of v) = Ok v.
Proof.
  intros R. pose proof (stamp_years v R). destruct (date_of_day_spec (v / day_ns)) as (V & E).
  pose proof (clock_parts (v mod day_ns) (Z.mod_pos_bound v day_ns ltac:(unfold day_ns; lia))) as C. cbv zeta in C.
  pose proof (Z.div_mod v day_ns ltac:(unfold day_ns; lia)) as DM.
  unfold build, parts_of. cbn [p_year p_month p_day p_hour p_minute p_second p_micro p_nano]. cbv zeta.
  set (dt := date_of_day (v / day_ns)) in *. clearbody dt.
  rewrite (proj2 (make_date_Ok _ _ _)) by (split; [lia|now destruct dt]). cbn [bindR].
  destruct C as (C1 & C2 & C3 & C4 & C5 & C6).
  rewrite !(proj2 (within_true _ _ _)) by assumption. cbn [andb].
  assert (W : day_ns * day_of_date (mkDate (year dt) (month dt) (day dt)) +
    (3600 * (v mod day_ns / 1000000000 / 3600) + 60 * ((v mod day_ns / 1000000000 / 60) mod 60) +
     (v mod day_ns / 1000000000) mod 60) * 1000000000 + 1000 * (v mod day_ns mod 1000000000 / 1000) +
    (v mod day_ns mod 1000000000) mod 1000 = v).
  { replace (mkDate (year dt) (month dt) (day dt)) with dt by now destruct dt. rewrite E. lia. }
  rewrite W. rewrite (proj2 (within_true _ _ _)) by assumption. reflexivity.
Qed.
