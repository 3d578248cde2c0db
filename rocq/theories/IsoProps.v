(** C71 and C72: written times, and the components of a time. *)
From Verif Require Import PyBase PyFacts PyText TextFacts PyNum MTimeModel MTimeSpec MTimeProofs IsoModel IsoSpec IsoProofs.
Local Open Scope Z_scope.

(* ================================================================ C71 *)

(** A time that MTime made comes back from its text, with and without the time zone. *)
Theorem C71_written_time_reads_back :
  forall u v, parse_stamp u = Ok v ->
  parse_iso (isoformat v) = Ok v /\ parse_iso (iso_no_tz v) = Ok v.
Proof.
  intros u v H. pose proof (parse_stamp_stored _ _ H) as S. pose proof (parse_stamp_fixed _ S) as F.
  assert (R : TMIN <= v <= TMAX) by (destruct S as [->|[->|(S & _)]]; unfold TMIN, TMAX in *; lia).
  split.
  - rewrite (parse_iso_stamp (isoformat v) v (read_stamp_iso v (txt "+00:00") R (or_intror eq_refl)) R). exact F.
  - rewrite iso_no_tz_eq. pose proof (read_stamp_iso v [] R (or_introl eq_refl)) as E. rewrite app_nil_r in E.
    rewrite (parse_iso_stamp _ v E R). exact F.
Qed.
Theorem C71_number_reads_back :
  forall x v, parse_number x = Ok v -> parse_iso (isoformat v) = Ok v.
Proof.
  intros x v H. unfold parse_number in H. destruct (from_seconds _) as [w|]; [|discriminate]. cbn [bindR] in H.
  exact (proj1 (C71_written_time_reads_back w v H)).
Qed.
Example C71_written_time_reads_back_hyp :
  parse_stamp 1579091445123456789 = Ok 1579091445123457000
  /\ isoformat 1579091445123457000 = txt "2020-01-15T12:30:45.123457+00:00"
  /\ iso_no_tz 1579091445000000000 = txt "2020-01-15T12:30:45"
  /\ isoformat TMIN = txt "1677-09-21T00:12:43.145224193+00:00".
Proof. split; [vm_compute; reflexivity|]. split; [vm_compute; reflexivity|]. split; vm_compute; reflexivity. Qed.

(** Two different times are written differently, so the hash of a time ([hash(isoformat())]) agrees with
    equality. *)
Theorem C71_different_times_different_text :
  forall u v, representable u -> representable v -> isoformat u = isoformat v -> u = v.
Proof.
  intros u v U V E. pose proof (read_stamp_iso u (txt "+00:00") U (or_intror eq_refl)) as A.
  pose proof (read_stamp_iso v (txt "+00:00") V (or_intror eq_refl)) as B. unfold isoformat in E.
  rewrite E in A. rewrite A in B. now injection B.
Qed.
Example C71_different_times_hyp : representable 0 /\ representable 900.
Proof. unfold representable, TMIN, TMAX. lia. Qed.

(** The text is the reading of calendar and clock: the date is the day of the calendar reached from
    1970-01-01 by stepping from day to day. *)
Theorem C71_calendar :
  date_of_day 0 = epoch
  /\ (forall z, date_of_day (z + 1) = next_day (date_of_day z))
  /\ (forall z, calendar_day (date_of_day z))
  /\ (forall d, calendar_day d -> exists z, date_of_day z = d)
  /\ (forall y z, date_of_day y = date_of_day z -> y = z).
Proof.
  split; [reflexivity|]. split; [exact date_of_next|]. split; [intros z; apply date_of_day_spec|]. split.
  - intros d H. exists (day_of_date d). now apply day_of_date_inv.
  - intros y z E. destruct (date_of_day_spec y) as (_ & A). destruct (date_of_day_spec z) as (_ & B). congruence.
Qed.
Example C71_calendar_hyp : date_of_day 18321 = mkDate 2020 2 29 /\ date_of_day 18322 = mkDate 2020 3 1.
Proof. split; reflexivity. Qed.
(** Every text of the written form is read as the time that calendar and clock show. *)
Theorem C71_text_is_read :
  forall d h mi s us ns, calendar_day d -> 1 <= year d <= 9999 ->
  0 <= h <= 23 -> 0 <= mi <= 59 -> 0 <= s <= 59 -> 0 <= us <= 999999 -> 0 <= ns <= 999 ->
  read_stamp (show_date d ++ txt "T" ++ pad 2 h ++ txt ":" ++ pad 2 mi ++ txt ":" ++ pad 2 s ++ txt "." ++ pad 6 us ++ pad 3 ns
              ++ txt "+00:00")
  = Ok (day_ns * day_of_date d + reading h mi s us ns).
Proof.
  intros d h mi s us ns D Y H MI S US NS. unfold read_stamp, reading.
  rewrite read_date_show by assumption. cbn [bindR]. change (txt "T") with ["T"%char]. cbn [app].
  rewrite take_char_cons. cbn [bindR]. unfold read_clock.
  rewrite take_number_pad by (change (10 ^ Z.of_nat 2) with 100; lia). cbn [bindR].
  change (txt ":") with [":"%char]. cbn [app]. rewrite take_char_cons. cbn [bindR].
  rewrite take_number_pad by (change (10 ^ Z.of_nat 2) with 100; lia). cbn [bindR].
  rewrite take_char_cons. cbn [bindR].
  rewrite take_number_pad by (change (10 ^ Z.of_nat 2) with 100; lia). cbn [bindR].
  change (txt ".") with ["."%char]. cbn [app]. unfold read_fraction. rewrite Ascii.eqb_refl.
  rewrite app_assoc. rewrite take_digits_app.
  - rewrite app_length, !pad_length. cbn [Nat.add Nat.leb andb Nat.sub].
    assert (N : forall a b, number_of (a ++ b) = number_of a * 10 ^ Z.of_nat (length b) + number_of b).
    { intros a b. revert a. induction b as [|c b IH] using rev_ind; intros a.
      - rewrite app_nil_r. cbn. lia.
      - rewrite app_assoc, !number_of_app, IH, app_length. cbn [length]. rewrite Nat.add_1_r, Nat2Z.inj_succ, Z.pow_succ_r by lia.
        ring. }
    rewrite N, pad_length, !number_of_pad by (cbn; lia). cbn [bindR].
    destruct (Z.leb_spec h 23), (Z.leb_spec mi 59), (Z.leb_spec s 59); try lia. cbn [andb bindR].
    change (text_eqb (txt "+00:00") [] || text_eqb (txt "+00:00") (txt "+00:00")) with true. cbv iota.
    f_equal. change (10 ^ Z.of_nat 3) with 1000. change (10 ^ Z.of_nat 0) with 1. lia.
  - rewrite forallb_app, !pad_digits. reflexivity.
  - intros c r E. injection E as <- _. reflexivity.
Qed.
Example C71_text_is_read_hyp : calendar_day (mkDate 2020 2 29) /\ 1 <= 2020 <= 9999.
Proof. unfold calendar_day. cbn. lia. Qed.

(** A day that is not in the calendar is refused, whatever comes behind it. *)
Theorem C71_no_such_day_refused :
  forall d r, 0 <= year d <= 9999 -> 0 <= month d <= 99 -> 0 <= day d <= 99 -> (~ calendar_day d \/ year d = 0) ->
  parse_iso (show_date d ++ r) = Err ValueError.
Proof.
  intros [y m d] r Y M D N. cbn [year month day] in *. unfold parse_iso, read_stamp.
  replace (read_date (show_date (mkDate y m d) ++ r)) with (@Err (date * text) ValueError); [reflexivity|]. symmetry.
  unfold read_date, show_date. cbn [year month day]. rewrite <- !app_assoc.
  rewrite take_number_pad by (change (10 ^ Z.of_nat 4) with 10000; lia). cbn [bindR].
  change (txt "-") with ["-"%char]. cbn [app]. rewrite take_char_cons. cbn [bindR].
  rewrite take_number_pad by (change (10 ^ Z.of_nat 2) with 100; lia). cbn [bindR].
  rewrite take_char_cons. cbn [bindR].
  rewrite take_number_pad by (change (10 ^ Z.of_nat 2) with 100; lia). cbn [bindR].
  destruct (make_date y m d) as [e|e] eqn:E; [|unfold make_date in E; destruct (_ && _) in E; [discriminate E|injection E as <-; reflexivity]].
  exfalso. pose proof (make_date_inv _ _ _ _ E) as ->. apply make_date_Ok in E. destruct E as [Y' V]. destruct N as [N|N]; [exact (N V)|lia].
Qed.
Example C71_no_such_day_hyp : ~ calendar_day (mkDate 2021 2 29).
Proof. intros [_ H]. vm_compute in H. destruct H as [_ H]. apply H. reflexivity. Qed.
(** A time that is too late is stored as the last one there is, one that is too early as the first. *)
Theorem C71_beyond_the_range :
  forall s v, read_stamp s = Ok v ->
  (9223372036854775807 < v -> parse_iso s = Ok 9223372036854775807) /\ (v < -9223372036854775807 -> parse_iso s = Ok (-9223372036854775807)).
Proof.
  intros s v E. unfold parse_iso. rewrite E. cbn [bindR]. unfold fix_out_of_bounds, TMIN, TMAX.
  split; intros H; destruct (Z.leb_spec (-9223372036854775807) v), (Z.leb_spec v 9223372036854775807), (Z.ltb_spec 0 v); try lia; cbn [andb]; unfold round_us; rewrite andb_false_r; reflexivity.
Qed.
Example C71_beyond_hyp : exists v, read_stamp (txt "2500-01-01T00:00:00+00:00") = Ok v /\ 9223372036854775807 < v.
Proof. eexists. split; [vm_compute; reflexivity|]. reflexivity. Qed.

(** The date of a time reads back as the midnight before it. *)
Theorem C71_date_reads_back :
  forall v, representable v -> representable (truncate_day v) ->
  parse_iso (isodate v) = Ok (truncate_day v) /\ truncate_day v <= v < truncate_day v + day_ns.
Proof.
  intros v R RT.
  pose proof (Z.mod_pos_bound v day_ns ltac:(unfold day_ns; lia)). pose proof (Z.div_mod v day_ns ltac:(unfold day_ns; lia)).
  split; [|unfold truncate_day; lia].
  rewrite (parse_iso_stamp _ (truncate_day v)); [|now apply read_stamp_date|exact RT].
  apply parse_stamp_fixed. right. right.
  assert (M : truncate_day v mod 1000 = 0).
  { unfold truncate_day, day_ns. replace (86400000000000 * (v / 86400000000000)) with (86400000000 * (v / 86400000000000) * 1000) by ring.
    apply Z_mod_mult. }
  split; [|lia]. unfold representable, truncate_day, TMIN, TMAX, day_ns in *. lia.
Qed.
Example C71_date_reads_back_hyp : representable 1579091445123456789 /\ representable (truncate_day 1579091445123456789).
Proof. unfold representable, truncate_day, TMIN, TMAX, day_ns. split; [lia|]. vm_compute. split; discriminate. Qed.

(** A time given more than 500 nanoseconds by its setter does not come back. *)
Theorem C71_nanoseconds_refuted :
  exists v w, set CNano 900 0 = Ok v /\ parse_iso (isoformat v) = Ok w /\ w <> v.
Proof. exists 900, 1000. split; [reflexivity|]. split; [vm_compute; reflexivity|discriminate]. Qed.
(** [from_dict] of what [to_dict] wrote leaves an object that cannot be written again. *)
Theorem C71_from_dict_refuted :
  forall h v, exists s, mtime_to_dict (Stamp v) = Ok s
  /\ mtime_from_dict h s <> Stamp v /\ mtime_to_dict (mtime_from_dict h s) = Err AttributeError.
Proof. intros h v. exists (isoformat v). split; [reflexivity|]. split; [discriminate|reflexivity]. Qed.

(* ================================================================ C72 *)

(** Setting a component sets it, and leaves the seven others. *)
Theorem C72_set_one_component :
  forall c n v w, set c n v = Ok w ->
  get c w = n /\ (forall c', c' <> c -> get c' w = get c' v) /\ representable w.
Proof.
  intros c n v w H. unfold set in H. apply parts_of_build in H as (P & R). split; [|split; [|exact R]].
  - unfold get. rewrite P. now destruct c.
  - intros c' NE. unfold get. rewrite P. destruct c, c'; try congruence; reflexivity.
Qed.
(** The eight components determine the time, so setting a component to the value it has changes nothing,
    and a time is rebuilt from its components. *)
Theorem C72_components_determine :
  forall v w, representable v -> representable w -> (forall c, get c v = get c w) -> v = w.
Proof.
  intros v w V W H. pose proof (build_parts_of v V) as A. pose proof (build_parts_of w W) as B.
  assert (E : parts_of v = parts_of w).
  { pose proof (H CYear). pose proof (H CMonth). pose proof (H CDay). pose proof (H CHour). pose proof (H CMinute).
    pose proof (H CSecond). pose proof (H CMicro). pose proof (H CNano). cbn [get] in *.
    destruct (parts_of v), (parts_of w). cbn in *. now subst. }
  rewrite E in A. rewrite A in B. now injection B.
Qed.
Theorem C72_set_same_value :
  forall c v, representable v -> set c (get c v) v = Ok v.
Proof.
  intros c v R. pose proof (build_parts_of v R) as A. unfold set, get.
  destruct (parts_of v), c; exact A.
Qed.
Example C72_hyp : set CMonth 2 1579091445123456789 = Ok 1581769845123456789 /\ representable 1579091445123456789.
Proof. split; [vm_compute; reflexivity|]. unfold representable, TMIN, TMAX. lia. Qed.
(** Every component is in its range, and a value outside the range is refused. *)
Theorem C72_ranges :
  forall c v, component_range c (get c v).
Proof.
  intros c v. destruct (date_of_day_spec (v / day_ns)) as ((M & D) & _).
  pose proof (clock_parts (v mod day_ns) (Z.mod_pos_bound v day_ns ltac:(unfold day_ns; lia))) as C. cbv zeta in C.
  assert (P : forall y m, days_in_month y m <= 31).
  { intros y' m'. unfold days_in_month. destruct (m' =? 2), (is_leap y'), ((m' =? 4) || (m' =? 6) || (m' =? 9) || (m' =? 11)); lia. }
  destruct c; unfold get, parts_of, component_range; cbv zeta; cbn [p_year p_month p_day p_hour p_minute p_second p_micro p_nano];
  try tauto. specialize (P (year (date_of_day (v / day_ns))) (month (date_of_day (v / day_ns)))). lia.
Qed.
Theorem C72_out_of_range_refused :
  forall c n v, ~ component_range c n -> exists e, set c n v = Err e.
Proof.
  intros c n v H. destruct (set c n v) as [w|e] eqn:E; [|now exists e]. exfalso. apply H.
  destruct (C72_set_one_component _ _ _ _ E) as (G & _). rewrite <- G. apply C72_ranges.
Qed.
Example C72_out_of_range_refused_hyp : ~ component_range CHour 24.
Proof. cbn. lia. Qed.
(** Setting a component succeeds when the result is a time: the day exists and is representable. *)
Theorem C72_set_succeeds :
  forall c n v w, representable v -> representable w -> get c w = n -> (forall c', c' <> c -> get c' w = get c' v) ->
  set c n v = Ok w.
Proof.
  intros c n v w V W G O. pose proof (build_parts_of w W) as A. unfold set. rewrite <- A. f_equal.
  destruct (parts_of w) as [y m d h mi s us ns] eqn:E, (parts_of v) as [y' m' d' h' mi' s' us' ns'] eqn:E'.
  assert (Q : forall k, k <> c -> get k w = get k v) by exact O.
  unfold get in Q, G. rewrite E, E' in Q. rewrite E in G.
  destruct c; cbn in *; subst n;
  try rewrite <- (Q CYear) by discriminate; try rewrite <- (Q CMonth) by discriminate; try rewrite <- (Q CDay) by discriminate;
  try rewrite <- (Q CHour) by discriminate; try rewrite <- (Q CMinute) by discriminate; try rewrite <- (Q CSecond) by discriminate;
  try rewrite <- (Q CMicro) by discriminate; try rewrite <- (Q CNano) by discriminate; reflexivity.
Qed.
(** The order of the setters matters: from the 31st of January, the month cannot be set before the day. *)
Theorem C72_order_of_setters :
  exists v w, representable v /\ get CDay v = 31 /\ (exists e, set CMonth 2 v = Err e)
  /\ bindR (set CDay 15 v) (set CMonth 2) = Ok w /\ get CDay w = 15 /\ get CMonth w = 2.
Proof.
  exists 1580428800000000000, 1581724800000000000. split; [unfold representable, TMIN, TMAX; lia|].
  split; [reflexivity|]. split; [eexists; vm_compute; reflexivity|]. split; [vm_compute; reflexivity|]. split; reflexivity.
Qed.

Print Assumptions C71_written_time_reads_back.
Print Assumptions C71_different_times_different_text.
Print Assumptions C71_calendar.
Print Assumptions C71_text_is_read.
Print Assumptions C71_date_reads_back.
Print Assumptions C72_set_one_component.
Print Assumptions C72_components_determine.
Print Assumptions C72_set_same_value.
Print Assumptions C72_ranges.
Print Assumptions C72_set_succeeds.
