(** C145: times at hour 24. *)
From Verif Require Import PyBase PyText TextFacts PyNum MTimeModel MTimeProofs IsoModel IsoSpec IsoProofs P24Model P24Spec.
From Coq Require Import Lia.
Local Open Scope list_scope.
Local Open Scope Z_scope.

Lemma fraction_read us r : six_digits us -> r = (match us with Some u => txt "." ++ pad 6 u | None => [] end) -> read_fraction r = Ok (1000 * micro us, []).
Proof.
  intros H ->. destruct us as [u|]; [|reflexivity]. unfold six_digits in H. cbn [micro] in *. change (txt ".") with ["."%char]. cbn [app]. unfold read_fraction. rewrite Ascii.eqb_refl.
  rewrite <- (app_nil_r (pad 6 u)) at 1. rewrite take_digits_app; [|apply pad_digits|discriminate]. rewrite pad_length. cbn [Nat.leb andb Nat.sub]. rewrite number_of_pad by (change (10 ^ Z.of_nat 6) with 1000000; lia). f_equal. f_equal. change (10 ^ Z.of_nat 3) with 1000. lia.
Qed.
Lemma clock_read h mi s us : two_digits h -> two_digits mi -> two_digits s -> six_digits us ->
  clock24 (pad 2 h ++ txt ":" ++ pad 2 mi ++ txt ":" ++ pad 2 s ++ (match us with Some u => txt "." ++ pad 6 u | None => [] end)) = Ok (h, mi, s, 1000 * micro us).
Proof.
  intros H MI S U. unfold two_digits in *. unfold clock24. change (txt ":") with [":"%char].
  rewrite take_number_pad by (change (10 ^ Z.of_nat 2) with 100; lia). cbn [bindR app]. rewrite take_char_cons. cbn [bindR].
  rewrite take_number_pad by (change (10 ^ Z.of_nat 2) with 100; lia). cbn [bindR app]. rewrite take_char_cons. cbn [bindR].
  rewrite take_number_pad by (change (10 ^ Z.of_nat 2) with 100; lia). cbn [bindR]. rewrite (fraction_read us) by (exact U || reflexivity). reflexivity.
Qed.
Lemma dtparser_written d h mi s us : calendar_day d -> 1 <= year d <= 9999 -> two_digits h -> two_digits mi -> two_digits s -> six_digits us ->
  dtparser (written d h mi s us) = if 23 <? h then HourRange else if (mi <=? 59) && (s <=? 59) then DtOk (instant d h mi s (micro us)) else Refused.
Proof.
  intros D Y H MI S U. unfold dtparser, written. rewrite read_date_show by assumption. cbn [bindR]. change (txt "T") with ["T"%char]. cbn [app]. rewrite take_char_cons. cbn [bindR].
  rewrite clock_read by assumption. cbn [bindR]. destruct (23 <? h); [reflexivity|]. destruct ((mi <=? 59) && (s <=? 59)); [|reflexivity]. f_equal. unfold instant, reading, day_ns.
  rewrite (Z.mul_comm 1000 (micro us)), Z.div_mul by lia. lia.
Qed.
Lemma read_stamp_written d h mi s us : calendar_day d -> 1 <= year d <= 9999 -> two_digits h -> two_digits mi -> two_digits s -> six_digits us ->
  read_stamp (written d h mi s us) = if (h <=? 23) && (mi <=? 59) && (s <=? 59) then Ok (instant d h mi s (micro us)) else Err ValueError.
Proof.
  intros D Y H MI S U. unfold two_digits in *. unfold read_stamp, written. rewrite read_date_show by assumption. cbn [bindR]. change (txt "T") with ["T"%char]. cbn [app]. rewrite take_char_cons. cbn [bindR].
  unfold read_clock. change (txt ":") with [":"%char].
  rewrite take_number_pad by (change (10 ^ Z.of_nat 2) with 100; lia). cbn [bindR app]. rewrite take_char_cons. cbn [bindR].
  rewrite take_number_pad by (change (10 ^ Z.of_nat 2) with 100; lia). cbn [bindR app]. rewrite take_char_cons. cbn [bindR].
  rewrite take_number_pad by (change (10 ^ Z.of_nat 2) with 100; lia). cbn [bindR]. rewrite (fraction_read us) by (exact U || reflexivity). cbn [bindR].
  destruct ((h <=? 23) && (mi <=? 59) && (s <=? 59)); [|reflexivity]. cbn [bindR]. change (text_eqb [] [] || text_eqb [] (txt "+00:00")) with true. cbv iota. f_equal. unfold instant, reading, day_ns. lia.
Qed.
Lemma replace_skip (q a s : text) : (forall c, In c a -> c <> "T"%char) -> replace_from (txt "T24") q 0 (a ++ s) = a ++ replace_from (txt "T24") q 0 s.
Proof.
  induction a as [|c a IH]; intros N; [reflexivity|]. cbn [app replace_from].
  assert (E : prefix_of (txt "T24") (c :: a ++ s) = false). { cbn [prefix_of txt list_ascii_of_string]. destruct (Ascii.eqb "T" c) eqn:C; [apply Ascii.eqb_eq in C; exfalso; exact (N c (or_introl eq_refl) (eq_sym C))|reflexivity]. }
  rewrite E. rewrite IH; [reflexivity|]. intros x X. apply N. right. exact X.
Qed.
Lemma digit_not_T c : is_digit c = true -> c <> "T"%char.
Proof. intros H ->. discriminate H. Qed.
Lemma pad_not_T k n c : In c (pad k n) -> c <> "T"%char.
Proof. intros I. apply digit_not_T. pose proof (pad_digits k n) as P. rewrite forallb_forall in P. exact (P c I). Qed.
Lemma date_not_T d c : In c (show_date d) -> c <> "T"%char.
Proof. unfold show_date. rewrite !in_app_iff. intros [H|[[<-|[]]|[H|[[<-|[]]|H]]]]; try discriminate; exact (pad_not_T _ _ _ H). Qed.
Lemma clock_not_T mi s us c : In c (txt ":" ++ pad 2 mi ++ txt ":" ++ pad 2 s ++ (match us with Some u => txt "." ++ pad 6 u | None => [] end)) -> c <> "T"%char.
Proof. rewrite !in_app_iff. intros [[<-|[]]|[H|[[<-|[]]|[H|H]]]]; try discriminate; try exact (pad_not_T _ _ _ H). destruct us as [u|]; [|destruct H]. apply in_app_iff in H as [[<-|[]]|H]; [discriminate|exact (pad_not_T _ _ _ H)]. Qed.
Lemma replace_24 d mi s us : replace (txt "T24") (txt "T23") (written d 24 mi s us) = written d 23 mi s us.
Proof.
  unfold replace, written. rewrite replace_skip by (intros c; apply date_not_T). f_equal. change (pad 2 24) with (txt "24"). change (pad 2 23) with (txt "23").
  set (r := txt ":" ++ _). assert (N : forall c, In c r -> c <> "T"%char) by (intros c; apply clock_not_T). clearbody r.
  cbn [txt list_ascii_of_string app]. cbn [replace_from prefix_of]. change (Ascii.eqb "T" "T" && (Ascii.eqb "2" "2" && (Ascii.eqb "4" "4" && true))) with true. cbv iota. cbn [length Nat.sub app]. cbn [replace_from].
  rewrite <- (app_nil_r r), (replace_skip _ r []) by exact N. cbn [replace_from]. reflexivity.
Qed.
Lemma replace_other d h mi s us : 24 < h <= 99 -> replace (txt "T24") (txt "T23") (written d h mi s us) = written d h mi s us.
Proof.
  intros H. unfold replace, written. rewrite replace_skip by (intros c; apply date_not_T). f_equal.
  set (r := txt ":" ++ _). assert (N : forall c, In c r -> c <> "T"%char) by (intros c; apply clock_not_T). clearbody r. change (txt "T" ++ pad 2 h ++ r) with ("T"%char :: pad 2 h ++ r). cbn [replace_from].
  assert (E : prefix_of (txt "T24") ("T"%char :: pad 2 h ++ r) = false).
  { cbn [pad app prefix_of txt list_ascii_of_string]. destruct (Ascii.eqb "2" (digit (h / 10 mod 10))) eqn:A; [|reflexivity]. destruct (Ascii.eqb "4" (digit (h mod 10))) eqn:B; [|reflexivity]. exfalso.
    apply Ascii.eqb_eq in A, B. pose proof (Z.mod_pos_bound (h / 10) 10 ltac:(lia)). pose proof (Z.mod_pos_bound h 10 ltac:(lia)). apply (f_equal digit_value) in A, B. rewrite digit_value_digit in A, B by lia. change (digit_value "2") with 2 in A. change (digit_value "4") with 4 in B.
    pose proof (Z.div_mod h 10 ltac:(lia)). rewrite Z.mod_small in A; [lia|]. split; [apply Z.div_pos; lia|apply Z.div_lt_upper_bound; lia]. }
  rewrite E. f_equal. rewrite <- (app_nil_r (pad 2 h ++ r)). rewrite replace_skip; [reflexivity|]. intros c I. apply in_app_iff in I as [I|I]; [exact (pad_not_T _ _ _ I)|exact (N c I)].
Qed.
Lemma written_not_null d h mi s us : existsb (text_eqb (written d h mi s us)) null_words = false.
Proof.
  apply Bool.not_true_is_false. intros H. apply existsb_exists in H as (w & I & E). apply text_eqb_eq in E. apply (f_equal (@length ascii)) in E. unfold written, show_date in E. rewrite !app_length, !pad_length in E. cbn in I. decompose [or] I; subst; try contradiction; cbn in E; lia.
Qed.
Lemma round_us_even flag v : v mod 1000 = 0 -> round_us flag v = Ok v.
Proof. intros E. unfold round_us. rewrite E. reflexivity. Qed.
Lemma instant_mod d h mi s us : instant d h mi s us mod 1000 = 0.
Proof. unfold instant, reading. replace (86400000000000 * day_of_date d + (((h * 60 + mi) * 60 + s) * 1000000000 + us * 1000 + 0)) with ((86400000000 * day_of_date d + ((h * 60 + mi) * 60 + s) * 1000000 + us) * 1000) by ring. apply Z_mod_mult. Qed.
Lemma instant_day d mi s us : 0 <= mi <= 59 -> 0 <= s <= 59 -> 0 <= us <= 999999 -> instant d 24 mi s us / day_ns = day_of_date d + 1.
Proof. intros. symmetry. apply (Z.div_unique_pos _ _ _ (reading 0 mi s us 0)); unfold instant, reading, day_ns; lia. Qed.
Lemma parse_string_24 d mi s us : calendar_day d -> 1 <= year d <= 9999 -> 0 <= mi <= 59 -> 0 <= s <= 59 -> six_digits us ->
  parse_string (written d 24 mi s us) = if 9999 <? year (next_day d) then Err OverflowError else Ok (instant d 24 mi s (micro us)).
Proof.
  intros D Y MI S U. unfold parse_string. rewrite written_not_null. rewrite dtparser_written by (assumption || unfold two_digits; lia). change (23 <? 24) with true. cbv iota. rewrite replace_24, dtparser_written by (assumption || unfold two_digits; lia). change (23 <? 23) with false. cbv iota.
  destruct (Z.leb_spec mi 59), (Z.leb_spec s 59); try lia. cbn [andb]. unfold add_hour. replace (instant d 23 mi s (micro us) + hour_ns) with (instant d 24 mi s (micro us)) by (unfold instant, reading, hour_ns; lia).
  rewrite instant_day by assumption. rewrite date_of_next, day_of_date_inv by exact D. reflexivity.
Qed.

Lemma date_bounds d y1 y2 : calendar_day d -> y1 <= year d <= y2 -> day_of_date (mkDate y1 1 1) <= day_of_date d < day_of_date (mkDate (y2 + 1) 1 1).
Proof.
  intros (M & D) Y. destruct d as [y m d]. cbn [year month day] in *. destruct (month_walk_back y m d M D) as (_ & R). unfold day_of_date. cbn [year month day]. pose proof (year_length_before y).
  replace (before_month y1 all_months 1) with 0 by reflexivity. replace (before_month (y2 + 1) all_months 1) with 0 by reflexivity. pose proof (before_year_mono y1 y). pose proof (before_year_mono (y + 1) (y2 + 1)). lia.
Qed.
Lemma parse_iso_in d h mi s us : calendar_day d -> 1678 <= year d <= 2261 -> 0 <= h <= 23 -> 0 <= mi <= 59 -> 0 <= s <= 59 -> six_digits us -> parse_text (written d h mi s us) = Ok (instant d h mi s (micro us)).
Proof.
  intros D Y H MI S U. assert (R : read_stamp (written d h mi s us) = Ok (instant d h mi s (micro us))).
  { rewrite read_stamp_written by (assumption || unfold two_digits; lia). destruct (Z.leb_spec h 23), (Z.leb_spec mi 59), (Z.leb_spec s 59); try lia. reflexivity. }
  unfold parse_text. rewrite R. pose proof (date_bounds d 1678 2261 D Y) as B. replace (day_of_date (mkDate 1678 1 1)) with (-106650) in B by (vm_compute; reflexivity). replace (day_of_date (mkDate (2261 + 1) 1 1)) with 106651 in B by (vm_compute; reflexivity).
  assert (T : TMIN < instant d h mi s (micro us) < TMAX) by (unfold instant, reading, TMIN, TMAX; unfold six_digits in U; lia).
  rewrite (parse_iso_stamp _ _ R) by lia. unfold parse_stamp, check_timestamp. destruct (Z.leb_spec (instant d h mi s (micro us)) TMIN), (Z.leb_spec TMAX (instant d h mi s (micro us))); try lia. apply round_us_even, instant_mod.
Qed.
Lemma next_year d : year d <= year (next_day d) <= year d + 1.
Proof. unfold next_day. destruct (day d <? _); cbn [year]; [lia|]. destruct (month d <? 12); cbn [year]; lia. Qed.

(** Hour 24 is read as that much of the next day, and is the time that the text of the next day stands for, if the next day is in the years 1900 to 2200. *)
Theorem C145_hour_24 d mi s us : calendar_day d -> 0 <= mi <= 59 -> 0 <= s <= 59 -> six_digits us -> 1900 <= year (next_day d) <= 2200 ->
  parse_text (written d 24 mi s us) = Ok (instant (next_day d) 0 mi s (micro us)) /\ parse_text (written (next_day d) 0 mi s us) = Ok (instant (next_day d) 0 mi s (micro us)).
Proof.
  intros D MI S U Y. destruct (next_day_spec d D) as (ND & NE). pose proof (next_year d) as YN.
  split; [|apply parse_iso_in; (assumption || lia)].
  unfold parse_text. rewrite read_stamp_written by (assumption || unfold two_digits; lia). change (24 <=? 23) with false. cbn [andb]. rewrite parse_string_24 by (assumption || lia). destruct (Z.ltb_spec 9999 (year (next_day d))); [lia|]. cbn [bindR].
  unfold fix_time_stamp. rewrite instant_day by assumption. rewrite <- NE, day_of_date_inv by exact ND.
  destruct (Z.ltb_spec 2200 (year (next_day d))), (Z.ltb_spec (year (next_day d)) 1900); try lia. rewrite round_us_even by apply instant_mod. f_equal. unfold instant, reading. rewrite NE. lia.
Qed.
(** Hours 0 to 23 are read as they are, in the years 1678 to 2261. *)
Theorem C145_other_hours d h mi s us : calendar_day d -> 1678 <= year d <= 2261 -> 0 <= h <= 23 -> 0 <= mi <= 59 -> 0 <= s <= 59 -> six_digits us -> parse_text (written d h mi s us) = Ok (instant d h mi s (micro us)).
Proof. apply parse_iso_in. Qed.
(** Hours from 25, minutes from 60 and seconds from 60 are refused, at hour 24 too. *)
Theorem C145_refused d h mi s us : calendar_day d -> 1 <= year d <= 9999 -> two_digits h -> two_digits mi -> two_digits s -> six_digits us -> 24 < h \/ 59 < mi \/ 59 < s -> parse_text (written d h mi s us) = Err ValueError.
Proof.
  intros D Y H MI S U O. unfold parse_text. rewrite read_stamp_written by assumption.
  assert (E : (h <=? 23) && (mi <=? 59) && (s <=? 59) = false) by (destruct (Z.leb_spec h 23), (Z.leb_spec mi 59), (Z.leb_spec s 59); try reflexivity; lia). rewrite E.
  unfold parse_string. rewrite written_not_null, dtparser_written by assumption. destruct (Z.ltb_spec 23 h) as [L|L].
  - destruct (Z.eq_dec h 24) as [->|N].
    + rewrite replace_24, dtparser_written by (assumption || unfold two_digits; lia). change (23 <? 23) with false. cbv iota. assert (F : (mi <=? 59) && (s <=? 59) = false) by (destruct (Z.leb_spec mi 59), (Z.leb_spec s 59); try reflexivity; lia). rewrite F. reflexivity.
    + unfold two_digits in H. rewrite replace_other by lia. rewrite dtparser_written by (assumption || unfold two_digits; lia). destruct (Z.ltb_spec 23 h); [reflexivity|lia].
  - assert (F : (mi <=? 59) && (s <=? 59) = false) by (destruct (Z.leb_spec mi 59), (Z.leb_spec s 59); try reflexivity; lia). rewrite F. reflexivity.
Qed.
(** Later texts are later times: with hours up to 24 and the years 1900 to 2199, whichever of the two texts has the hour 24. *)
Theorem C145_order d h mi s us d' h' mi' s' us' v v' : calendar_day d -> calendar_day d' -> 1900 <= year d <= 2199 -> 1900 <= year d' <= 2199 -> 0 <= h <= 24 -> 0 <= h' <= 24 -> 0 <= mi <= 59 -> 0 <= mi' <= 59 -> 0 <= s <= 59 -> 0 <= s' <= 59 -> six_digits us -> six_digits us' ->
  parse_text (written d h mi s us) = Ok v -> parse_text (written d' h' mi' s' us') = Ok v' -> (v <= v' <-> instant d h mi s (micro us) <= instant d' h' mi' s' (micro us')).
Proof.
  assert (G : forall d h mi s us v, calendar_day d -> 1900 <= year d <= 2199 -> 0 <= h <= 24 -> 0 <= mi <= 59 -> 0 <= s <= 59 -> six_digits us -> parse_text (written d h mi s us) = Ok v -> v = instant d h mi s (micro us)).
  { clear. intros d h mi s us v D Y H MI S U P. destruct (Z.eq_dec h 24) as [->|N].
    - pose proof (next_year d). destruct (C145_hour_24 d mi s us D MI S U ltac:(lia)) as [A _]. rewrite P in A. injection A as ->. destruct (next_day_spec d D) as (_ & NE). unfold instant, reading. rewrite NE. lia.
    - rewrite C145_other_hours in P by (assumption || lia). injection P as <-. reflexivity. }
  intros D D' Y Y' H H' MI MI' S S' U U' P P'. rewrite (G d h mi s us v) by assumption. rewrite (G d' h' mi' s' us' v') by assumption. reflexivity.
Qed.
(** Words for nothing are the beginning of 1980. *)
Theorem C145_words w : In w [txt ""; txt "none"; txt "None"; txt "NONE"; txt "null"; txt "Null"; txt "NULL"] -> parse_string w = Ok (instant (mkDate 1980 1 1) 0 0 0 0).
Proof. intros I. cbn [In] in I. decompose [or] I; subst; try contradiction; vm_compute; reflexivity. Qed.
(** ISO 8601 has the hour 24 only for midnight; half past 24 is read as well. *)
Theorem C145_past_midnight_refuted : exists d mi, calendar_day d /\ 0 < mi <= 59 /\ exists v, parse_text (written d 24 mi 0 None) = Ok v.
Proof. exists (mkDate 2020 2 29), 30. split; [unfold calendar_day; cbn; lia|]. split; [lia|]. destruct (C145_hour_24 (mkDate 2020 2 29) 30 0 None) as [E _]; [unfold calendar_day; cbn; lia|lia|lia|unfold six_digits; cbn; lia|vm_compute; split; discriminate|]. exists (instant (next_day (mkDate 2020 2 29)) 0 30 0 (micro None)). exact E. Qed.
(** Before 1900 and after 2200 the hour 24 gives the least or the greatest time there is, while the midnight it stands for is read as it is. *)
Theorem C145_other_years_refuted d : calendar_day d -> 1678 <= year d -> year (next_day d) <= 2261 -> year (next_day d) < 1900 \/ 2200 < year (next_day d) ->
  parse_text (written (next_day d) 0 0 0 None) = Ok (instant (next_day d) 0 0 0 0) /\ parse_text (written d 24 0 0 None) = Ok (if year (next_day d) <? 1900 then -9223372036854775807 else 9223372036854775807).
Proof.
  intros D Y1 Y2 O. destruct (next_day_spec d D) as (ND & NE). pose proof (next_year d) as YN. assert (U : six_digits None) by (unfold six_digits; cbn; lia).
  split; [apply (parse_iso_in (next_day d) 0 0 0 None); (assumption || lia)|].
  unfold parse_text. rewrite read_stamp_written by (assumption || unfold two_digits; lia). change (24 <=? 23) with false. cbn [andb]. rewrite parse_string_24 by (assumption || lia). destruct (Z.ltb_spec 9999 (year (next_day d))); [lia|]. cbn [bindR].
  unfold fix_time_stamp. rewrite instant_day by (cbn [micro]; lia). rewrite <- NE, day_of_date_inv by exact ND.
  destruct (Z.ltb_spec 2200 (year (next_day d))), (Z.ltb_spec (year (next_day d)) 1900); try lia; unfold round_us; rewrite Bool.andb_false_r; reflexivity.
Qed.
(** The last midnight of the calendar is an OverflowError, which callers that expect a ValueError do not see coming. *)
Theorem C145_last_midnight_refuted : calendar_day (mkDate 9999 12 31) /\ parse_text (written (mkDate 9999 12 31) 24 0 0 None) = Err OverflowError.
Proof. split; [unfold calendar_day; cbn; lia|]. vm_compute. reflexivity. Qed.

(** The end of a leap day, the midnight of a century, and a year before 1900. *)
Example C145_hyp : calendar_day (mkDate 2020 2 29) /\ next_day (mkDate 2020 2 29) = mkDate 2020 3 1 /\ parse_text (txt "2020-02-29T24:00:00") = parse_text (txt "2020-03-01T00:00:00") /\ parse_text (txt "2020-02-29T24:00:00") = Ok 1583020800000000000
  /\ parse_text (txt "1999-12-31T24:00:00.500000") = Ok 946684800500000000 /\ parse_text (txt "2020-02-29T25:00:00") = Err ValueError /\ parse_text (txt "1850-01-01T24:00:00") = Ok TMIN /\ written (mkDate 2020 2 29) 24 0 0 None = txt "2020-02-29T24:00:00".
Proof. repeat split; try (vm_compute; reflexivity); cbn; lia. Qed.

Print Assumptions C145_hour_24.
Print Assumptions C145_order.
Print Assumptions C145_other_years_refuted.
