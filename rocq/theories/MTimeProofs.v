(** Lemmas about times. *)
From Verif Require Import PyBase PyNum MTimeModel MTimeSpec.
Local Open Scope Z_scope.

(** *** Dates as numbers *)
Definition enc (d : date) : Z := year d * 10000 + month d * 100 + day d.

Lemma make_date_Ok y m d x : make_date y m d = Ok x ->
  x = mkDate y m d /\ 1 <= y <= 9999 /\ 1 <= m <= 12 /\ 1 <= d <= 31.
Proof.
  unfold make_date.
  destruct ((1 <=? y) && (y <=? 9999) && (1 <=? m) && (m <=? 12) && (1 <=? d) && (d <=? days_in_month y m)) eqn:E;
    [|discriminate]. intros H. injection H as <-.
  rewrite !andb_true_iff, !Z.leb_le in E.
  assert (days_in_month y m <= 31).
  { unfold days_in_month. destruct (m =? 2); [destruct (is_leap y); lia|].
    destruct ((m =? 4) || (m =? 6) || (m =? 9) || (m =? 11)); lia. }
  repeat split; lia.
Qed.

Definition inb (d : date) : Prop := 1 <= month d <= 12 /\ 1 <= day d <= 31.

Lemma valid_inb d : valid_date d -> inb d.
Proof. intros H. apply make_date_Ok in H. unfold inb. lia. Qed.

Lemma date_ltb_enc a b : inb a -> inb b -> date_ltb a b = (enc a <? enc b).
Proof.
  unfold inb, date_ltb, enc. intros Ha Hb. apply eq_true_iff_eq.
  rewrite !orb_true_iff, !andb_true_iff, !orb_true_iff, !andb_true_iff, !Z.ltb_lt, !Z.eqb_eq. nia.
Qed.

Lemma before_enc a b : inb a -> inb b -> (before a b <-> enc a < enc b).
Proof. unfold inb, before, enc. intros Ha Hb. nia. Qed.

(** *** Leap seconds *)
Fixpoint find_enc (n : Z) (rows : list (Z * (Z * Z))) : result Z :=
  match rows with
  | [] => Err ValueError
  | (k, (lo, hi)) :: r => if (n <? hi) && (lo <=? n) then Ok k else find_enc n r
  end.

Lemma find_row_enc d rows : inb d -> (forall k lo hi, In (k, (lo, hi)) rows -> inb lo /\ inb hi) ->
  find_row d rows = find_enc (enc d) (map (fun r => (fst r, (enc (fst (snd r)), enc (snd (snd r))))) rows).
Proof.
  intros Hd. induction rows as [|[k [lo hi]] rows IH]; intros H; [reflexivity|]. simpl.
  destruct (H k lo hi (or_introl eq_refl)) as [Hl Hh]. unfold date_leb.
  rewrite !date_ltb_enc by assumption. rewrite IH by (intros; eapply H; right; eassumption).
  rewrite <- Z.leb_antisym. reflexivity.
Qed.

Lemma table_inb k lo hi : In (k, (lo, hi)) leap_second_dict -> inb lo /\ inb hi.
Proof.
  intros H. assert (F : forallb (fun r => let '(_, (lo, hi)) := r in
    (1 <=? month lo) && (month lo <=? 12) && (1 <=? day lo) && (day lo <=? 31) &&
    (1 <=? month hi) && (month hi <=? 12) && (1 <=? day hi) && (day hi <=? 31)) leap_second_dict = true) by reflexivity.
  rewrite forallb_forall in F. specialize (F _ H). simpl in F. rewrite !andb_true_iff, !Z.leb_le in F.
  unfold inb. lia.
Qed.

Definition enc_table := Eval vm_compute in
  map (fun r => (fst r, (enc (fst (snd r)), enc (snd (snd r))))) leap_second_dict.

Lemma calc_enc d : valid_date d ->
  calculate_leap_seconds (year d) (month d) (day d) = find_enc (enc d) enc_table.
Proof.
  intros H. unfold calculate_leap_seconds. unfold valid_date in H. rewrite H. cbn [bindR].
  exact (find_row_enc d leap_second_dict (valid_inb d H) table_inb).
Qed.

Fixpoint count_enc (n : Z) (l : list Z) : Z :=
  match l with [] => 0 | x :: r => if x <=? n then count_enc n r + 1 else count_enc n r end.

Lemma leaps_until_enc d l : inb d -> (forall x, In x l -> inb x) ->
  leaps_until d l (count_enc (enc d) (map enc l)).
Proof.
  intros Hd. induction l as [|x l IH]; intros H; simpl; [constructor|].
  assert (Hx : inb x) by (apply H; now left).
  destruct (Z.leb_spec (enc x) (enc d)).
  - apply lu_take; [rewrite before_enc by assumption; lia|]. apply IH. intros; apply H; now right.
  - apply lu_skip; [apply before_enc; assumption|]. apply IH. intros; apply H; now right.
Qed.

Lemma leaps_until_fun d l n m : leaps_until d l n -> leaps_until d l m -> n = m.
Proof.
  intros H. revert m. induction H; intros m Hm; inversion Hm; subst; try contradiction.
  - reflexivity.
  - f_equal. auto.
  - auto.
Qed.

Definition enc_leaps := Eval vm_compute in map enc leap_days.

Lemma leap_days_inb x : In x leap_days -> inb x.
Proof.
  intros H. assert (F : forallb (fun x => (1 <=? month x) && (month x <=? 12) && (1 <=? day x) && (day x <=? 31)) leap_days = true) by reflexivity.
  rewrite forallb_forall in F. specialize (F _ H). simpl in F. rewrite !andb_true_iff, !Z.leb_le in F.
  unfold inb. lia.
Qed.

Lemma leaps_until_leap_days d : inb d -> leaps_until d leap_days (count_enc (enc d) enc_leaps).
Proof. intros H. exact (leaps_until_enc d leap_days H leap_days_inb). Qed.

(** The thresholds of the table, in order; both functions are constant between them. *)
Definition thresholds : list Z :=
  [19800101; 19810701; 19820701; 19830701; 19850701; 19880101; 19900101; 19910101; 19920701; 19930701;
   19940701; 19960101; 19970701; 19990101; 20060101; 20090101; 20120630; 20120701; 20150701; 20161231;
   20170101; 20260701].
Definition same_side (n m : Z) : Prop := forall k, In k thresholds -> (n <? k) = (m <? k).

Lemma same_side_leb n m k : same_side n m -> In k thresholds -> (k <=? n) = (k <=? m).
Proof. intros H Hk. rewrite !Z.leb_antisym. f_equal. auto. Qed.

Lemma find_enc_same n m rows : same_side n m ->
  (forall k lo hi, In (k, (lo, hi)) rows -> In lo thresholds /\ In hi thresholds) ->
  find_enc n rows = find_enc m rows.
Proof.
  intros H. induction rows as [|[k [lo hi]] rows IH]; intros HR; [reflexivity|]. cbn [find_enc].
  destruct (HR k lo hi (or_introl eq_refl)) as [Hl Hh].
  rewrite (H hi Hh), (same_side_leb n m lo H Hl), IH by (intros; eapply HR; right; eassumption). reflexivity.
Qed.

Lemma count_enc_same n m l : same_side n m -> (forall k, In k l -> In k thresholds) -> count_enc n l = count_enc m l.
Proof.
  intros H. induction l as [|x l IH]; intros HR; [reflexivity|]. cbn [count_enc].
  rewrite (same_side_leb n m x H (HR x (or_introl eq_refl))), IH by (intros; apply HR; now right). reflexivity.
Qed.

(** Every number is on the same side of all thresholds as one of them, or as 0. *)
Fixpoint rep (n acc : Z) (l : list Z) : Z :=
  match l with [] => acc | k :: r => if k <=? n then rep n k r else acc end.

Fixpoint ascending (a : Z) (l : list Z) : bool :=
  match l with [] => true | k :: r => (a <? k) && ascending k r end.

Lemma ascending_lt a l : ascending a l = true -> forall k, In k l -> a < k.
Proof.
  revert a. induction l as [|x l IH]; intros a H k Hk; [destruct Hk|]. simpl in H.
  apply andb_true_iff in H. destruct H as [H1 H2]. apply Z.ltb_lt in H1.
  destruct Hk as [->|Hk]; [assumption|]. specialize (IH x H2 k Hk). lia.
Qed.

Lemma rep_same n l : forall acc, ascending acc l = true -> acc <= n ->
  acc <= rep n acc l <= n /\ (rep n acc l = acc \/ In (rep n acc l) l) /\
  forall k, In k l -> (n <? k) = (rep n acc l <? k).
Proof.
  induction l as [|x l IH]; intros acc HA Ha.
  - cbn [rep]. split; [lia|]. split; [now left|]. intros k [].
  - simpl in HA. apply andb_true_iff in HA. destruct HA as [H1 H2]. apply Z.ltb_lt in H1.
    cbn [rep]. destruct (Z.leb_spec x n) as [Hx|Hx].
    + destruct (IH x H2 Hx) as (B & I & S). split; [lia|]. split; [destruct I as [->|I]; right; [now left|now right]|].
      intros k [<-|Hk]; [|now apply S].
      destruct (Z.ltb_spec n x); [lia|]. destruct (Z.ltb_spec (rep n x l) x); [lia|reflexivity].
    + split; [lia|]. split; [now left|]. intros k Hk.
      assert (x <= k) by (destruct Hk as [->|Hk]; [lia|]; pose proof (ascending_lt x l H2 k Hk); lia).
      destruct (Z.ltb_spec n k), (Z.ltb_spec acc k); try lia; reflexivity.
Qed.

Lemma representative n : 0 <= n ->
  exists m, (m = 0 \/ In m thresholds) /\ m <= n /\ same_side n m.
Proof.
  intros H. exists (rep n 0 thresholds). destruct (rep_same n thresholds 0 eq_refl H) as (B & I & S).
  repeat split; try lia; auto.
Qed.

Definition memZ (k : Z) (l : list Z) : bool := existsb (Z.eqb k) l.
Lemma memZ_In k l : memZ k l = true -> In k l.
Proof. unfold memZ. rewrite existsb_exists. intros (x & Hx & E). apply Z.eqb_eq in E. now subst. Qed.

Lemma table_thresholds k lo hi : In (k, (lo, hi)) enc_table -> In lo thresholds /\ In hi thresholds.
Proof.
  intros H. assert (F : forallb (fun r => memZ (fst (snd r)) thresholds && memZ (snd (snd r)) thresholds) enc_table = true) by (vm_compute; reflexivity).
  rewrite forallb_forall in F. specialize (F _ H). simpl fst in F. simpl snd in F. apply andb_true_iff in F.
  destruct F. split; now apply memZ_In.
Qed.

Lemma leaps_thresholds k : In k enc_leaps -> In k thresholds.
Proof.
  intros H. assert (F : forallb (fun r => memZ r thresholds) enc_leaps = true) by (vm_compute; reflexivity).
  rewrite forallb_forall in F. apply memZ_In. now apply F.
Qed.

Definition agree_at (m : Z) : bool :=
  match find_enc m enc_table with
  | Ok k => (k =? count_enc m enc_leaps) && (19800101 <=? m) && (m <? 20260701)
  | Err ValueError => (m <? 19800101) || (20260701 <=? m) || (m =? 20120630) || (m =? 20161231)
  | Err _ => false
  end.

Lemma agree_thresholds m : m = 0 \/ In m thresholds -> agree_at m = true.
Proof.
  intros [->|H]; [reflexivity|].
  assert (F : forallb agree_at thresholds = true) by (vm_compute; reflexivity).
  rewrite forallb_forall in F. auto.
Qed.

Lemma in_thr k : memZ k thresholds = true -> In k thresholds.
Proof. apply memZ_In. Qed.

(** The table agrees with the count except on two days. *)
Lemma table_correct n : 19800101 <= n < 20260701 ->
  ~ (20120630 <= n < 20120701) -> ~ (20161231 <= n < 20170101) ->
  find_enc n enc_table = Ok (count_enc n enc_leaps).
Proof.
  intros H1 H2 H3. destruct (representative n ltac:(lia)) as (m & I & L & S).
  rewrite (find_enc_same n m _ S table_thresholds), (count_enc_same n m _ S leaps_thresholds).
  pose proof (agree_thresholds m I) as A. unfold agree_at in A.
  destruct (find_enc m enc_table) as [k|e]; [rewrite !andb_true_iff, Z.eqb_eq in A; now destruct A as [[-> _] _]|].
  exfalso. destruct e; try discriminate.
  pose proof (S 19800101 (in_thr 19800101 eq_refl)) as S1. pose proof (S 20260701 (in_thr 20260701 eq_refl)) as S2.
  pose proof (S 20120701 (in_thr 20120701 eq_refl)) as S3. pose proof (S 20170101 (in_thr 20170101 eq_refl)) as S4.
  rewrite !orb_true_iff, Z.ltb_lt, Z.leb_le, !Z.eqb_eq in A.
  destruct (Z.ltb_spec n 19800101), (Z.ltb_spec m 19800101); try lia;
  destruct (Z.ltb_spec n 20260701), (Z.ltb_spec m 20260701); try lia;
  destruct (Z.ltb_spec n 20120701), (Z.ltb_spec m 20120701); try lia;
  destruct (Z.ltb_spec n 20170101), (Z.ltb_spec m 20170101); try lia.
Qed.

Lemma table_outside n : 0 <= n -> n < 19800101 \/ 20260701 <= n -> find_enc n enc_table = Err ValueError.
Proof.
  intros H0 H. destruct (representative n H0) as (m & I & L & S).
  rewrite (find_enc_same n m _ S table_thresholds).
  pose proof (agree_thresholds m I) as A. unfold agree_at in A.
  pose proof (S 19800101 (in_thr 19800101 eq_refl)) as S1. pose proof (S 20260701 (in_thr 20260701 eq_refl)) as S2.
  destruct (find_enc m enc_table) as [k|[]]; try discriminate; try reflexivity.
  exfalso. rewrite !andb_true_iff, Z.leb_le, Z.ltb_lt in A.
  destruct (Z.ltb_spec n 19800101), (Z.ltb_spec m 19800101); try lia;
  destruct (Z.ltb_spec n 20260701), (Z.ltb_spec m 20260701); try lia.
Qed.

Lemma table_values n k : 0 <= n -> find_enc n enc_table = Ok k -> k = count_enc n enc_leaps.
Proof.
  intros H0. destruct (representative n H0) as (m & I & L & S).
  rewrite (find_enc_same n m _ S table_thresholds), (count_enc_same n m _ S leaps_thresholds).
  pose proof (agree_thresholds m I) as A. unfold agree_at in A. intros H. rewrite H in A.
  rewrite !andb_true_iff, Z.eqb_eq in A. tauto.
Qed.

Lemma count_mono n m l : n <= m -> count_enc n l <= count_enc m l.
Proof.
  intros H. induction l as [|x l IH]; simpl; [lia|].
  destruct (Z.leb_spec x n), (Z.leb_spec x m); lia.
Qed.

Lemma no_day_between d : valid_date d -> ~ (20120630 < enc d < 20120701) /\ ~ (20161231 < enc d < 20170101).
Proof.
  intros H. pose proof (make_date_Ok _ _ _ _ H) as (_ & Hy & Hm & Hd).
  unfold valid_date, make_date in H.
  destruct ((1 <=? year d) && (year d <=? 9999) && (1 <=? month d) && (month d <=? 12) && (1 <=? day d) && (day d <=? days_in_month (year d) (month d))) eqn:E; [|discriminate].
  rewrite !andb_true_iff, !Z.leb_le in E. destruct E as [_ E]. unfold enc in *.
  split; intros HH.
  - assert (Y : year d = 2012) by nia. assert (M : month d = 6) by nia.
    rewrite Y, M in *. change (days_in_month 2012 6) with 30 in E. lia.
  - assert (Y : year d = 2016) by nia. assert (M : month d = 12) by nia.
    rewrite Y, M in *. change (days_in_month 2016 12) with 31 in E. lia.
Qed.

(** *** Rounding *)
Lemma Qfloor_mk a p : Qfloor (a # p) = a / Zpos p.
Proof. reflexivity. Qed.

Lemma round_1000 v : round_half_even (v # 1000) =
  let f := v / 1000 in let r := v mod 1000 in
  if r <? 500 then f else if 500 <? r then f + 1 else if Z.even f then f else f + 1.
Proof.
  unfold round_half_even. rewrite Qfloor_mk. set (f := v / 1000). cbn zeta.
  assert (E : ((v # 1000) - inject_Z f == (v mod 1000) # 1000)%Q).
  { unfold Qeq, Qminus, Qplus, Qopp, inject_Z. simpl. subst f.
    pose proof (Z.div_mod v 1000 ltac:(lia)). lia. }
  rewrite E. unfold Qcompare. simpl.
  destruct (Z.compare_spec (v mod 1000 * 2) 1000) as [C|C|C];
  destruct (Z.ltb_spec (v mod 1000) 500); destruct (Z.ltb_spec 500 (v mod 1000)); try lia; reflexivity.
Qed.

Lemma round_us_spec flag v :
  round_us flag v =
  if (500 <? v mod 1000) && negb flag
  then let w := v - v mod 1000 + 1000 in if TMAX <? w then Err OverflowError else Ok w
  else Ok v.
Proof.
  unfold round_us. pose proof (Z.mod_pos_bound v 1000 ltac:(lia)) as B.
  pose proof (Z.div_mod v 1000 ltac:(lia)) as D.
  rewrite !round_1000. cbn zeta.
  rewrite (Z.mod_small (v mod 1000) 1000), (Z.div_small (v mod 1000) 1000) by lia.
  destruct (Z.ltb_spec (v mod 1000) 500), (Z.ltb_spec 500 (v mod 1000)); try lia; try reflexivity.
  replace (1000 * (v / 1000 + 1)) with (v - v mod 1000 + 1000) by lia. reflexivity.
Qed.

Lemma parse_stamp_spec v :
  parse_stamp v =
  if v <=? TMIN then Ok TMIN else if TMAX <=? v then Ok TMAX
  else if v mod 1000 <=? 500 then Ok v
  else let w := v - v mod 1000 + 1000 in if TMAX <? w then Err OverflowError else Ok w.
Proof.
  unfold parse_stamp, check_timestamp.
  destruct (v <=? TMIN); [rewrite round_us_spec, andb_false_r; reflexivity|].
  destruct (TMAX <=? v); [rewrite round_us_spec, andb_false_r; reflexivity|].
  rewrite round_us_spec, andb_true_r, Z.ltb_antisym. destruct (v mod 1000 <=? 500); reflexivity.
Qed.

Lemma parse_stamp_stored v w : parse_stamp v = Ok w -> stored w.
Proof.
  rewrite parse_stamp_spec. unfold stored. pose proof (Z.mod_pos_bound v 1000 ltac:(lia)).
  destruct (Z.leb_spec v TMIN); [intros H'; injection H' as <-; auto|].
  destruct (Z.leb_spec TMAX v); [intros H'; injection H' as <-; auto|].
  destruct (Z.leb_spec (v mod 1000) 500); [intros H'; injection H' as <-; right; right; split; lia|].
  cbn zeta. destruct (Z.ltb_spec TMAX (v - v mod 1000 + 1000)); [discriminate|].
  intros H'. injection H' as <-. right.
  assert (M : (v - v mod 1000 + 1000) mod 1000 = 0).
  { apply Z.mod_divide; [lia|]. exists (v / 1000 + 1). pose proof (Z.div_mod v 1000 ltac:(lia)). lia. }
  destruct (Z.eq_dec (v - v mod 1000 + 1000) TMAX) as [E|E]; [left; exact E|].
  right. rewrite M. lia.
Qed.

Lemma parse_stamp_fixed v : stored v -> parse_stamp v = Ok v.
Proof.
  rewrite parse_stamp_spec. unfold stored. intros [->|[->|[H1 H2]]].
  - reflexivity.
  - reflexivity.
  - destruct (Z.leb_spec v TMIN); [lia|]. destruct (Z.leb_spec TMAX v); [lia|].
    destruct (Z.leb_spec (v mod 1000) 500); [reflexivity|lia].
Qed.

Lemma parse_stamp_near v w : TMIN <= v <= TMAX -> parse_stamp v = Ok w -> v <= w <= v + 499.
Proof.
  rewrite parse_stamp_spec. intros HB. pose proof (Z.mod_pos_bound v 1000 ltac:(lia)).
  destruct (Z.leb_spec v TMIN); [intros H'; injection H' as <-; lia|].
  destruct (Z.leb_spec TMAX v); [intros H'; injection H' as <-; lia|].
  destruct (Z.leb_spec (v mod 1000) 500); [intros H'; injection H' as <-; lia|].
  cbn zeta. destruct (Z.ltb_spec TMAX (v - v mod 1000 + 1000)); [discriminate|].
  intros H'. injection H' as <-. lia.
Qed.

Lemma parse_stamp_mono u v a b : u <= v -> parse_stamp u = Ok a -> parse_stamp v = Ok b -> a <= b.
Proof.
  intros H Ha Hb. rewrite parse_stamp_spec in Ha, Hb.
  pose proof (Z.mod_pos_bound u 1000 ltac:(lia)). pose proof (Z.mod_pos_bound v 1000 ltac:(lia)).
  pose proof (Z.div_mod u 1000 ltac:(lia)). pose proof (Z.div_mod v 1000 ltac:(lia)).
  assert (TM : TMIN < TMAX) by reflexivity.
  destruct (Z.leb_spec u TMIN); [injection Ha as <-|].
  - destruct (Z.leb_spec v TMIN); [injection Hb as <-; lia|].
    destruct (Z.leb_spec TMAX v); [injection Hb as <-; lia|].
    destruct (Z.leb_spec (v mod 1000) 500); [injection Hb as <-; lia|].
    cbn zeta in Hb. destruct (Z.ltb_spec TMAX (v - v mod 1000 + 1000)); [discriminate|]. injection Hb as <-. lia.
  - destruct (Z.leb_spec v TMIN); [lia|].
    destruct (Z.leb_spec TMAX u); [injection Ha as <-|].
    + destruct (Z.leb_spec TMAX v); [injection Hb as <-; lia|lia].
    + assert (D : u / 1000 <= v / 1000) by (apply Z.div_le_mono; lia).
      destruct (Z.leb_spec (u mod 1000) 500); [injection Ha as <-|
        cbn zeta in Ha; destruct (Z.ltb_spec TMAX (u - u mod 1000 + 1000)); [discriminate|]; injection Ha as <-];
      (destruct (Z.leb_spec TMAX v); [injection Hb as <-; lia|]);
      (destruct (Z.leb_spec (v mod 1000) 500); [injection Hb as <-|
        cbn zeta in Hb; destruct (Z.ltb_spec TMAX (v - v mod 1000 + 1000)); [discriminate|]; injection Hb as <-]); lia.
Qed.

Lemma parse_number_unfold x :
  parse_number x = bindR (from_seconds (if Qle_bool (x / inject_Z 300000000) (inject_Z 1000) then x
                                        else (x / inject_Z 1000000000)%Q)) parse_stamp.
Proof. reflexivity. Qed.

Lemma seconds_branch x : (x <= inject_Z 300000000000)%Q ->
  Qle_bool (x / inject_Z 300000000) (inject_Z 1000) = true.
Proof.
  intros H. apply Qle_bool_iff. apply Qle_shift_div_r; [reflexivity|].
  apply Qle_trans with (1 := H). discriminate.
Qed.

Lemma nano_branch x : (inject_Z 300000000000 < x)%Q ->
  Qle_bool (x / inject_Z 300000000) (inject_Z 1000) = false.
Proof.
  intros H. apply not_true_is_false. intros B. apply Qle_bool_iff in B.
  apply (Qlt_not_le _ _ H). 
  assert (E : (x == (x / inject_Z 300000000) * inject_Z 300000000)%Q) by (field; discriminate).
  rewrite E. apply Qle_trans with (inject_Z 1000 * inject_Z 300000000)%Q.
  - apply Qmult_le_compat_r; [exact B|discriminate].
  - discriminate.
Qed.

Lemma from_seconds_mono x y a b : (x <= y)%Q -> from_seconds x = Ok a -> from_seconds y = Ok b -> a <= b.
Proof.
  unfold from_seconds. intros H.
  destruct (_ && _); [|discriminate]. destruct (_ && _); [|discriminate].
  intros Ha Hb. inversion Ha as [Ha']. inversion Hb as [Hb']. clear Ha Hb Ha' Hb' a b.
  assert (round_half_even (x * inject_Z 1000000) <= round_half_even (y * inject_Z 1000000)).
  { apply round_half_even_mono. apply Qmult_le_compat_r; [exact H|discriminate]. }
  apply (Z.mul_le_mono_nonneg_l _ _ 1000); [discriminate|assumption].
Qed.

Lemma from_seconds_ok x : (inject_Z (-62135596800) <= x)%Q -> (x < inject_Z 253402300800)%Q ->
  exists v, from_seconds x = Ok v /\ (inject_Z v - inject_Z 500 <= x * inject_Z 1000000000)%Q /\
     (x * inject_Z 1000000000 <= inject_Z v + inject_Z 500)%Q /\ v mod 1000 = 0.
Proof.
  intros H1 H2. unfold from_seconds.
  rewrite (proj2 (Qle_bool_iff _ _) H1).
  assert (E : Qle_bool (inject_Z 253402300800) x = false).
  { apply not_true_is_false. intros B. apply Qle_bool_iff in B. lra. }
  rewrite E. cbn [andb negb]. eexists. split; [reflexivity|].
  pose proof (round_half_even_bound (x * inject_Z 1000000)) as [B1 B2].
  set (r := round_half_even (x * inject_Z 1000000)) in *.
  rewrite inject_Z_mult.
  change (inject_Z 1000) with (1000#1)%Q. change (inject_Z 500) with (500#1)%Q.
  change (inject_Z 1000000) with (1000000#1)%Q in *. change (inject_Z 1000000000) with (1000000000#1)%Q.
  repeat split; try lra. rewrite Z.mul_comm. apply Z.mod_mul. lia.
Qed.
