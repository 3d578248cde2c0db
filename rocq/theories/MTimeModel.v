(** Model of /repo/mt_metadata/common/mttime.py: leap seconds, parsing of numbers and time
    stamps, comparison and arithmetic of MTime and MDate.  Parsing of strings (dateutil,
    pandas) is not modelled. *)
From Verif Require Import PyBase PyNum.
Local Open Scope Z_scope.

(** *** Calendar dates *)
(** [datetime.date(year, month, day)]. *)
Record date : Type := mkDate { year : Z; month : Z; day : Z }.

Definition is_leap (y : Z) : bool := ((y mod 4 =? 0) && negb (y mod 100 =? 0)) || (y mod 400 =? 0).
Definition days_in_month (y m : Z) : Z :=
  if m =? 2 then (if is_leap y then 29 else 28)
  else if (m =? 4) || (m =? 6) || (m =? 9) || (m =? 11) then 30 else 31.
(** The constructor raises ValueError for anything else (years 1 to 9999). *)
Definition make_date (y m d : Z) : result date :=
  if (1 <=? y) && (y <=? 9999) && (1 <=? m) && (m <=? 12) && (1 <=? d) && (d <=? days_in_month y m)
  then Ok (mkDate y m d) else Err ValueError.

(** Comparison of dates: by year, month, day. *)
Definition date_ltb (a b : date) : bool :=
  (year a <? year b) || ((year a =? year b) &&
    ((month a <? month b) || ((month a =? month b) && (day a <? day b)))).
Definition date_leb (a b : date) : bool := negb (date_ltb b a).

(** mttime.py 44-64 [leap_second_dict]: key, min, max. *)
Definition leap_second_dict : list (Z * (date * date)) :=
  [(0, (mkDate 1980 1 1, mkDate 1981 7 1));
   (1, (mkDate 1981 7 1, mkDate 1982 7 1));
   (2, (mkDate 1982 7 1, mkDate 1983 7 1));
   (3, (mkDate 1983 7 1, mkDate 1985 7 1));
   (4, (mkDate 1985 7 1, mkDate 1988 1 1));
   (5, (mkDate 1988 1 1, mkDate 1990 1 1));
   (6, (mkDate 1990 1 1, mkDate 1991 1 1));
   (7, (mkDate 1991 1 1, mkDate 1992 7 1));
   (8, (mkDate 1992 7 1, mkDate 1993 7 1));
   (9, (mkDate 1993 7 1, mkDate 1994 7 1));
   (10, (mkDate 1994 7 1, mkDate 1996 1 1));
   (11, (mkDate 1996 1 1, mkDate 1997 7 1));
   (12, (mkDate 1997 7 1, mkDate 1999 1 1));
   (13, (mkDate 1999 1 1, mkDate 2006 1 1));
   (14, (mkDate 2006 1 1, mkDate 2009 1 1));
   (15, (mkDate 2009 1 1, mkDate 2012 6 30));
   (16, (mkDate 2012 7 1, mkDate 2015 7 1));
   (17, (mkDate 2015 7 1, mkDate 2016 12 31));
   (18, (mkDate 2017 1 1, mkDate 2026 7 1))].

(** mttime.py 121-134: first row with [given_date < max and given_date >= min]. *)
Fixpoint find_row (d : date) (rows : list (Z * (date * date))) : result Z :=
  match rows with
  | [] => Err ValueError
  | (k, (lo, hi)) :: r => if date_ltb d hi && date_leb lo d then Ok k else find_row d r
  end.
(** mttime.py 67-138 [calculate_leap_seconds]. *)
Definition calculate_leap_seconds (y m d : Z) : result Z :=
  bindR (make_date y m d) (fun given => find_row given leap_second_dict).

(** *** Time stamps: nanoseconds since 1970 *)
(** mttime.py 168-169, [pandas.Timestamp.min/max]. *)
Definition TMIN : Z := -9223372036854775807.
Definition TMAX : Z := 9223372036854775807.

(** mttime.py 268-299 [_check_timestamp]: the flag and the clamped stamp. *)
Definition check_timestamp (v : Z) : bool * Z :=
  if v <=? TMIN then (true, TMIN)
  else if TMAX <=? v then (true, TMAX)
  else (false, v).

(** mttime.py 399-400: when [round(stamp.nanosecond / 1000) == 1] and the stamp was not clamped,
    round to microseconds (to the nearest, ties to even; the nanosecond part is above 500 here).
    pandas raises when the rounded value is not representable. *)
Definition round_us (flag : bool) (v : Z) : result Z :=
  if (round_half_even (v mod 1000 # 1000) =? 1) && negb flag
  then let w := 1000 * round_half_even (v # 1000) in
       if TMAX <? w then Err OverflowError else Ok w
  else Ok v.

(** mttime.py 302-410 [parse] of a pandas Timestamp, without gps_time: what
    [MTime(time_stamp=...)] stores. *)
Definition parse_stamp (v : Z) : result Z :=
  let (flag, w) := check_timestamp v in round_us flag w.

(** [pd.Timestamp.utcfromtimestamp(seconds)]: rounded to the microsecond; years 1 to 9999. *)
Definition from_seconds (x : Q) : result Z :=
  if Qle_bool (inject_Z (-62135596800)) x && negb (Qle_bool (inject_Z 253402300800) x)
  then Ok (1000 * round_half_even (x * inject_Z 1000000)) else Err ValueError.

(** mttime.py 359-375: a number is seconds, or nanoseconds when above 1000 * 3e8. *)
Definition parse_number (x : Q) : result Z :=
  let s := if Qle_bool (x / inject_Z 300000000) (inject_Z 1000) then x else (x / inject_Z 1000000000)%Q in
  bindR (from_seconds s) (fun v =>
  let (flag, w) := check_timestamp v in round_us flag w).

(** mttime.py 360-364: with gps_time a number below 3e8 is refused. *)
Definition gps_refused (x : Q) : bool := negb (Qle_bool (inject_Z 1) (x / inject_Z 300000000)).

(** *** Comparisons, mttime.py 585-733, between two MTime objects (both in UTC). *)
Definition mt_eq (a b : Z) : bool := a =? b.
Definition mt_ne (a b : Z) : bool := negb (mt_eq a b).
Definition mt_lt (a b : Z) : bool := a <? b.
Definition mt_le (a b : Z) : bool := a <=? b.
(** 693-710: [not self.__lt__(other)]. *)
Definition mt_gt (a b : Z) : bool := negb (mt_lt a b).
Definition mt_ge (a b : Z) : bool := b <=? a.

(** *** Arithmetic *)
(** [Timestamp + Timedelta]: raises outside the representable range. *)
Definition stamp_add (v d : Z) : result Z :=
  if (TMIN <=? v + d) && (v + d <=? TMAX) then Ok (v + d) else Err OverflowError.

(** mttime.py 735-761 [__add__] and 763-800 [__sub__] with a duration in nanoseconds. *)
Definition mt_add (v d : Z) : result Z := bindR (stamp_add v d) parse_stamp.
Definition mt_sub_delta (v d : Z) : result Z := bindR (stamp_add v (- d)) parse_stamp.
(** mttime.py 783-797: difference of two times, in seconds.  The other time is parsed again. *)
Definition mt_diff (a b : Z) : result Q :=
  bindR (parse_stamp b) (fun b1 => bindR (parse_stamp b1) (fun b2 => Ok ((a - b2) # 1000000000))).

(** *** MDate, mttime.py 1130-1268.  A stamp that may carry a time of day. *)
Definition day_ns : Z := 86400000000000.
(** [isodate] drops the time of day. *)
Definition truncate_day (v : Z) : Z := day_ns * (v / day_ns).
(** 1152-1178 [__add__] with a number of whole days. *)
Definition md_add_days (v n : Z) : result Z := bindR (stamp_add v (n * day_ns)) parse_stamp.
(** 1180-1220 [__sub__] of another MDate: [MTime(time_stamp=other)] reads [other.isoformat()],
    which is the date only; the result is in days. *)
Definition md_diff (a b : Z) : result Q :=
  bindR (parse_stamp (truncate_day b)) (fun b1 =>
  bindR (parse_stamp b1) (fun b2 => Ok (((a - b2) # 1000000000) / inject_Z 86400)%Q)).
