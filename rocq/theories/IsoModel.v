(** Model of the texts that [MTime] writes and reads: [isoformat], [iso_no_tz], [isodate] and the
    parsing of such texts (/repo/mt_metadata/common/mttime.py 302-410, 853-864, 895-907, 1063-1089).

    The texts are made and read by pandas ([Timestamp.isoformat], [Timestamp(text)]); modelled here
    is what they do for times in UTC.  Other notations for times (dateutil) are not modelled: they
    are refused by [parse_iso]. *)
From Verif Require Import PyBase PyText PyNum MTimeModel.
Local Open Scope Z_scope.

(* ---------------------------------------------------------------- calendar *)

Definition all_months : list Z := [1; 2; 3; 4; 5; 6; 7; 8; 9; 10; 11; 12].

(** Days before the first of January of the year 1, 2, ... in the Gregorian calendar. *)
Definition before_year (y : Z) : Z := 365 * (y - 1) + (y - 1) / 4 - (y - 1) / 100 + (y - 1) / 400.
Fixpoint before_month (y : Z) (ms : list Z) (m : Z) : Z :=
  match ms with
  | [] => 0
  | k :: r => if k =? m then 0 else days_in_month y k + before_month y r m
  end.
(** [datetime.date.toordinal] minus the ordinal of 1970-01-01. *)
Definition day_of_date (d : date) : Z :=
  before_year (year d) + before_month (year d) all_months (month d) + (day d - 1) - 719162.

(** [datetime.date.fromordinal]. *)
Definition year_and_day (n : Z) : Z * Z :=
  let n400 := n / 146097 in let r400 := n mod 146097 in
  let n100 := r400 / 36524 in let r100 := r400 mod 36524 in
  let n4 := r100 / 1461 in let r4 := r100 mod 1461 in
  let n1 := r4 / 365 in let r1 := r4 mod 365 in
  let y := 400 * n400 + 100 * n100 + 4 * n4 + n1 + 1 in
  if (n1 =? 4) || (n100 =? 4) then (y - 1, 365) else (y, r1).
Fixpoint month_and_day (y : Z) (ms : list Z) (r : Z) : Z * Z :=
  match ms with
  | [] => (12, r + 1)
  | m :: ms' => if r <? days_in_month y m then (m, r + 1) else month_and_day y ms' (r - days_in_month y m)
  end.
Definition date_of_day (z : Z) : date :=
  let '(y, r) := year_and_day (z + 719162) in
  let '(m, d) := month_and_day y all_months r in mkDate y m d.

(* ---------------------------------------------------------------- digits *)

Definition digit (n : Z) : ascii := ascii_of_N (48 + Z.to_N n).
(** [f"{n:0kd}"] for [0 <= n < 10^k]. *)
Fixpoint pad (k : nat) (n : Z) : text :=
  match k with O => [] | S k' => (pad k' (n / 10) ++ [digit (n mod 10)])%list end.
Definition digit_value (c : ascii) : Z := Z.of_N (code c) - 48.
Definition number_of (s : text) : Z := fold_left (fun acc c => 10 * acc + digit_value c) s 0.
(** The next [k] characters, which have to be digits. *)
Definition take_number (k : nat) (s : text) : result (Z * text) :=
  let w := firstn k s in
  if (length w =? k)%nat && forallb is_digit w then Ok (number_of w, skipn k s) else Err ValueError.
Definition take_char (c : ascii) (s : text) : result text :=
  match s with a :: r => if Ascii.eqb a c then Ok r else Err ValueError | [] => Err ValueError end.

(* ---------------------------------------------------------------- writing *)

(** [Timestamp.date().isoformat()], mttime.py 895-907, 1077-1089. *)
Definition show_date (d : date) : text :=
  (pad 4 (year d) ++ txt "-" ++ pad 2 (month d) ++ txt "-" ++ pad 2 (day d))%list.
(** The time of day, in nanoseconds.  Microseconds and nanoseconds are written only if there are any. *)
Definition show_clock (t : Z) : text :=
  let s := t / 1000000000 in
  let f := t mod 1000000000 in
  (pad 2 (s / 3600) ++ txt ":" ++ pad 2 ((s / 60) mod 60) ++ txt ":" ++ pad 2 (s mod 60) ++
   (if f mod 1000 =? 0 then (if f =? 0 then [] else txt "." ++ pad 6 (f / 1000)) else txt "." ++ pad 9 f))%list.
Definition isodate (v : Z) : text := show_date (date_of_day (v / day_ns)).
Definition iso_no_tz_text (v : Z) : text := (isodate v ++ txt "T" ++ show_clock (v mod day_ns))%list.
(** mttime.py 1063-1075 [isoformat]. *)
Definition isoformat (v : Z) : text := (iso_no_tz_text v ++ txt "+00:00")%list.
(** mttime.py 853-864 [iso_no_tz]: [isoformat().split("+", 1)[0]]. *)
Definition iso_no_tz (v : Z) : text := fst (split1 "+" (isoformat v)).

(* ---------------------------------------------------------------- reading *)

Definition read_date (s : text) : result (date * text) :=
  bindR (take_number 4 s) (fun '(y, s1) =>
  bindR (take_char "-" s1) (fun s2 =>
  bindR (take_number 2 s2) (fun '(m, s3) =>
  bindR (take_char "-" s3) (fun s4 =>
  bindR (take_number 2 s4) (fun '(d, s5) =>
  bindR (make_date y m d) (fun dt => Ok (dt, s5))))))).
Fixpoint take_digits (s : text) : text * text :=
  match s with
  | [] => ([], [])
  | c :: r => if is_digit c then let '(w, r') := take_digits r in (c :: w, r') else ([], s)
  end.
(** A fraction of up to nine digits. *)
Definition read_fraction (s : text) : result (Z * text) :=
  match s with
  | c :: r =>
      if Ascii.eqb c "." then
        let '(w, r') := take_digits r in
        if ((1 <=? length w) && (length w <=? 9))%nat
        then Ok (number_of w * 10 ^ Z.of_nat (9 - length w), r') else Err ValueError
      else Ok (0, s)
  | [] => Ok (0, s)
  end.
Definition read_clock (s : text) : result (Z * text) :=
  bindR (take_number 2 s) (fun '(h, s1) =>
  bindR (take_char ":" s1) (fun s2 =>
  bindR (take_number 2 s2) (fun '(mi, s3) =>
  bindR (take_char ":" s3) (fun s4 =>
  bindR (take_number 2 s4) (fun '(se, s5) =>
  bindR (read_fraction s5) (fun '(f, s6) =>
  if (h <=? 23) && (mi <=? 59) && (se <=? 59)
  then Ok ((3600 * h + 60 * mi + se) * 1000000000 + f, s6) else Err ValueError)))))).
(** [pandas.Timestamp(text)] for a date, a date and time, and a date and time in UTC. *)
Definition read_stamp (s : text) : result Z :=
  bindR (read_date s) (fun '(d, s1) =>
  match s1 with
  | [] => Ok (day_ns * day_of_date d)
  | _ =>
      bindR (take_char "T" s1) (fun s2 =>
      bindR (read_clock s2) (fun '(t, s3) =>
      if text_eqb s3 [] || text_eqb s3 (txt "+00:00") then Ok (day_ns * day_of_date d + t) else Err ValueError))
  end).
(** mttime.py 226-265 [_fix_out_of_bounds_time_stamp], for a time pandas does not represent. *)
Definition fix_out_of_bounds (v : Z) : bool * Z := if 0 <? v then (true, TMAX) else (true, TMIN).
(** mttime.py 350-410 [parse] of a text that is not empty, without [gps_time]. *)
Definition parse_iso (s : text) : result Z :=
  bindR (read_stamp s) (fun v =>
  let '(flag, w) := if (TMIN <=? v) && (v <=? TMAX) then check_timestamp v else fix_out_of_bounds v in
  round_us flag w).

(* ---------------------------------------------------------------- components *)

Record parts : Type := mkParts
  { p_year : Z; p_month : Z; p_day : Z; p_hour : Z; p_minute : Z; p_second : Z; p_micro : Z; p_nano : Z }.
(** mttime.py 909-1040: the getters. *)
Definition parts_of (v : Z) : parts :=
  let d := date_of_day (v / day_ns) in
  let t := v mod day_ns in
  let s := t / 1000000000 in
  let f := t mod 1000000000 in
  mkParts (year d) (month d) (day d) (s / 3600) ((s / 60) mod 60) (s mod 60) (f / 1000) (f mod 1000).
Definition within (lo hi n : Z) : bool := (lo <=? n) && (n <=? hi).
(** [Timestamp.replace]: the stamp with these components.  It raises for a date that does not exist, a
    component outside its range and a time that is not representable. *)
Definition build (p : parts) : result Z :=
  bindR (make_date (p_year p) (p_month p) (p_day p)) (fun d =>
  if within 0 23 (p_hour p) && within 0 59 (p_minute p) && within 0 59 (p_second p)
     && within 0 999999 (p_micro p) && within 0 999 (p_nano p)
  then let v := day_ns * day_of_date d
                + (3600 * p_hour p + 60 * p_minute p + p_second p) * 1000000000 + 1000 * p_micro p + p_nano p in
       if within TMIN TMAX v then Ok v else Err OverflowError
  else Err ValueError).

Inductive component : Type := CYear | CMonth | CDay | CHour | CMinute | CSecond | CMicro | CNano.
Definition get (c : component) (v : Z) : Z :=
  match c with
  | CYear => p_year (parts_of v) | CMonth => p_month (parts_of v) | CDay => p_day (parts_of v)
  | CHour => p_hour (parts_of v) | CMinute => p_minute (parts_of v) | CSecond => p_second (parts_of v)
  | CMicro => p_micro (parts_of v) | CNano => p_nano (parts_of v)
  end.
(** mttime.py 921-1044: the setters, [self.time_stamp = self.time_stamp.replace(year=value)] and so on.
    The class does not validate assignments, so the result is stored as it is. *)
Definition set (c : component) (n v : Z) : result Z :=
  let p := parts_of v in
  build match c with
  | CYear => mkParts n (p_month p) (p_day p) (p_hour p) (p_minute p) (p_second p) (p_micro p) (p_nano p)
  | CMonth => mkParts (p_year p) n (p_day p) (p_hour p) (p_minute p) (p_second p) (p_micro p) (p_nano p)
  | CDay => mkParts (p_year p) (p_month p) n (p_hour p) (p_minute p) (p_second p) (p_micro p) (p_nano p)
  | CHour => mkParts (p_year p) (p_month p) (p_day p) n (p_minute p) (p_second p) (p_micro p) (p_nano p)
  | CMinute => mkParts (p_year p) (p_month p) (p_day p) (p_hour p) n (p_second p) (p_micro p) (p_nano p)
  | CSecond => mkParts (p_year p) (p_month p) (p_day p) (p_hour p) (p_minute p) n (p_micro p) (p_nano p)
  | CMicro => mkParts (p_year p) (p_month p) (p_day p) (p_hour p) (p_minute p) (p_second p) n (p_nano p)
  | CNano => mkParts (p_year p) (p_month p) (p_day p) (p_hour p) (p_minute p) (p_second p) (p_micro p) n
  end.

(** What the attribute [time_stamp] can hold: a stamp, or whatever was assigned to it. *)
Inductive held : Type := Stamp (v : Z) | Raw (s : text).
(** mttime.py 811-820 [to_dict]: [self.time_stamp.isoformat()], an AttributeError for a text. *)
Definition mtime_to_dict (h : held) : result text :=
  match h with Stamp v => Ok (isoformat v) | Raw _ => Err AttributeError end.
(** mttime.py 822-837 [from_dict]: [self.time_stamp = value], not validated. *)
Definition mtime_from_dict (h : held) (s : text) : held := Raw s.
(** [MTime(time_stamp=value)] *)
Definition mtime_new (s : text) : result held := bindR (parse_iso s) (fun v => Ok (Stamp v)).
