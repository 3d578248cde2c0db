(** Model of times at hour 24: /repo/mt_metadata/common/mttime.py 175-223 [_parse_string], 226-265 [_fix_out_of_bounds_time_stamp] and the part of [parse]
    (348-410) that calls them for texts.

    A datetime is its nanoseconds since 1970.  dateutil is modelled for texts of the form year-month-dayThour:minute:second with or without a fraction, of which it
    keeps six digits; dates that do not exist and texts of other forms are refused here, while dateutil may read some of them; zones are not modelled.  The texts
    that pandas reads are those of [IsoModel.read_stamp]. *)
From Verif Require Import PyBase PyText PyNum MTimeModel IsoModel.
Local Open Scope list_scope.
Local Open Scope Z_scope.

(** What [dateutil.parser.parse] gives: a datetime, an error that says that the hour must be in 0..23, or another error.  [datetime.replace] looks at the date first, then
    at the hour, the minute and the second. *)
Inductive dt_result : Type := DtOk (v : Z) | HourRange | Refused.
(** Hour, minute, second and fraction, of any size that two digits have *)
Definition clock24 (s : text) : result (Z * Z * Z * Z) :=
  bindR (take_number 2 s) (fun '(h, s1) =>
  bindR (take_char ":" s1) (fun s2 =>
  bindR (take_number 2 s2) (fun '(mi, s3) =>
  bindR (take_char ":" s3) (fun s4 =>
  bindR (take_number 2 s4) (fun '(se, s5) =>
  bindR (read_fraction s5) (fun '(f, s6) =>
  if text_eqb s6 [] then Ok (h, mi, se, f) else Err ValueError)))))).
Definition dtparser (s : text) : dt_result :=
  match bindR (read_date s) (fun '(d, s1) => bindR (take_char "T" s1) (fun s2 => bindR (clock24 s2) (fun c => Ok (d, c)))) with
  | Err _ => Refused
  | Ok (d, (h, mi, se, f)) =>
      if 23 <? h then HourRange
      else if (mi <=? 59) && (se <=? 59) then DtOk (day_ns * day_of_date d + (3600 * h + 60 * mi + se) * 1000000000 + 1000 * (f / 1000))
      else Refused
  end.

(** [datetime + timedelta(hours=1)]: OverflowError after the year 9999 *)
Definition hour_ns : Z := 3600000000000.
Definition add_hour (v : Z) : result Z := let w := v + hour_ns in if 9999 <? year (date_of_day (w / day_ns)) then Err OverflowError else Ok w.
Definition default_time : Z := 315532800000000000.
Definition null_words : list text := [txt ""; txt "none"; txt "None"; txt "NONE"; txt "null"; txt "Null"; txt "NULL"].
(** 175-223.  The second attempt of 215 has the day first; for the modelled texts, which begin with the year, it ends as the first. *)
Definition parse_string (s : text) : result Z :=
  if existsb (text_eqb s) null_words then Ok default_time
  else
    match dtparser s with
    | DtOk v => Ok v
    | HourRange => match dtparser (replace (txt "T24") (txt "T23") s) with DtOk v => add_hour v | _ => Err ValueError end
    | Refused => match dtparser s with DtOk v => Ok v | _ => Err ValueError end
    end.
(** 226-265 *)
Definition fix_time_stamp (v : Z) : bool * Z :=
  let y := year (date_of_day (v / day_ns)) in
  if 2200 <? y then (true, TMAX) else if y <? 1900 then (true, TMIN) else (false, v).
(** 348-400 for a text that is not one of the words of 349, without [gps_time]. *)
Definition parse_text (s : text) : result Z :=
  match read_stamp s with
  | Ok _ => parse_iso s
  | Err _ => bindR (parse_string s) (fun v => let '(flag, w) := fix_time_stamp v in round_us flag w)
  end.
