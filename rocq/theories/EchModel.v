(** Model of the channels of an EDI object: what it keeps of the channels of the station it is given, and the electric and magnetic
    channels it reports (ex_metadata, hx_metadata and so on).
    /repo/mt_metadata/transfer_functions/io/edi/edi.py 1253-1283 (set) and 1291-1423 (read);
    metadata/define_measurement.py 508-568; metadata/emeasurement.py 179-240; metadata/hmeasurement.py 140-172.

    Simplifications: coordinates and angles are real numbers.  A channel that is read is the dictionary of the attributes that are set on it, in
    order; an attribute takes the value it is given (the conversion of a note to the type of the attribute is not here), and one that is not in
    the dictionary has its default.  The z coordinates are not set by anything here and are 0. *)
From Coq Require Import QArith Reals.
From Verif Require Import PyBase PyText PyFloat LayModel ZmmModel EdnModel.
Local Open Scope list_scope.

(** ** Angles: numpy's arctan2, rad2deg, deg2rad *)
Definition arctan2 (y x : R) : R :=
  if Rlt_dec 0 x then atan (y / x)
  else if Rlt_dec x 0 then (if Rle_dec 0 y then atan (y / x) + PI else atan (y / x) - PI)%R
  else if Rlt_dec 0 y then (PI / 2)%R else if Rlt_dec y 0 then (- (PI / 2))%R else 0%R.
Definition rad2deg (a : R) : R := (a * 180 / PI)%R.
Definition deg2rad (a : R) : R := (a * PI / 180)%R.

(** ** A channel of a station: its class, component, to_dict(single=True) and the attributes that define_measurement.py 508-568 looks at.
    [c_x] and [c_y] are negative.x and negative.y of an electric channel, location.x and location.y of the others. *)
Inductive kind : Type := Electric | Magnetic | Auxiliary.
Record chan : Type := mkCh { c_kind : kind; c_component : text; c_fields : list (text * value); c_azimuth : option R; c_translated : option R;
  c_number : Z; c_id : option text; c_x : option R; c_y : option R; c_x2 : option R; c_y2 : option R }.

(** ** Measurements.  emeasurement.py 20-170 and hmeasurement.py 13-125, the fields that are set from a channel; the dip is not read. *)
Inductive meas : Type :=
| EMeas (x y x2 y2 azm : R) (chtype : text) (id : pynum) (acqchan : text)
| HMeas (x y azm : R) (chtype : text) (id : pynum) (acqchan : text).

(** emeasurement.py 211-221 and 224-230 *)
Definition dipole_length (x y x2 y2 : R) : R := sqrt ((x2 - x) * (x2 - x) + (y2 - y) * (y2 - y))%R.
Definition azimuth (x y x2 y2 : R) : R := rad2deg (arctan2 (y2 - y) (x2 - x)).
(** emeasurement.py 233-243, hmeasurement.py 163-172: the digits of acqchan *)
Definition channel_number (acqchan : text) : Z := match read_int (filter is_digit acqchan) with Some n => n | None => 0%Z end.
(** emeasurement.py 181-190, hmeasurement.py 142-151 *)
Definition to_float (id : option text) : result pynum :=
  match id with None => Ok (Fin 0%Q) | Some s => match read_float s with Some x => Ok x | None => Err ValueError end end.
(** The patterns of chtype, emeasurement.py 41 and hmeasurement.py 33 *)
Definition word_char (c : ascii) : bool := existsb (Ascii.eqb c) (txt "abcdefghijklmnopqrstuvwxyzABCDEFGHIJKLMNOPQRSTUVWXYZ0123456789_").
Definition tail_ok (s : text) : bool := negb (text_eqb s []) && forallb word_char s.
Definition chtype_ok (letters : text) (s : text) : bool :=
  (match s with c :: r => existsb (Ascii.eqb c) letters && tail_ok r | [] => false end) ||
  (prefix_of (txt "RR") s || prefix_of (txt "rr") s) && tail_ok (skipn 2 s).

Definition or_zero (o : option R) : R := match o with Some x => x | None => 0%R end.
Definition same_angle (a b : option R) : bool :=
  match a, b with Some x, Some y => if Req_EM_T x y then true else false | None, None => true | _, _ => false end.
(** define_measurement.py 523-527 *)
Definition given_azimuth (c : chan) : R := or_zero (if same_angle (c_azimuth c) (c_translated c) then c_azimuth c else c_translated c).
(** emeasurement.py 193-201 *)
Definition zero (x : R) : bool := if Req_EM_T x 0 then true else false.
Definition azm_kept (x y x2 y2 azm : R) : R :=
  if negb (zero x && zero y && zero x2 && zero y2) && zero azm then azimuth x y x2 y2 else azm.
(** define_measurement.py 508-568 [from_metadata]: the attributes negative.x and so on of a channel that is not electric cannot be read;
    the component is small letters already (channel.py 255-262) *)
Definition from_metadata (c : chan) (ms : list (text * meas)) : result (list (text * meas)) :=
  let azm := given_azimuth c in
  if has_char "e" (c_component c) then
    match c_kind c with
    | Electric =>
        bindR (to_float (c_id c)) (fun id =>
        if chtype_ok (txt "eE") (c_component c) then
          let x := or_zero (c_x c) in let y := or_zero (c_y c) in let x2 := or_zero (c_x2 c) in let y2 := or_zero (c_y2 c) in
          Ok (dset text_dec (lower (c_component c)) (EMeas x y x2 y2 (azm_kept x y x2 y2 azm) (c_component c) id (show_int (c_number c))) ms)
        else Err ValueError)
    | _ => Err AttributeError
    end
  else if has_char "h" (c_component c) then
    match c_kind c with
    | Electric => Err AttributeError
    | _ =>
        bindR (to_float (c_id c)) (fun id =>
        if chtype_ok (txt "hHbB") (c_component c) then
          Ok (dset text_dec (lower (c_component c)) (HMeas (or_zero (c_x c)) (or_zero (c_y c)) azm (c_component c) id (show_int (c_number c))) ms)
        else Err ValueError)
    end
  else Ok ms.

(** ** Set: edi.py 1258-1283.  What is done with the data section (1276-1283) is not here. *)
Record erun : Type := mkERun { e_id : text; e_fields : list (text * value); e_channels : list chan }.
Definition ediobj : Type := (notes * list (text * meas))%type.
Fixpoint set_channels (rid : text) (cs : list chan) (o : ediobj) : result ediobj :=
  match cs with
  | [] => Ok o
  | c :: r => let d := put_channel rid (fst o) (c_component c, c_fields c) in
              bindR (from_metadata c (snd o)) (fun ms => set_channels rid r (d, ms))
  end.
Fixpoint set_runs (rs : list erun) (o : ediobj) : result ediobj :=
  match rs with
  | [] => Ok o
  | r :: rest => bindR (set_channels (e_id r) (e_channels r) (put_all (e_id r ++ txt ".") (e_fields r) (fst o), snd o)) (set_runs rest)
  end.

(** ** Read *)
Inductive cval : Type := CReal (x : R) | CId (x : pynum) | CInt (n : Z) | CText (s : text) | CNote (v : value).
Definition attrs : Type := list (text * cval).
Definition setc (k : string) (v : cval) (a : attrs) : attrs := dset text_dec (txt k) v a.

(** 1319-1329: manufacturer and type of both electrodes; [k.split(f"{comp}.")[1].strip()] *)
Definition word_after (comp k : text) : option text :=
  match second (comp ++ txt ".") k with Ok s => Some (strip s) | Err _ => None end.
Definition electrode_note (comp : text) (a : attrs) (kv : text * value) : attrs :=
  match word_after comp (fst kv) with
  | None => a
  | Some key =>
      let a1 := if text_eqb key (txt "manufacturer") then setc "positive.manufacturer" (CNote (snd kv)) (setc "negative.manufacturer" (CNote (snd kv)) a) else a in
      if text_eqb key (txt "type") then setc "positive.type" (CNote (snd kv)) (setc "negative.type" (CNote (snd kv)) a1) else a1
  end.
(** 1343-1350 *)
Definition channel_note (comp : text) (a : attrs) (kv : text * value) : attrs :=
  if contains (txt ".type") (fst kv) then a
  else match after (txt "." ++ comp ++ txt ".") (fst kv) with Some key => dset text_dec key (CNote (snd kv)) a | None => a end.
(** 1291-1352 [_get_electric_metadata].  A measurement of the other kind has no dipole length. *)
Definition get_electric (comp0 : text) (o : ediobj) : result attrs :=
  let comp := lower comp0 in
  let a0 := setc "negative.type" (CText (txt "electric")) (setc "positive.type" (CText (txt "electric")) [(txt "component", CText comp)]) in
  match dget text_dec comp (snd o) with
  | None => Ok a0
  | Some (HMeas _ _ _ _ _ _) => Err AttributeError
  | Some (EMeas x y x2 y2 _ chtype id acqchan) =>
      let len := dipole_length x y x2 y2 in
      let az := azimuth x y x2 y2 in
      let a1 := setc "dipole_length" (CReal len) a0 in
      let a2 := setc "channel_id" (CId id) a1 in
      let a3 := setc "translated_azimuth" (CReal az) (setc "measurement_azimuth" (CReal az) a2) in
      let a4 := setc "component" (CText chtype) a3 in
      let a5 := setc "channel_number" (CInt (channel_number acqchan)) a4 in
      let a6 := setc "positive.y2" (CReal y2) (setc "negative.y" (CReal y) (setc "positive.x2" (CReal x2) (setc "negative.x" (CReal x) a5))) in
      let a7 := fold_left (electrode_note comp) (fst o) a6 in
      let a8 := if zero x2 && zero y2 && zero x && zero y
                then setc "positive.y2" (CReal (len * sin (deg2rad az))) (setc "positive.x2" (CReal (len * cos (deg2rad az))) a7) else a7 in
      Ok (fold_left (channel_note comp) (fst o) a8)
  end.
(** 1391-1402 *)
Definition sensor_note (comp : text) (a : attrs) (kv : text * value) : attrs :=
  match word_after comp (fst kv) with
  | None => a
  | Some key =>
      let a1 := if text_eqb key (txt "manufacturer") then setc "sensor.manufacturer" (CNote (snd kv)) a else a in
      let a2 := if text_eqb key (txt "type") then setc "sensor.type" (CNote (snd kv)) a1 else a1 in
      if prefix_of (txt "sensor.") key then dset text_dec key (CNote (snd kv)) a2 else a2
  end.
(** 1362-1403 [_get_magnetic_metadata]; a measurement has no meas_magnetic (1387-1390) *)
Definition get_magnetic (comp : text) (o : ediobj) : result attrs :=
  let a0 := setc "sensor.type" (CText (txt "magnetic")) [(txt "component", CText comp)] in
  match dget text_dec comp (snd o) with
  | None => Ok a0
  | Some m =>
      let '(x, y, azm, chtype, id, acqchan) := match m with EMeas x y _ _ a t i q => (x, y, a, t, i, q) | HMeas x y a t i q => (x, y, a, t, i, q) end in
      let a1 := setc "translated_azimuth" (CReal azm) (setc "measurement_azimuth" (CReal azm) a0) in
      let a2 := setc "component" (CText chtype) a1 in
      let a3 := setc "channel_number" (CInt (channel_number acqchan)) a2 in
      let a4 := setc "channel_id" (CId id) a3 in
      let a5 := setc "location.y" (CReal y) (setc "location.x" (CReal x) a4) in
      Ok (fold_left (sensor_note comp) (fst o) a5)
  end.
