(** Model of /repo/mt_metadata/timeseries/stationxml/fdsn_tools.py.

    Sample rates are rational numbers, azimuths are real numbers: binary rounding is not modelled. *)
From Coq Require Import Reals.
From Verif Require Import PyBase PyText PyNum PySort.
Local Open Scope Q_scope.

(** period_code_dict, 55-72, in the order of the source. *)
Definition period_code_dict : list (ascii * (Q * Q)) :=
  [ ("F"%char, (inject_Z 1000, inject_Z 5000)); ("G"%char, (inject_Z 1000, inject_Z 5000));
    ("D"%char, (inject_Z 250, inject_Z 1000)); ("C"%char, (inject_Z 250, inject_Z 1000));
    ("E"%char, (inject_Z 80, inject_Z 250)); ("S"%char, (inject_Z 10, inject_Z 80));
    ("H"%char, (inject_Z 80, inject_Z 250)); ("B"%char, (inject_Z 10, inject_Z 80));
    ("M"%char, (inject_Z 1, inject_Z 10)); ("L"%char, (95 # 100, 105 # 100));
    ("V"%char, (95 # 1000, 105 # 1000)); ("U"%char, (95 # 10000, 105 # 10000));
    ("R"%char, (1 # 10000, 1 # 1000)); ("P"%char, (1 # 100000, 1 # 10000));
    ("T"%char, (1 # 1000000, 1 # 100000)); ("Q"%char, (0, 1 # 1000000)) ].
(** measurement_code_dict, 74-89. *)
Definition measurement_code_dict : list (text * ascii) :=
  [ (txt "tilt", "A"%char); (txt "creep", "B"%char); (txt "calibration", "C"%char); (txt "pressure", "D"%char);
    (txt "magnetic", "F"%char); (txt "gravity", "G"%char); (txt "humidity", "I"%char); (txt "temperature", "K"%char);
    (txt "water_current", "O"%char); (txt "electric", "Q"%char); (txt "rain_fall", "R"%char);
    (txt "linear_strain", "S"%char); (txt "tide", "T"%char); (txt "wind", "W"%char) ].
(** measurement_code_dict_reverse, 91. *)
Definition measurement_code_dict_reverse : list (ascii * text) :=
  dupdate ascii_dec [] (map (fun kv => (snd kv, fst kv)) measurement_code_dict).
(** orientation_code_dict, 100-107: angle and variance. *)
Definition orientation_code_dict : list (ascii * (Z * Z)) :=
  [ ("N"%char, (0, 15)%Z); ("E"%char, (90, 15)%Z); ("Z"%char, (0, 15)%Z);
    ("1"%char, (30, 15)%Z); ("2"%char, (60, 15)%Z); ("3"%char, (0, 15)%Z) ].
(** mt_components_dict 109-113, mt_orientation_dict 115-122, forced_orientation 124. *)
Definition mt_components_dict : list (text * text) :=
  [ (txt "electric", txt "e"); (txt "magnetic", txt "h"); (txt "temperature", txt "temperature") ].
Definition mt_orientation_dict : list (ascii * text) :=
  [ ("N"%char, txt "x"); ("E"%char, txt "y"); ("Z"%char, txt "z");
    ("1"%char, txt "x"); ("2"%char, txt "y"); ("3"%char, txt "z") ].
Definition forced_orientation : list (text * ascii) :=
  [ (txt "x", "N"%char); (txt "y", "E"%char); (txt "z", "Z"%char) ].

(** create_location_code, 127-142, of a channel's component and number. *)
Definition create_location_code (component : text) (number : Z) : result text :=
  match component with
  | [] => Err IndexError
  | c :: _ => Ok [to_upper c; ascii_of_N (48 + Z.to_N (number mod 10))]
  end.

(** get_period_code, 145-160. *)
Definition in_band (b : Q * Q) (rate : Q) : bool := Qle_bool (fst b) rate && Qle_bool rate (snd b).
Definition sorted_codes : list (ascii * (Q * Q)) :=
  sort_key (fun kv : ascii * (Q * Q) => Z.of_N (code (fst kv))) period_code_dict.
Fixpoint first_band (l : list (ascii * (Q * Q))) (rate : Q) : ascii :=
  match l with
  | [] => "A"%char
  | (k, b) :: r => if in_band b rate then k else first_band r rate
  end.
Definition get_period_code (rate : Q) : ascii := first_band sorted_codes rate.

(** get_measurement_code, 163-181: the last table entry whose name contains the text. *)
Definition get_measurement_code (measurement : text) : ascii :=
  fold_left (fun acc kv => if contains (lower measurement) (fst kv) then snd kv else acc) measurement_code_dict "Y"%char.

(** angle, 95-96; get_orientation_code, 184-224.  [azimuth % 360] of line 198. *)
Definition mod360 (a : R) : R := (a - 360 * IZR (Int_part (a / 360)))%R.
Definition deg2rad (a : R) : R := (a * (PI / 180))%R.
Definition angle (a : R) : R := Rabs (cos (deg2rad a)).
Inductive facing : Type := Horizontal | Vertical | OtherFacing.
Definition rleb (a b : R) : bool := if Rle_dec a b then true else false.
Definition rltb (a b : R) : bool := if Rlt_dec a b then true else false.
Definition code_of_azimuth (azimuth : R) (o : facing) : option ascii :=
  let value := Rabs (cos (deg2rad (mod360 azimuth))) in
  match o with
  | Horizontal =>
      if rleb (angle 15) value then Some "N"%char
      else if rleb value (angle 105) then Some "E"%char
      else if rltb value (angle 15) && rleb (angle 45) value then Some "1"%char
      else if rltb value (angle 45) && rleb (angle 105) value then Some "2"%char
      else None
  | Vertical => if rleb (angle 15) value then Some "Z"%char else Some "3"%char
  | OtherFacing => None
  end.
Definition code_of_direction (d : text) : result (option ascii) :=
  match dget text_dec (lower d) forced_orientation with Some c => Ok (Some c) | None => Err ValueError end.
(** azimuth and direction as given. *)
Definition get_orientation_code (azimuth : option R) (direction : option text) (o : facing) : result (option ascii) :=
  match azimuth with
  | Some a => Ok (code_of_azimuth a o)
  | None => match direction with Some d => code_of_direction d | None => Ok None end
  end.

(** make_channel_code, 227-252; the azimuth may be a number, a direction or something else (then the
    orientation code is not assigned). *)
Inductive azimuth_arg : Type := ANumber (a : R) | ADirection (d : text) | AOther.
Definition show_code (c : option ascii) : text := match c with Some c => [c] | None => txt "None" end.
Definition make_channel_code (rate : Q) (measurement : text) (azimuth : azimuth_arg) (o : facing) : result text :=
  let p := get_period_code rate in
  let s := get_measurement_code measurement in
  bindR (match azimuth with
         | ANumber a => get_orientation_code (Some a) None o
         | ADirection d => get_orientation_code None (Some d) Horizontal
         | AOther => Err UnboundLocalError
         end)
        (fun c => Ok (p :: s :: show_code c)).

(** read_channel_code, 255-306. *)
Record code_info := mkInfo { i_band : Q * Q; i_measurement : text; i_orientation : Z * Z }.
Definition read_channel_code (c : text) : result code_info :=
  match c with
  | [p; s; o] =>
      let band := match dget ascii_dec p period_code_dict with Some b => b | None => (inject_Z 1, inject_Z 1) end in
      match dget ascii_dec s measurement_code_dict_reverse with
      | None => Err ValueError
      | Some component =>
          let component := if text_eqb component (txt "tide") then txt "magnetic" else component in
          match dget ascii_dec o orientation_code_dict with
          | None => Err ValueError
          | Some orientation => Ok (mkInfo band component orientation)
          end
      end
  | _ => Err ValueError
  end.

(** create_mt_component, 309-334.  (The branch on "tide" is not reached: read_channel_code has replaced
    it.) *)
Definition create_mt_component (c : text) : result text :=
  bindR (read_channel_code c) (fun d =>
  let d := if text_eqb (i_measurement d) (txt "tide")
           then read_channel_code (replace_char "T" (txt "F") c) else Ok d in
  bindR d (fun d =>
  match dget text_dec (i_measurement d) mt_components_dict with
  | None => Err KeyError
  | Some comp =>
      match c with
      | [_; _; o] =>
          match dget ascii_dec o mt_orientation_dict with
          | Some w => Ok (comp ++ w)%list
          | None => Err KeyError
          end
      | _ => Err IndexError
      end
  end)).
