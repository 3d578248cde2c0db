(** Model of /repo/mt_metadata/utils/location_helpers.py.

    Positions are rational numbers: the binary rounding of floats is not modelled. *)
From Verif Require Import PyBase PyText PyNum IsoModel PyFloat.
From Coq Require Import Qabs.
Local Open Scope Q_scope.

(** [int(x)] of a float: towards zero. *)
Definition py_int (q : Q) : Z := if Qle_bool 0 q then Qfloor q else Qceiling q.

(** convert_position_float2str, 10-50.  The degrees, minutes and the seconds (in ten-thousandths,
    as rounded by [np.round(_, 4)]) that are written; lines 30-46. *)
Definition dms_parts (position : Q) : Z * Z * Z * Z :=
  let deg0 := py_int position in
  let sign := (if deg0 <? 0 then -1 else 1)%Z in
  let deg := Z.abs deg0 in
  let minutes := (Qabs position - inject_Z deg) * inject_Z 60 in
  let sec := round_half_even ((minutes - inject_Z (py_int minutes)) * inject_Z 60 * inject_Z 10000) in
  let '(minutes, sec) := if (600000 <=? sec)%Z then (minutes + 1, 0%Z) else (minutes, sec) in
  let '(deg, minutes) := if (py_int minutes =? 60)%Z then ((deg + 1)%Z, 0) else (deg, minutes) in
  (sign, deg, py_int minutes, sec).
(** Line 47: [f"{sign * int(deg)}:{int(minutes):02.0f}:{sec:05.6f}"]; six decimals of seconds fill more
    than the five places asked for. *)
Definition float2str (position : Q) : text :=
  let '(sign, deg, minutes, sec) := dms_parts position in
  (show_int (sign * deg) ++ ":"%char :: pad 2 minutes ++ ":"%char :: show_scaled 6 (sec * 100))%list.

(** convert_position_str2float, 53-102; the range checks of minutes and seconds (105-152) only warn. *)
Definition num_add3 (sign : Z) (a b c : pynum) : pynum :=
  match a, b, c with
  | Fin d, Fin m, Fin s => Fin (inject_Z sign * (Qabs d + m / inject_Z 60 + s / inject_Z 3600))
  | _, _, _ => NonFinite
  end.
Definition deg_negative (a : pynum) : bool := match a with Fin d => negb (Qle_bool 0 d) | NonFinite => false end.
Definition str2float (s : text) : result pynum :=
  if text_eqb s (txt "None") then Ok (Fin 0) else
  match split_on ":" s with
  | [a; b; c] =>
      match read_float a with
      | None => Err ValueError
      | Some deg =>
          match read_float b with
          | None => Err ValueError
          | Some minutes =>
              match read_float c with
              | None => Err ValueError
              | Some sec => Ok (num_add3 (if deg_negative deg then -1 else 1)%Z deg minutes sec)
              end
          end
      end
  | _ => Err ValueError
  end.

(** What is given for a position: None, a text or a number. *)
Inductive given : Type := GNone | GText (s : text) | GNum (x : pynum).
Inductive axis : Type := Latitude | Longitude.

(** validate_position, 155-194, called with one of the two names it knows. *)
Definition in_limit (lim : Q) (x : pynum) : bool :=
  match x with Fin q => Qle_bool (Qabs q) lim | NonFinite => false end.
Definition limit (a : axis) : Q := match a with Latitude => inject_Z 90 | Longitude => inject_Z 180 end.
Definition validate_position (a : axis) (v : given) : result pynum :=
  let value :=
    match v with
    | GNone => Ok None
    | GText s =>
        if text_eqb s (txt "None") then Ok None
        else if has_char ":" s then bindR (str2float s) (fun x => Ok (Some x))
        else match read_float s with Some x => Ok (Some x) | None => Err ValueError end
    | GNum x => Ok (Some x)
    end in
  bindR value (fun o =>
    match o with
    | None => Ok (Fin 0)
    | Some x => if in_limit (limit a) x then Ok x else Err ValueError
    end).
