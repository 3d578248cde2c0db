(** What C34-C36 mean, apart from the model. *)
From Coq Require Import Reals.
From Verif Require Import PyBase PyText PyNum.
Local Open Scope Q_scope.

(** The sample rates (per second) of each letter.  Rates outside of all lines have no letter. *)
Definition rate_of_letter (c : ascii) (r : Q) : Prop :=
  (c = "Q"%char /\ 0 <= r <= 1 # 1000000)
  \/ (c = "T"%char /\ 1 # 1000000 < r < 1 # 100000)
  \/ (c = "P"%char /\ 1 # 100000 <= r <= 1 # 10000)
  \/ (c = "R"%char /\ 1 # 10000 < r <= 1 # 1000)
  \/ (c = "U"%char /\ 95 # 10000 <= r <= 105 # 10000)
  \/ (c = "V"%char /\ 95 # 1000 <= r <= 105 # 1000)
  \/ (c = "L"%char /\ 95 # 100 <= r <= 105 # 100)
  \/ (c = "M"%char /\ 105 # 100 < r < inject_Z 10)
  \/ (c = "B"%char /\ inject_Z 10 <= r <= inject_Z 80)
  \/ (c = "E"%char /\ inject_Z 80 < r < inject_Z 250)
  \/ (c = "C"%char /\ inject_Z 250 <= r <= inject_Z 1000)
  \/ (c = "F"%char /\ inject_Z 1000 < r <= inject_Z 5000).
Definition uncovered (r : Q) : Prop :=
  r < 0 \/ 1 # 1000 < r < 95 # 10000 \/ 105 # 10000 < r < 95 # 1000 \/ 105 # 1000 < r < 95 # 100 \/ inject_Z 5000 < r.

(** The angle in degrees, from 0 to 90, between north and the line of azimuth [a]. *)
Definition line_angle (a t : R) : Prop :=
  (0 <= t <= 90)%R /\ exists k : Z, (a = 180 * IZR k + t \/ a = 180 * IZR k - t)%R.

(** The kinds of measurement with a letter of their own, "tide" apart. *)
Definition measurements : list text :=
  [ txt "tilt"; txt "creep"; txt "calibration"; txt "pressure"; txt "magnetic"; txt "gravity"; txt "humidity";
    txt "temperature"; txt "water_current"; txt "electric"; txt "rain_fall"; txt "linear_strain"; txt "wind" ].
