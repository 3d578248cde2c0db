(** The written form of a time of day, and which instant it stands for. *)
From Verif Require Import PyBase PyText MTimeModel IsoModel IsoSpec.
Local Open Scope list_scope.
Local Open Scope Z_scope.

(** year-month-dayThour:minute:second and, if wanted, microseconds *)
Definition written (d : date) (h mi s : Z) (us : option Z) : text :=
  show_date d ++ txt "T" ++ pad 2 h ++ txt ":" ++ pad 2 mi ++ txt ":" ++ pad 2 s ++ (match us with Some u => txt "." ++ pad 6 u | None => [] end).
Definition micro (us : option Z) : Z := match us with Some u => u | None => 0 end.
(** The instant at which so much of the day has passed *)
Definition instant (d : date) (h mi s us : Z) : Z := 86400000000000 * day_of_date d + reading h mi s us 0.
Definition two_digits (n : Z) : Prop := 0 <= n <= 99.
Definition six_digits (us : option Z) : Prop := 0 <= micro us <= 999999.
