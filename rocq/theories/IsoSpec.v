(** The calendar, and what it means to write a time. *)
From Verif Require Import PyBase PyText MTimeModel IsoModel.
Local Open Scope Z_scope.

Definition epoch : date := mkDate 1970 1 1.
(** A day of the Gregorian calendar. *)
Definition calendar_day (d : date) : Prop := 1 <= month d <= 12 /\ 1 <= day d <= days_in_month (year d) (month d).
(** The day after. *)
Definition next_day (d : date) : date :=
  if day d <? days_in_month (year d) (month d) then mkDate (year d) (month d) (day d + 1)
  else if month d <? 12 then mkDate (year d) (month d + 1) 1
  else mkDate (year d + 1) 1 1.

Definition representable (v : Z) : Prop := -9223372036854775807 <= v <= 9223372036854775807.
(** The part of a day a number of nanoseconds stands for. *)
Definition reading (h mi s us ns : Z) : Z := ((h * 60 + mi) * 60 + s) * 1000000000 + us * 1000 + ns.

(** The values a component takes by itself. *)
Definition component_range (c : component) (n : Z) : Prop :=
  match c with
  | CYear => True
  | CMonth => 1 <= n <= 12
  | CDay => 1 <= n <= 31
  | CHour => 0 <= n <= 23
  | CMinute | CSecond => 0 <= n <= 59
  | CMicro => 0 <= n <= 999999
  | CNano => 0 <= n <= 999
  end.
