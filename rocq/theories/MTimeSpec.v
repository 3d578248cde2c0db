(** Specification notions for time. *)
From Verif Require Import PyBase PyNum MTimeModel.
Local Open Scope Z_scope.

Definition valid_date (d : date) : Prop := make_date (year d) (month d) (day d) = Ok d.
Definition before (a b : date) : Prop :=
  year a < year b \/ (year a = year b /\ (month a < month b \/ (month a = month b /\ day a < day b))).

(** Days on which UTC stepped by a leap second since the start of GPS time (IERS Bulletin C). *)
Definition leap_days : list date :=
  [mkDate 1981 7 1; mkDate 1982 7 1; mkDate 1983 7 1; mkDate 1985 7 1; mkDate 1988 1 1;
   mkDate 1990 1 1; mkDate 1991 1 1; mkDate 1992 7 1; mkDate 1993 7 1; mkDate 1994 7 1;
   mkDate 1996 1 1; mkDate 1997 7 1; mkDate 1999 1 1; mkDate 2006 1 1; mkDate 2009 1 1;
   mkDate 2012 7 1; mkDate 2015 7 1; mkDate 2017 1 1].
(** [n] of them are on or before [d]. *)
Inductive leaps_until (d : date) : list date -> Z -> Prop :=
| lu_nil : leaps_until d [] 0
| lu_take x l n : ~ before d x -> leaps_until d l n -> leaps_until d (x :: l) (n + 1)
| lu_skip x l n : before d x -> leaps_until d l n -> leaps_until d (x :: l) n.

(** A stamp MTime can hold after construction: representable, and with at most 500 ns beyond a
    whole microsecond (larger remainders are rounded away), or one of the two end points. *)
Definition stored (v : Z) : Prop :=
  v = TMIN \/ v = TMAX \/ (TMIN < v < TMAX /\ v mod 1000 <= 500).
