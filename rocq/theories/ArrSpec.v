(** Specification for C129: a text with numbers. *)
From Verif Require Import PyBase PyText PyNum PyFloat ArrModel.
Local Open Scope nat_scope.
Local Open Scope list_scope.

Definition digits (s : text) : Prop := s <> [] /\ forallb is_digit s = true.
Inductive sign : text -> Prop := no_sign : sign [] | plus : sign (txt "+") | minus : sign (txt "-").
Inductive fraction : text -> Prop := no_fraction : fraction [] | decimals d : digits d -> fraction (txt "." ++ d).
Inductive exponent : text -> Prop := no_exponent : exponent [] | power e s d : e = txt "e" \/ e = txt "E" -> sign s -> digits d -> exponent (e ++ s ++ d).
(** A number written as usual: a sign, digits, a point with digits, an exponent. *)
Inductive numeral : text -> Prop :=
| written s i f e : sign s -> forallb is_digit i = true -> fraction f -> (i <> [] \/ f <> []) -> exponent e -> numeral (s ++ i ++ f ++ e).

Definition no_digits (s : text) : Prop := forallb (fun c => negb (is_digit c)) s = true.
(** A character that no number contains. *)
Definition foreign (c : ascii) : Prop := is_digit c = false /\ ~ In c (txt ".+-eE").
Definition free_end (s : text) : Prop := forall r c, s = r ++ [c] -> ~ In c (txt ".+-").
(** What stands between two numbers: no digits, something foreign (as a blank or a comma), no point or sign right before the next number. *)
Definition between (s : text) : Prop := no_digits s /\ (exists c, In c s /\ foreign c) /\ free_end s.
(** What stands around them all: blanks only, or something foreign that is not a blank. *)
Definition around (s : text) : Prop := no_digits s /\ (forallb is_space s = true \/ exists c, In c s /\ foreign c /\ is_space c = false).
(** The text after a number, and the whole text, with the numbers in it. *)
Inductive after : text -> list text -> Prop :=
| ends s : around s -> after s []
| goes_on s n r l : between s -> numeral n -> after r l -> after (s ++ n ++ r) (n :: l).
Inductive holds_numbers : text -> list text -> Prop :=
| starts s n r l : around s -> free_end s -> numeral n -> after r l -> holds_numbers (s ++ n ++ r) (n :: l).
