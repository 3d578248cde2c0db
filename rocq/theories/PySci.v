(** Python's texts in scientific notation, for [0 < d]: [f"{x:.{d}e}"] and [f"{x: {w}.{d}e}"].

    These definitions model the Python language, not a file of the repository; the models that use them
    cite the code they are used for.  A float is modelled by the rational number it stands for; nan,
    infinities and the sign of zero are not modelled. *)
From Coq Require Import Qabs Qpower.
From Verif Require Import PyBase PyText PyNum IsoModel PyFloat.
Local Open Scope Z_scope.

(** The number of decimal digits of [0 < n].  The fuel (one more than the binary length) is enough. *)
Fixpoint dec_len_from (fuel : nat) (n : Z) : Z :=
  match fuel with
  | O => 0
  | S f => if n <? 10 then 1 else 1 + dec_len_from f (n / 10)
  end.
Definition dec_len (n : Z) : Z := dec_len_from (S (Z.to_nat (Z.log2 n))) n.
(** The power of ten at or below [0 < a]. *)
Definition sci_exp (a : Q) : Z :=
  let e := dec_len (Qnum a) - dec_len (Zpos (Qden a)) in
  if Qle_bool (Qpower (10 # 1) e) a then e else e - 1.
(** The [d + 1] leading digits of [q] (rounded to even) with their sign, and the power of ten of the first. *)
Definition sci (d : nat) (q : Q) : Z * Z :=
  match Qcompare q 0 with
  | Eq => (0, 0)
  | c =>
      let a := Qabs q in
      let e := sci_exp a in
      let m := round_half_even (a * Qpower (10 # 1) (Z.of_nat d - e)) in
      let sg := match c with Lt => -1 | _ => 1 end in
      if m =? 10 ^ (Z.of_nat d + 1) then (sg * 10 ^ Z.of_nat d, e + 1) else (sg * m, e)
  end.
Definition sci_exp_text (e : Z) : text :=
  (txt "e" ++ (if e <? 0 then txt "-" else txt "+") ++
   (if Z.abs e <? 100 then pad 2 (Z.abs e) else show_nat (Z.abs e)))%list.
Definition sci_body (d : nat) (m e : Z) : text :=
  (digit (Z.abs m / 10 ^ Z.of_nat d) :: "."%char :: pad d (Z.abs m mod 10 ^ Z.of_nat d) ++ sci_exp_text e)%list.
(** [f"{q:.{d}e}"] and [f"{q: .{d}e}"]; then right-aligned in [w] places. *)
Definition show_sci (d : nat) (q : Q) : text :=
  let '(m, e) := sci d q in if m <? 0 then "-"%char :: sci_body d m e else sci_body d m e.
Definition show_sci_sign (d : nat) (q : Q) : text :=
  let '(m, e) := sci d q in (if m <? 0 then "-"%char else " "%char) :: sci_body d m e.
Definition rjust (w : nat) (s : text) : text := (repeat " "%char (w - List.length s) ++ s)%list.
(** The number that the text says. *)
Definition sci_value (d : nat) (q : Q) : Q :=
  let '(m, e) := sci d q in inject_Z m * Qpower (10 # 1) (e - Z.of_nat d).
