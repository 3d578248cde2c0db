(** Python's texts for numbers: [str(int)], [f"{x:.df}"] and [float(text)].

    These definitions model the Python language, not a file of the repository; the models that use
    them cite the code they are used for.  A float is modelled by the rational number it stands for:
    binary rounding is not modelled.  [float] also accepts underscores between digits and digits of
    other alphabets, which are not modelled (they are refused). *)
From Verif Require Import PyBase PyText PyNum IsoModel.
Local Open Scope Z_scope.

(** A float: a number, or one of nan, inf and -inf. *)
Inductive pynum : Type := Fin (q : Q) | NonFinite.

(** [str(n)] for [0 <= n].  The fuel (one more than the binary length) is always enough. *)
Fixpoint show_digits (fuel : nat) (n : Z) : text :=
  match fuel with
  | O => []
  | S f => if n <? 10 then [digit n] else (show_digits f (n / 10) ++ [digit (n mod 10)])%list
  end.
Definition show_nat (n : Z) : text := show_digits (S (Z.to_nat (Z.log2 n))) n.
(** [str(n)]. *)
Definition show_int (n : Z) : text := if n <? 0 then "-"%char :: show_nat (- n) else show_nat n.
(** [f"{n / 10**d:.{d}f}"], the number given as the integer [n] of its last decimals. *)
Definition show_scaled (d : nat) (n : Z) : text :=
  let a := Z.abs n in
  let body := (show_nat (a / 10 ^ Z.of_nat d) ++
               (if (d =? 0)%nat then [] else "."%char :: pad d (a mod 10 ^ Z.of_nat d)))%list in
  if n <? 0 then "-"%char :: body else body.
(** [f"{q:.{d}f}"]: the nearest number with [d] decimals.  (Python writes "-0.0" for small negative
    numbers; the sign of zero is not modelled.) *)
Definition show_fixed (d : nat) (q : Q) : text :=
  show_scaled d (round_half_even (q * inject_Z (10 ^ Z.of_nat d))).

(** [float(text)]. *)
Definition read_sign (s : text) : Z * text :=
  match s with
  | c :: r => if Ascii.eqb c "-" then (-1, r) else if Ascii.eqb c "+" then (1, r) else (1, s)
  | [] => (1, [])
  end.
(** What follows the digits before the point: the digits after it and the rest. *)
Definition read_point (s : text) : text * text :=
  match s with
  | c :: r => if Ascii.eqb c "." then take_digits r else ([], s)
  | [] => ([], [])
  end.
Definition read_exponent (s : text) : option Z :=
  match s with
  | [] => Some 0
  | c :: r =>
      if Ascii.eqb c "e" || Ascii.eqb c "E" then
        let '(sg, r1) := read_sign r in
        let '(w, r2) := take_digits r1 in
        if nonempty w && negb (nonempty r2) then Some (sg * number_of w) else None
      else None
  end.
Definition words_nonfinite : list text := [txt "inf"; txt "infinity"; txt "nan"].
Definition read_float (s : text) : option pynum :=
  let '(sg, r) := read_sign (strip s) in
  if existsb (text_eqb (lower r)) words_nonfinite then Some NonFinite else
  let '(ip, r1) := take_digits r in
  let '(fp, r2) := read_point r1 in
  if nonempty (ip ++ fp)%list then
    match read_exponent r2 with
    | Some e => Some (Fin (inject_Z (sg * number_of (ip ++ fp)%list) * Qpower (10 # 1) (e - Z.of_nat (length fp))))
    | None => None
    end
  else None.
