(** [str(x)] of a Python float, for numbers that are decimals of at most 15 digits: Python writes the shortest
    decimal that stands for the float, which for such a number is the number itself. *)
From Coq Require Import Qpower.
From Verif Require Import PyBase PyText PyNum IsoModel PyFloat PySci.
Local Open Scope Z_scope.

(** The least [k] from [k0] with [10^k] a multiple of [den]. *)
Fixpoint decimals_from (fuel : nat) (k : nat) (den : Z) : option nat :=
  if (10 ^ Z.of_nat k) mod den =? 0 then Some k
  else match fuel with O => None | S f => decimals_from f (S k) den end.
Definition decimals (q : Q) : option nat := decimals_from (Z.to_nat (Z.log2 (Zpos (Qden q)))) 0 (Zpos (Qden q)).
(** The digits of a positive integer without the zeros at the end, and their number. *)
Fixpoint strip_zeros (fuel : nat) (m : Z) : Z * nat :=
  match fuel with
  | O => (m, O)
  | S f => if (m mod 10 =? 0) then let '(a, k) := strip_zeros f (m / 10) in (a, S k) else (m, O)
  end.
Definition zeros (k : nat) : text := repeat "0"%char k.
(** The digits [d] with the point after position [p] (CPython's format code 'r'). *)
Definition place_point (d : text) (p : Z) : text :=
  let n := List.length d in
  if (-4 <? p) && (p <=? 16) then
    if p <=? 0 then (txt "0." ++ zeros (Z.to_nat (- p)) ++ d)%list
    else if p <? Z.of_nat n then (firstn (Z.to_nat p) d ++ "."%char :: skipn (Z.to_nat p) d)%list
    else (d ++ zeros (Z.to_nat p - n) ++ txt ".0")%list
  else
    let e := p - 1 in
    let body := match d with
                | [] => []
                | [c] => [c]
                | c :: r => c :: "."%char :: r
                end in
    (body ++ sci_exp_text e)%list.
(** Numbers that are no decimals (no floats) have no text. *)
Definition show_float (q : Q) : text :=
  let r := Qred q in
  if Qnum r =? 0 then txt "0.0"
  else match decimals r with
       | None => []
       | Some k =>
           let m := Z.abs (Qnum r) * (10 ^ Z.of_nat k / Zpos (Qden r)) in
           let '(a, z) := strip_zeros (Z.to_nat (Z.log2 m)) m in
           let d := show_nat a in
           let body := place_point d (Z.of_nat (List.length d) + Z.of_nat z - Z.of_nat k) in
           if Qnum r <? 0 then "-"%char :: body else body
       end.
