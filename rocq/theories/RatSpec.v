(** What a rating is to be. *)
From Verif Require Import PyBase PyText PyNum.
Local Open Scope list_scope.
Local Open Scope Z_scope.

(** The integer is the number cut off towards zero. *)
Definition cut_off (q : Q) (z : Z) : Prop := ((0 <= q /\ inject_Z z <= q /\ q < inject_Z (z + 1)) \/ (q < 0 /\ inject_Z (z - 1) < q /\ q <= inject_Z z))%Q.
(** The texts that stand for nothing. *)
Definition nothing (t : text) : Prop := In t (map txt ["" ; "null"; "None"; "NONE"; "NULL"; "Null"; "none"; "1980-01-01T00:00:00"; "1980-01-01T00:00:00+00:00"]%string).
Definition blanks (t : text) : Prop := Forall (fun c => is_space c = true) t.
