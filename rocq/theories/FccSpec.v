(** What is expected of the coherence of two arrays of Fourier coefficients. *)
From Verif Require Import PyBase Cplx FccModel.
From Coq Require Import Permutation.
Local Open Scope list_scope.
Local Open Scope R_scope.

Definition same_shape (a b : fcs) : Prop := nfreq a = nfreq b /\ List.length (rows a) = List.length (rows b).
(** The coefficient of window [w] at frequency [j]. *)
Definition at_cell (a : fcs) (w j : nat) : Cx := nth j (nth w (rows a) []) C0.
Definition well_formed (a : fcs) : Prop := Forall (fun r => List.length r = nfreq a) (rows a).
(** Sums over the windows. *)
Fixpoint over (f : nat -> Cx) (n : nat) : Cx := match n with O => C0 | S k => Cadd (over f k) (f k) end.
Definition cross (a b : fcs) (j : nat) : Cx := over (fun w => Cmul (at_cell a w j) (Cconj (at_cell b w j))) (List.length (rows a)).
(** Some window has a coefficient. *)
Definition alive (a : fcs) (j : nat) : Prop := exists w, (w < List.length (rows a))%nat /\ at_cell a w j <> C0.
(** One channel is a multiple of the other at the frequency. *)
Definition follows (a b : fcs) (j : nat) : Prop := exists c, c <> C0 /\ forall w, (w < List.length (rows a))%nat -> at_cell b w j = Cmul c (at_cell a w j).
(** The array with each frequency multiplied by a response. *)
Definition filtered (h : nat -> Cx) (a : fcs) : fcs := mkFcs (nfreq a) (map (fun r => map (fun j => Cmul (h j) (nth j r C0)) (seq 0 (nfreq a))) (rows a)).
(** The same windows in another order. *)
Definition reordered (a b a' b' : fcs) : Prop := nfreq a = nfreq a' /\ nfreq b = nfreq b' /\ Permutation (combine (rows a) (rows b)) (combine (rows a') (rows b')).
