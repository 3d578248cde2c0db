(** Model of the coherence of Fourier coefficients, mt_metadata/features/fc_coherence.py, class FCCoherence.
    The arithmetic of floats is modelled by the reals. *)
From Verif Require Import PyBase Cplx.
Local Open Scope list_scope.
Local Open Scope R_scope.

(** An array of shape (number of windows, number of frequencies). *)
Record fcs : Type := mkFcs { nfreq : nat; rows : list (list Cx) }.
Definition cell (j : nat) (row : list Cx) : Cx := nth j row C0.
Definition column (j : nat) (a : fcs) : list Cx := map (cell j) (rows a).
(** numpy.mean along the windows; [None] for the nan of no windows. *)
Definition sumC (l : list Cx) : Cx := fold_right Cadd C0 l.
Definition sumR (l : list R) : R := fold_right Rplus 0 l.
Definition meanC (l : list Cx) : option Cx := match l with [] => None | _ => Some (Cmul (RtoC (/ INR (List.length l))) (sumC l)) end.
Definition meanR (l : list R) : option R := match l with [] => None | _ => Some (sumR l / INR (List.length l)) end.
(** 107-121 for one frequency: what is not finite becomes 0. *)
Definition coherence_at (x y : list Cx) : R :=
  match meanC (map (fun p => Cmul (fst p) (Cconj (snd p))) (combine x y)), meanR (map (fun a => Cabs a ^ 2) x), meanR (map (fun a => Cabs a ^ 2) y) with
  | Some sxy, Some sxx, Some syy => if Req_EM_T (sxx * syy) 0 then 0 else Cabs sxy ^ 2 / (sxx * syy)
  | _, _, _ => 0
  end.
(** 86-122 (compute); [minimum] is minimum_fcs, 27-38.  Arrays of different shapes that numpy can broadcast, those with one window or one
    frequency, are not modelled and give the error of the others. *)
Definition compute (minimum : Z) (a b : fcs) : result (list R) :=
  if (Nat.eqb (nfreq a) (nfreq b) && Nat.eqb (List.length (rows a)) (List.length (rows b)))%bool
  then Ok (map (fun j => coherence_at (column j a) (column j b)) (seq 0 (nfreq a)))
  else Err ValueError.
