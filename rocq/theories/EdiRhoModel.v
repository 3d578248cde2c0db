(** Model of the reading of apparent resistivities and phases: /repo/mt_metadata/transfer_functions/io/edi/edi.py
    430-447 (in _read_mt).  The numbers are exact. *)
From Verif Require Import PyBase Cplx EdiModel.
Local Open Scope R_scope.

(** np.deg2rad. *)
Definition deg2rad (d : R) : R := d * PI / 180.
Definition mean (l : list R) : R := fold_right Rplus 0 l / INR (List.length l).
(** edi.py 434-438 for one frequency. *)
Definition rho_z (f rho phase : R) : Cx :=
  let t := tan (deg2rad phase) in
  let re := sqrt ((5 * f * rho) / (t * t + 1)) in
  (re, t * re).
(** numpy works element by element on the three arrays, which have the same length. *)
Fixpoint rho_column (fs rhos phases : list R) : list Cx :=
  match fs, rhos, phases with
  | f :: fs, r :: rhos, p :: phases => rho_z f r p :: rho_column fs rhos phases
  | _, _, _ => []
  end.
(** edi.py 432 and 439-443: the column of component [c], given the column so far.  A component that is not
    zero everywhere is kept. *)
Definition rho_fill (c : zc) (old : list Cx) (fs rhos phases : list R) : list Cx :=
  if forallb (fun z => if Req_EM_T (fst z) 0 then if Req_EM_T (snd z) 0 then true else false else false) old then
    match c with
    | ZYX => if Rlt_dec (mean phases) 90 then
               if Rlt_dec 0 (mean phases) then map (fun z => Cmul (RtoC (-1)) z) (rho_column fs rhos phases) else old
             else old
    | _ => rho_column fs rhos phases
    end
  else old.
(** edi.py 444-446: the error. *)
Definition rho_error (f rho phase_err : R) : R := deg2rad phase_err * sqrt (rho * (f * 5)).
