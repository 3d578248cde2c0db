(** Model of the normalization frequency of a filter of poles and zeros: /repo/mt_metadata/timeseries/filters/pole_zero_filter.py 195-239 [PoleZeroFilter.normalization_frequency], on the
    pass band of PassModel.v.  Floats are real numbers. *)
From Coq Require Import Reals.
From Verif Require Import PyBase PyText Cplx FilterModel PassModel.
Local Open Scope R_scope.
Local Open Scope list_scope.

(** What is returned: a number, nan or None (no [return] is reached). *)
Inductive outcome : Type := Number (x : R) | NaN | Nothing.

(** [np.median]: the middle one in order, or the mean of the middle two. *)
Fixpoint insert (x : R) (l : list R) : list R := match l with [] => [x] | a :: r => if Rle_dec x a then x :: l else a :: insert x r end.
Definition in_order (l : list R) : list R := fold_right insert [] l.
Definition median (l : list R) : R :=
  let s := in_order l in let n := length s in
  if Nat.odd n then nth (n / 2) s 0 else (nth (n / 2 - 1) s 0 + nth (n / 2) s 0) / 2.

(** pole_zero_filter.py 222-239.  [np.NAN] (lines 225, 227) is not there any more in numpy 2, where it raises AttributeError. *)
Definition normalization_frequency (numpy2 : bool) (fs : list R) (amp : option (list R)) (estimate : text) (n : nat) (tol : R) : result outcome :=
  match pass_band fs amp n tol with
  | None | Some [] => if numpy2 then Err AttributeError else Ok NaN
  | Some ((a :: r) as pb) =>
      if text_eqb estimate (txt "mean") then Ok (Number (mean pb))
      else if text_eqb estimate (txt "median") then Ok (Number (median pb))
      else if text_eqb estimate (txt "min") then Ok (Number (rmin a r))
      else if text_eqb estimate (txt "max") then Ok (Number (rmax a r))
      else Ok Nothing
  end.
