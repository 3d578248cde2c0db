(** Model of the weights of a channel for a band: /repo/mt_metadata/features/weights/channel_weight_spec.py 209-259 [get_weights_for_band], and
    /repo/mt_metadata/common/band.py 289-302 [center_frequency].

    Frequencies are real numbers: floating point rounding is not modelled.  An array of xarray is its dimensions, each with its coordinates, and what
    selecting an entry along a dimension gives. *)
From Coq Require Import Reals.
From Verif Require Import PyBase PyText.
Local Open Scope list_scope.
Local Open Scope R_scope.

(** common/band.py: the two values of [center_averaging_type] *)
Inductive averaging : Type := Geometric | Arithmetic.
Record band : Type := mkBand { lower_bound : R; upper_bound : R; average : averaging }.
(** band.py 289-302.  Not modelled: nan for an averaging that is neither, which the enumeration of averagings excludes. *)
Definition center (b : band) : R :=
  match average b with Geometric => sqrt (lower_bound b * upper_bound b) | Arithmetic => (lower_bound b + upper_bound b) / 2 end.

(** [np.argmin]: the first of the smallest; none of an empty array. *)
Fixpoint argmin_from (i : nat) (best : nat) (v : R) (l : list R) : nat :=
  match l with [] => best | x :: r => if Rlt_dec x v then argmin_from (S i) i x r else argmin_from (S i) best v r end.
Definition argmin (l : list R) : option nat := match l with [] => None | x :: r => Some (argmin_from 1 0 x r) end.

Section Weights.
Variable part : Type.
(** 224-246: None; an xarray object, with dimensions in order and for each its coordinates (a dimension without coordinates counts from 0, which is what
    xarray gives for it) and what [isel] gives for a place along it; an array with its rows; an array of no dimensions; anything else. *)
Inductive weights : Type := NoWeights | Labelled (dims : list (text * list R)) (isel : text -> nat -> part) | Plain (rows : list part) | Scalar | OtherObject.
(** 241: [np.arange] *)
Definition counted (n : nat) : list R := map INR (seq 0 n).
(** [str.__contains__] is [contains] of PyText. *)
(** 231-234 *)
Definition freq_dim (dims : list (text * list R)) : option (text * list R) := List.find (fun d => contains (txt "freq") (fst d)) dims.
(** 209-259 *)
Definition weights_for_band (w : weights) (b : band) : result part :=
  match w with
  | NoWeights => Err ValueError
  | Labelled dims isel =>
      match freq_dim dims with
      | None => Err ValueError
      | Some (d, freqs) =>
          match argmin (map (fun f => Rabs (f - center b)) freqs) with
          | None => Err ValueError
          | Some i => Ok (isel d i)
          end
      end
  | Plain rows =>
      match argmin (map (fun f => Rabs (f - center b)) (counted (length rows))) with
      | None => Err ValueError
      | Some i => match nth_error rows i with Some r => Ok r | None => Err IndexError end
      end
  | Scalar => Err IndexError      (* 241: an array without dimensions has no shape[0] *)
  | OtherObject => Err TypeError
  end.
End Weights.
Arguments NoWeights {part}.
Arguments Labelled {part}.
Arguments Plain {part}.
Arguments Scalar {part}.
Arguments OtherObject {part}.
Arguments weights_for_band {part}.
