(** Model of the comparison of transfer functions: /repo/mt_metadata/transfer_functions/core.py 166-203, on the TF objects of TfModel. *)
From Coq Require Import QArith.
From Verif Require Import PyBase PyText TfModel.
Local Open Scope nat_scope.
Local Open Scope list_scope.

Section Eq.
(** [alike]: [(a == b) | (isnull(a) & isnull(b))], as xarray compares values.  [station_ne], [survey_ne]: [!=] of the metadata. *)
Variables (num : nums) (station survey : Type).
Variables (alike : val num -> val num -> bool) (station_ne : station -> station -> bool) (survey_ne : survey -> survey -> bool).

(** A TF object with its metadata. *)
Record subject : Type := mkSubject { s_station : station; s_survey : survey; s_tf : tf num }.
(** What it is compared with: a TF object or something that has neither metadata nor a transfer function. *)
Inductive object : Type := ATF (s : subject) | Thing.

(** [DataArray.equals] of xarray: same coordinates and same values; names and attributes are not compared. *)
Definition same_labels (a b : list text) : bool := if list_eq_dec text_dec a b then true else false.
Definition data_equals (a b : labelled num) : bool :=
  same_periods (l_periods num a) (l_periods num b) && same_labels (l_outs num a) (l_outs num b) && same_labels (l_ins num a) (l_ins num b) &&
  forallb (fun p => forallb (fun o => forallb (fun i => alike (l_at num a p o i) (l_at num b p o i)) (l_ins num a)) (l_outs num a))
    (seq 0 (length (l_periods num a))).

(** 190-192: [self.transfer_function.equals(other.transfer_function)], when both have one. *)
Definition arrays_equal (t t' : tf num) : result bool :=
  bindR (get num ATf t) (fun a => bindR (get num ATf t') (fun b =>
    match a, b with
    | Some a, Some b => Ok (data_equals a b)
    | None, _ => Err AttributeError
    | Some _, None => Ok false
    end)).
(** 166-200 [__eq__].  With something that is no TF, 184 raises. *)
Definition tf_eq (s : subject) (o : object) : result bool :=
  match o with
  | Thing => Err AttributeError
  | ATF s' =>
      let e1 := negb (station_ne (s_station s) (s_station s')) in
      let e2 := negb (survey_ne (s_survey s) (s_survey s')) in
      bindR (has_transfer_function num (s_tf s)) (fun h =>
      bindR (has_transfer_function num (s_tf s')) (fun h' =>
      bindR (if h && h' then arrays_equal (s_tf s) (s_tf s')
             else if negb h && negb h' then Ok true
             else Ok false) (fun e3 => Ok (e1 && e2 && e3))))
  end.
(** 202-203 [__ne__]. *)
Definition tf_ne (s : subject) (o : object) : result bool := bindR (tf_eq s o) (fun b => Ok (negb b)).
End Eq.
