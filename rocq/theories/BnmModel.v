(** Model of the names of frequency bands: /repo/mt_metadata/common/band.py 80-195 ([Band.frequency_max], [Band.frequency_min], [Band.name], [validate_name], [check_name]).

    Frequencies are finite numbers (nan, infinities and binary rounding are not modelled); the other attributes of a band play no part in its name and are left out. *)
From Verif Require Import PyBase PyText PyNum PyFloat.
Local Open Scope list_scope.

(** A name is a text or None. *)
Record band : Type := mkBand { low : Q; high : Q; name : option text }.

(** [f"{center_freq:.6f}"] of the mean of the two frequencies (band.py 162-165, 190-191) *)
Definition mean_name (l h : Q) : text := show_fixed 6 ((l + h) / inject_Z 2).
(** [self.frequency_min != 0.0 and self.frequency_max != 0.0] (band.py 186-189) *)
Definition both (l h : Q) : bool := negb (Qeq_bool l 0) && negb (Qeq_bool h 0).
(** [value in ["", None]] (band.py 159, 184) *)
Definition blank (n : option text) : bool := match n with None => true | Some t => text_eqb t [] end.

(** [Band.validate_name] (band.py 156-171).  Both frequencies are declared before the name and have been validated before it, so that the other branch (line 167, "unnamed_band")
    is taken only when the whole validation fails.  A value that is no text is refused before (lines 168-169 are not reached). *)
Definition validate_name (l h : Q) (n : option text) : option text := if blank n then Some (mean_name l h) else n.

(** [Band.check_name] (band.py 181-194).  The assignment of the name in it validates the band again, which changes nothing more (lemma [check_name_again] of BnmProps.v). *)
Definition check_name (b : band) : band :=
  if blank (name b) || (match name b with Some t => text_eqb t (txt "empty_band") | None => false end && both (low b) (high b))
  then if both (low b) (high b) then mkBand (low b) (high b) (Some (mean_name (low b) (high b))) else mkBand (low b) (high b) (Some (txt "empty_band"))
  else b.

(** [Band(frequency_min=l, frequency_max=h)] and [Band(frequency_min=l, frequency_max=h, name=n)]: the default name is not validated (no [validate_default] in
    /repo/mt_metadata/base/metadata.py 214-221), a given one is (band.py 156-171); the validator of the whole comes last (line 181).  A frequency not given is 0.0. *)
Definition new_band (given : option (option text)) (l h : Q) : band :=
  check_name (mkBand l h (match given with None => Some [] | Some n => validate_name l h n end)).

(** Setting an attribute validates it and then the whole band ([validate_assignment] of the base class). *)
Inductive setting : Type := SetLow (q : Q) | SetHigh (q : Q) | SetName (n : option text).
Definition set (b : band) (s : setting) : band :=
  match s with
  | SetLow q => check_name (mkBand q (high b) (name b))
  | SetHigh q => check_name (mkBand (low b) q (name b))
  | SetName n => check_name (mkBand (low b) (high b) (validate_name (low b) (high b) n))
  end.
Definition set_all (b : band) (l : list setting) : band := fold_left set l b.
