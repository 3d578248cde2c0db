(** What the table of bands should be. *)
From Verif Require Import PyBase PyText PyNum BandModel BandSpec BdfModel.
From Coq Require Import Permutation.
Local Open Scope list_scope.
Local Open Scope nat_scope.

(** Indices in order; bands without indices come last. *)
Definition before (a b : option nat) : Prop := match a, b with _, None => True | None, Some _ => False | Some x, Some y => x <= y end.
Definition in_order (df : list row) : Prop := forall i j a b, i < j -> nth_error df i = Some a -> nth_error df j = Some b -> before (r_lo a) (r_lo b).
(** Sorting gives the same rows in order; in which order rows of the same index come is open. *)
Definition sorts (s : list row -> list row) : Prop := forall l, Permutation l (s l) /\ in_order (s l).
(** The row of a band of decimation level [d] is [d + 1], the indices and the frequencies. *)
Definition is_row (b : lband) (r : row) : Prop :=
  (exists d, l_dec b = Some d /\ r_dec r = (d + 1)%Z) /\ r_lo r = l_lo b /\ r_hi r = l_hi b /\ r_fmin r = f_min (l_band b) /\ r_fmax r = f_max (l_band b).
Definition has_level (b : lband) : Prop := exists d, l_dec b = Some d.
(** The indices are those of the frequencies [freqs] in the band. *)
Definition indexed (freqs : list Q) (b : lband) : Prop := exists lo hi, l_lo b = Some lo /\ l_hi b = Some hi /\ set_indices (l_band b) freqs = Ok (lo, hi).
