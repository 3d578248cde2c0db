(** What a user expects of decimation levels, independently of how they are stored. *)
From Verif Require Import PyBase PyNum BandModel ProcModel.
Local Open Scope Q_scope.

(** Product of the factors. *)
Definition product (l : list Q) : Q := fold_right Qmult 1 l.
(** Level [k] of a cascade: the base rate divided by the factors of the steps 1..k.  The list starts with
    the factor of level 0, at which nothing is divided. *)
Definition cascade_rate (base : Q) (factors : list Q) (k : nat) : Q := base / product (firstn k (tl factors)).

(** The last level of the list with this number. *)
Definition last_numbered (decs : list level) (k : nat) (l : level) : Prop :=
  exists pre post, decs = (pre ++ l :: post)%list /\ l_number l = Some k /\
                   forall x, In x post -> l_number x <> Some k.

(** Every level has its own number. *)
Definition distinct_numbers (decs : list level) : Prop := NoDup (map l_number decs).

(** The archive was computed with the parameters of the level and holds what processing needs. *)
Record supports (a : archive) (l : level) (remote : bool) : Prop := mkSupports
  { sup_channels : forall c, In c (if remote then l_reference l else l_input l ++ l_output l)%list ->
                             In c (a_channels a);
    sup_aaf : t_aaf (a_dec a) = t_aaf (l_dec l) \/ (t_aaf (a_dec a) = None /\ t_aaf (l_dec l) = Some "default"%string);
    sup_rate : t_rate (a_dec a) == t_rate (l_dec l);
    sup_method : s_method (a_stft a) = s_method (l_stft l);
    sup_prewhitening : s_prewhitening (a_stft a) = s_prewhitening (l_stft l);
    sup_recoloring : s_recoloring (a_stft a) = s_recoloring (l_stft l);
    sup_detrend : s_detrend (a_stft a) = s_detrend (l_stft l);
    sup_min_windows : s_min_windows (a_stft a) = s_min_windows (l_stft l);
    sup_window : s_window (a_stft a) = s_window (l_stft l);
    sup_harmonics : match s_harmonics (a_stft a) with
                    | HNone => True
                    | HInt _ => False
                    | HList hs => In (-1)%Z hs \/
                        forall b i, In b (l_bands l) -> (lb_lo b <= i <= lb_hi b)%nat -> In (Z.of_nat i) hs
                    end }.
