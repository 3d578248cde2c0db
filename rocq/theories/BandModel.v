(** Model of /repo/mt_metadata/common/band.py, of
    /repo/mt_metadata/processing/aurora/frequency_bands.py and of the band methods of
    /repo/mt_metadata/processing/aurora/decimation_level.py and window.py.
    Frequencies are rationals: floating point rounding is not modelled. *)
From Verif Require Import PyBase PyNum.
Local Open Scope Q_scope.

(** band.py 32-35 [ClosedEnum] ("neither" is not a member). *)
Inductive closed_enum : Type := CLeft | CRight | CBoth.
(** band.py 38-143, the attributes used below. *)
Record band : Type := mkBand { f_min : Q; f_max : Q; b_closed : closed_enum }.

(** A [pandas.Interval]. *)
Record interval : Type := mkIvl { i_left : Q; i_right : Q; i_cl : bool; i_cr : bool }.
Definition Qlt_bool (a b : Q) : bool := negb (Qle_bool b a).

(** band.py 255-260 [to_interval]; [pd.Interval] refuses left > right with ValueError. *)
Definition to_interval (b : band) : result interval :=
  if Qle_bool (f_min b) (f_max b)
  then Ok (mkIvl (f_min b) (f_max b)
             (match b_closed b with CRight => false | _ => true end)
             (match b_closed b with CLeft => false | _ => true end))
  else Err ValueError.

(** [pd.Interval.__contains__] of a number. *)
Definition ivl_contains (i : interval) (x : Q) : bool :=
  (if i_cl i then Qle_bool (i_left i) x else Qlt_bool (i_left i) x) &&
  (if i_cr i then Qle_bool x (i_right i) else Qlt_bool x (i_right i)).
(** [pd.Interval.overlaps]. *)
Definition ivl_overlaps (a b : interval) : bool :=
  (if i_cl a && i_cr b then Qle_bool (i_left a) (i_right b) else Qlt_bool (i_left a) (i_right b)) &&
  (if i_cl b && i_cr a then Qle_bool (i_left b) (i_right a) else Qlt_bool (i_left b) (i_right a)).

(** band.py 309-313 [overlaps]. *)
Definition overlaps (a b : band) : result bool :=
  bindR (to_interval a) (fun i => bindR (to_interval b) (fun j => Ok (ivl_overlaps i j))).
(** band.py 315-320 [contains]. *)
Definition contains (a b : band) : result bool :=
  bindR (to_interval a) (fun i => Ok (ivl_contains i (f_min b) && ivl_contains i (f_max b))).

(** [np.where(mask)[0]]: positions of true entries. *)
Fixpoint where_from (i : nat) (mask : list bool) : list nat :=
  match mask with [] => [] | m :: r => if m then i :: where_from (S i) r else where_from (S i) r end.

(** band.py 222-247 [_indices_from_frequencies]. *)
Definition indices_from_frequencies (b : band) (freqs : list Q) : result (list nat) :=
  bindR (to_interval b) (fun i =>
  let cond1 f := if i_cl i then Qle_bool (f_min b) f else Qlt_bool (f_min b) f in
  let cond2 f := if i_cr i then Qle_bool f (f_max b) else Qlt_bool f (f_max b) in
  Ok (where_from 0 (map (fun f => cond1 f && cond2 f) freqs))).

(** band.py 249-253 [set_indices_from_frequencies]: (index_min, index_max); indexing an empty array
    raises IndexError. *)
Definition set_indices (b : band) (freqs : list Q) : result (nat * nat) :=
  bindR (indices_from_frequencies b freqs) (fun l =>
  match l with [] => Err IndexError | i :: _ => Ok (i, last l i) end).

(** band.py 262-271 [harmonic_indices]: [np.arange(index_min, index_max + 1)]. *)
Definition arange (a b : nat) : list nat := seq a (b - a).
Definition harmonic_indices (lo hi : nat) : list nat := arange lo (hi + 1).

(** band.py 273-286 [in_band_harmonics]. *)
Definition in_band_harmonics (b : band) (freqs : list Q) : result (list Q) :=
  bindR (indices_from_frequencies b freqs) (fun l => Ok (map (fun i => nth i freqs 0) l)).

(** *** FrequencyBands *)
(** frequency_bands.py: rows (lower_bound, upper_bound) of the data frame in order. *)
Definition edges : Type := list (Q * Q).

(** [sort_values] and [argsort].  Simplification: a stable insertion sort; numpy leaves the order of
    equal keys open. *)
Fixpoint insert_by {A : Type} (le : A -> A -> bool) (x : A) (l : list A) : list A :=
  match l with [] => [x] | y :: r => if le x y then x :: l else y :: insert_by le x r end.
Definition sort_by {A : Type} (le : A -> A -> bool) (l : list A) : list A := fold_right (insert_by le) [] l.

(** band.py 288-302 [center_frequency] (geometric, the default): sqrt(lower * upper).  The square root
    is monotone, so sorting uses the product; see [center] in BandSpec.v. *)
Definition center_sq (e : Q * Q) : Q := fst e * snd e.

(** frequency_bands.py 91-116 [sort]. *)
Inductive sort_key : Type := ByLower | ByUpper | ByCenter.
Definition key_of (k : sort_key) (e : Q * Q) : Q :=
  match k with ByLower => fst e | ByUpper => snd e | ByCenter => center_sq e end.
Definition fb_sort (k : sort_key) (ascending : bool) (rows : edges) : edges :=
  let le a b := Qle_bool (key_of k a) (key_of k b) in
  let sorted := sort_by le rows in
  if ascending then sorted else rev sorted.

(** frequency_bands.py 171-186 [band]: a left-closed band; negative positions count from the end. *)
Definition fb_band (rows : edges) (i : Z) : result band :=
  let n := Z.of_nat (length rows) in
  let j := if (i <? 0)%Z then (i + n)%Z else i in
  if ((0 <=? j) && (j <? n))%Z
  then match nth_error rows (Z.to_nat j) with
       | Some e => Ok (mkBand (fst e) (snd e) CLeft)
       | None => Err IndexError
       end
  else Err IndexError.

Inductive direction : Type := IncFrequency | IncPeriod.
(** frequency_bands.py 118-169 [bands]. *)
Definition fb_bands (d : direction) (sortby : option sort_key) (rows : edges) : result (list band) :=
  let rows' :=
    match sortby, d with
    | None, IncFrequency => rows
    | _, _ => fb_sort (match sortby with Some k => k | None => ByCenter end)
                      (match d with IncFrequency => true | IncPeriod => false end) rows
    end in
  mapR (fun i => fb_band rows' (Z.of_nat i)) (seq 0 (length rows')).

(** [np.all(c[1:] > c[:-1])]. *)
Fixpoint strictly_increasing (l : list Q) : bool :=
  match l with
  | x :: ((y :: _) as r) => Qlt_bool x y && strictly_increasing r
  | _ => true
  end.
(** frequency_bands.py 211-222 [validate]. *)
Definition fb_validate (rows : edges) : edges :=
  if strictly_increasing (map center_sq rows) then rows else fb_sort ByCenter true rows.

(** *** Decimation level and window *)
(** decimation_level.py 344-360 [harmonic_indices]: concatenation of the bands' indices, sorted. *)
Definition level_harmonics (bands : list (nat * nat)) : list nat :=
  sort_by Nat.leb (flat_map (fun b => harmonic_indices (fst b) (snd b)) bands).
(** decimation_level.py 252-266 [lower_bounds], [upper_bounds]. *)
Definition lower_bounds (bands : list (nat * nat)) : list nat := sort_by Nat.leb (map fst bands).
Definition upper_bounds (bands : list (nat * nat)) : list nat := sort_by Nat.leb (map snd bands).

(** [np.fft.fftfreq(n, d)]. *)
Definition fftfreq (n : nat) (d : Q) : list Q :=
  map (fun k => inject_Z k / (inject_Z (Z.of_nat n) * d))
    (map Z.of_nat (seq 0 ((n + 1) / 2)) ++ map (fun k => Z.of_nat k - Z.of_nat (n / 2))%Z (seq 0 (n / 2))).
(** window.py 196-230 [get_fft_harmonics]. *)
Definition get_fft_harmonics (n : nat) (sample_rate : Q) : list Q :=
  let delta_t := 1 / sample_rate in
  firstn (n / 2) (fftfreq n delta_t).
