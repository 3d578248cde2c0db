(** Model of /repo/mt_metadata/processing/aurora/processing.py ([Processing]), of the archive check and
    the archive builder of /repo/mt_metadata/processing/aurora/decimation_level.py, and of
    [fc_decimations_creator] of /repo/mt_metadata/processing/fourier_coefficients/decimation.py.

    Numbers are rationals: floating point rounding is not modelled.  Level numbers and window lengths are
    natural numbers (time_series_decimation.py 89-109 refuses negative levels). *)
From Verif Require Import PyBase PyNum BandModel.
Local Open Scope Q_scope.
Open Scope string_scope.

(** processing/window.py 49-146 [Window]; [w_args] stands for [additional_args], [w_zero] for the text of
    [clock_zero]. *)
Record window : Type := mkWindow
  { w_samples : nat; w_overlap : Z; w_type : string; w_zero_type : string; w_zero : string;
    w_normalized : bool; w_args : list (string * string) }.
(** [Window.__eq__] (base/metadata.py [__eq__], modelled in MetaModel.v) compares the dictionaries. *)
Definition window_dec (a b : window) : {a = b} + {a <> b}.
Proof.
  decide equality; try apply string_dec; try apply Bool.bool_dec; try apply Z.eq_dec; try apply Nat.eq_dec.
  apply list_eq_dec. decide equality; apply string_dec.
Defined.
Definition default_window : window := mkWindow 256 32 "boxcar" "ignore" "1980-01-01T00:00:00+00:00" true [].

(** processing/time_series_decimation.py 18-87 [TimeSeriesDecimation]. *)
Record tsdec : Type := mkTs
  { t_level : option nat; t_factor : Q; t_method : string; t_rate : Q; t_aaf : option string }.
Definition default_ts : tsdec := mkTs None 1 "default" 1 (Some "default").

(** processing/short_time_fourier_transform.py 37-148: [harmonic_indices] is an int, a list or None. *)
Inductive harmonics : Type := HNone | HInt (z : Z) | HList (l : list Z).
Record stft : Type := mkStft
  { s_harmonics : harmonics; s_method : string; s_min_windows : Z; s_per_window : string;
    s_detrend : string; s_prewhitening : string; s_recoloring : bool; s_window : window }.
Definition default_stft : stft :=
  mkStft HNone "fft" 0 "" "linear" "first difference" true default_window.

(** A band of a level with the indices [set_indices_from_frequencies] gave it. *)
Record lband : Type := mkLband { lb_level : nat; lb_band : band; lb_lo : nat; lb_hi : nat }.

(** processing/aurora/decimation_level.py 37-189 [DecimationLevel].  [l_oid] is the identity of the Python
    object; [l_info] stands for the attributes not used here. *)
Record level : Type := mkLevel
  { l_oid : nat; l_bands : list lband; l_input : list string; l_output : list string;
    l_reference : list string; l_dec : tsdec; l_stft : stft; l_engine : string; l_info : string }.
Definition new_level (oid : nat) : level :=
  mkLevel oid [] [] [] [] default_ts default_stft "RME_RR" "".

Definition with_dec (l : level) (t : tsdec) : level :=
  mkLevel (l_oid l) (l_bands l) (l_input l) (l_output l) (l_reference l) t (l_stft l) (l_engine l) (l_info l).
Definition l_number (l : level) : option nat := t_level (l_dec l).

(* ---------------------------------------------------------------- Processing.decimations *)

(** What may be given for [decimations]; [D] is the type of dictionaries describing a level. *)
Inductive entry (D : Type) : Type := EObj (l : level) | EDict (d : D) | EOther.
Arguments EObj {D}. Arguments EDict {D}. Arguments EOther {D}.
Inductive given (D : Type) : Type :=
| GLevel (l : level) | GDict (d : list (string * entry D)) | GList (l : list (entry D))
| GStr (s : string) | GOther.
Arguments GLevel {D}. Arguments GDict {D}. Arguments GList {D}. Arguments GStr {D}. Arguments GOther {D}.

Section Given.
  Context {D : Type}.
  (** [DecimationLevel().from_dict(d)]. *)
  Variable read : D -> result level.

  (** processing.py 116-122: the loop over a dictionary's values. *)
  Definition dict_entry (e : entry D) : result level :=
    match e with EObj l => Ok l | _ => Err TypeError end.
  (** processing.py 125-127: the first loop over a list. *)
  Definition objects (l : list (entry D)) : list level :=
    flat_map (fun e => match e with EObj x => [x] | _ => [] end) l.
  (** processing.py 128-138: the second loop. *)
  Definition list_entry (e : entry D) : result level :=
    match e with EObj l => Ok l | EDict d => read d | EOther => Err TypeError end.

  (** processing.py 108-149 [validate_decimations]. *)
  Definition validate_decimations (v : given D) : result (list level) :=
    match v with
    | GLevel l => Ok [l]
    | GDict d => mapR dict_entry (dvals d)
    | GList l => bindR (mapR list_entry l) (fun second => Ok (objects l ++ second)%list)
    | GStr s => if (4 <? String.length s)%nat then Err TypeError else Ok []
    | GOther => Err TypeError
    end.

  (** processing.py 195-219 [add_decimation_level]. *)
  Definition add_decimation_level (decs : list level) (e : entry D) : result (list level) :=
    bindR (list_entry e) (fun l => Ok (decs ++ [l])%list).
End Given.

Definition onat_dec (a b : option nat) : {a = b} + {a <> b}.
Proof. decide equality. apply Nat.eq_dec. Defined.

(** processing.py 151-164 [decimations_dict]. *)
Definition decimations_dict (decs : list level) : list (option nat * level) :=
  dupdate onat_dec [] (map (fun l => (l_number l, l)) decs).
(** processing.py 166-193 [get_decimation_level]. *)
Definition get_decimation_level (decs : list level) (k : nat) : result level :=
  match dget onat_dec (Some k) (decimations_dict decs) with Some l => Ok l | None => Err KeyError end.
(** processing.py 320-322 [num_decimation_levels]. *)
Definition num_decimation_levels (decs : list level) : nat := length decs.

(** decimation_level.py 298-312 [band_edges]: one row per band. *)
Definition level_edges (l : level) : edges :=
  map (fun b => (f_min (lb_band b), f_max (lb_band b))) (l_bands l).
(** processing.py 221-227 [band_edges_dict]: keyed by position. *)
Definition band_edges_dict (decs : list level) : list (nat * edges) :=
  combine (seq 0 (length decs)) (map level_edges decs).

(* ---------------------------------------------------------------- sample rates *)

Definition set_rate (d sr : Q) (l : level) : level :=
  let t := l_dec l in with_dec l (mkTs (t_level t) d (t_method t) sr (t_aaf t)).
(** A change of one Python object shows at every place of the list that holds it. *)
Definition on_object (oid : nat) (f : level -> level) (decs : list level) : list level :=
  map (fun l => if Nat.eqb (l_oid l) oid then f l else l) decs.

(** Python's [d ** k]. *)
Definition qpow (d : Q) (k : nat) : Q := Qpower d (Z.of_nat k).

(** processing.py 241-251, one turn of the loop of [assign_decimation_level_data_emtf]. *)
Definition emtf_one (sample_rate : Q) (decs : list level) (k : nat) : list level :=
  let '(d, sr) := match k with O => (1, sample_rate) | _ => (4, sample_rate / qpow 4 k) end in
  match dget onat_dec (Some k) (decimations_dict decs) with
  | Some l => on_object (l_oid l) (set_rate d sr) decs
  | None => decs
  end.
Fixpoint numbers (ks : list (option nat)) : option (list nat) :=
  match ks with
  | [] => Some []
  | Some k :: r => match numbers r with Some t => Some (k :: t) | None => None end
  | None :: _ => None
  end.
(** processing.py 229-251 [assign_decimation_level_data_emtf]; a level without number makes [sorted] or
    [int] raise TypeError. *)
Definition assign_emtf (sample_rate : Q) (decs : list level) : result (list level) :=
  match numbers (dkeys (decimations_dict decs)) with
  | Some ks => Ok (fold_left (emtf_one sample_rate) (sort_by Nat.leb ks) decs)
  | None => Err TypeError
  end.

(** The argument [num_samples_window] of [assign_bands]: an int, or a dictionary. *)
Inductive window_arg : Type := WInt (n : nat) | WDict (d : list (nat * nat)).
Definition window_of (w : window_arg) (n_levels k : nat) : result nat :=
  match w with
  | WInt n => if (k <? n_levels)%nat then Ok n else Err IndexError
  | WDict d => match dget Nat.eq_dec k d with Some n => Ok n | None => Err KeyError end
  end.

(** [fft_frequencies] (window.py 160-168, 196-226); a zero rate or an empty window divides by zero. *)
Definition freqs_of (n : nat) (sr : Q) : result (list Q) :=
  if Nat.eqb n 0 || Qeq_bool sr 0 then Err ZeroDivisionError else Ok (get_fft_harmonics n sr).

(** processing.py 306-313: one band (band.py 38-143: closed on the left by default). *)
Definition make_band (k : nat) (freqs : list Q) (e : Q * Q) : result lband :=
  let b := mkBand (fst e) (snd e) CLeft in
  bindR (set_indices b freqs) (fun r => Ok (mkLband k b (fst r) (snd r))).

(** processing.py 290-314: one turn of the loop; [oid] is the identity of the new object. *)
Definition assign_one (oid k : nat) (rows : edges) (sample_rate : Q) (factors : list (nat * Q))
    (w : window_arg) (n_levels : nat) : result level :=
  match dget Nat.eq_dec k factors with
  | None => Err KeyError
  | Some d =>
      bindR (match k with
             | O => Ok sample_rate
             | _ => if Qeq_bool (qpow d k) 0 then Err ZeroDivisionError else Ok (sample_rate / qpow d k)
             end) (fun sr =>
      bindR (window_of w n_levels k) (fun n =>
      bindR (freqs_of n sr) (fun freqs =>
      bindR (mapR (make_band k freqs) rows) (fun bands =>
      let s := default_stft in
      Ok (mkLevel oid bands [] [] [] (mkTs (Some k) d "default" sr (Some "default"))
            (mkStft (s_harmonics s) (s_method s) (s_min_windows s) (s_per_window s) (s_detrend s)
               (s_prewhitening s) (s_recoloring s) (mkWindow n 32 "boxcar" "ignore" "1980-01-01T00:00:00+00:00" true []))
            "RME_RR" "")))))
  end.

(** A Python object not yet in use. *)
Definition fresh_oid (decs : list level) : nat := S (fold_right Nat.max 0%nat (map l_oid decs)).

Fixpoint assign_loop (ks : list nat) (band_edges : list (nat * edges)) (sample_rate : Q)
    (factors : list (nat * Q)) (w : window_arg) (n_levels : nat) (decs : list level) : list level * option exn :=
  match ks with
  | [] => (decs, None)
  | k :: r =>
      match dget Nat.eq_dec k band_edges with
      | None => (decs, Some KeyError)   (* unreachable: [k] is a key *)
      | Some rows =>
          match assign_one (fresh_oid decs) k rows sample_rate factors w n_levels with
          | Err e => (decs, Some e)
          | Ok l => assign_loop r band_edges sample_rate factors w n_levels (decs ++ [l])%list
          end
      end
  end.
(** processing.py 253-314 [assign_bands]. *)
Definition assign_bands (band_edges : list (nat * edges)) (sample_rate : Q) (factors : list (nat * Q))
    (w : window_arg) (decs : list level) : list level * option exn :=
  assign_loop (sort_by Nat.leb (dkeys band_edges)) band_edges sample_rate factors w (length band_edges) decs.

(** fourier_coefficients/decimation.py 469-490: the loop of [fc_decimations_creator]; the result holds, for
    each level, its number, its id, its factor and its rate.  The time period is not modelled. *)
Record fclevel : Type := mkFc { fc_number : nat; fc_id : string; fc_factor : Q; fc_rate : Q }.
Fixpoint fc_loop (show : nat -> string) (i : nat) (current : Q) (factors : list Q) : result (list fclevel) :=
  match factors with
  | [] => Ok []
  | d :: r =>
      bindR (if Nat.eqb i 0 then Ok (1 * current)
             else if Qeq_bool d 0 then Err ZeroDivisionError else Ok (current / d)) (fun sr =>
      bindR (fc_loop show (S i) sr r) (fun rest => Ok (mkFc i (show i) d sr :: rest)))
  end.
(** fourier_coefficients/decimation.py 423-492 [fc_decimations_creator]; [show] is [str] of an int. *)
Definition fc_decimations_creator (show : nat -> string) (initial : Q) (factors : list Q) (max_levels : nat)
  : result (list fclevel) :=
  match factors with
  | [] => match max_levels with
          | O => Err IndexError
          | S m => fc_loop show 0 initial (1 :: repeat 4 m)
          end
  | _ => fc_loop show 0 initial factors
  end.

(* ---------------------------------------------------------------- archives *)

(** fourier_coefficients/decimation.py 18-101, the attributes used here. *)
Record archive : Type := mkArchive
  { a_id : string; a_channels : list string; a_dec : tsdec; a_stft : stft }.
Definition default_archive : archive := mkArchive "" [] default_ts default_stft.

(** decimation_level.py 362-364 [local_channels]. *)
Definition local_channels (l : level) : list string := (l_input l ++ l_output l)%list.
(** decimation_level.py 344-360 [harmonic_indices]. *)
Definition level_indices (l : level) : list Z :=
  map Z.of_nat (level_harmonics (map (fun b => (lb_lo b, lb_hi b)) (l_bands l))).

Definition subset (a b : list string) : bool := forallb (fun x => memb string_dec x b) a.
Definition zsubset (a b : list Z) : bool := forallb (fun x => memb Z.eq_dec x b) a.
Definition ostring_eqb (a b : option string) : bool :=
  match a, b with Some x, Some y => String.eqb x y | None, None => true | _, _ => false end.

(** decimation_level.py 366-545 [is_consistent_with_archived_fc_parameters]. *)
Definition is_consistent (l : level) (a : archive) (remote : bool) : result bool :=
  let required := if remote then l_reference l else local_channels l in
  let s := l_stft l in let t := a_stft a in
  if negb (subset required (a_channels a)) then Ok false else
  let aaf := ostring_eqb (t_aaf (a_dec a)) (t_aaf (l_dec l)) in
  if negb (aaf || (ostring_eqb (t_aaf (l_dec l)) (Some "default") && ostring_eqb (t_aaf (a_dec a)) None))
  then Err NotImplementedError else
  if negb (Qeq_bool (t_rate (a_dec a)) (t_rate (l_dec l))) then Ok false else
  if negb (String.eqb (s_method t) (s_method s)) then Ok false else
  if negb (String.eqb (s_prewhitening t) (s_prewhitening s)) then Ok false else
  if negb (Bool.eqb (s_recoloring t) (s_recoloring s)) then Ok false else
  if negb (String.eqb (s_detrend t) (s_detrend s)) then Ok false else
  if negb (Z.eqb (s_min_windows t) (s_min_windows s)) then Ok false else
  if negb (if window_dec (s_window t) (s_window s) then true else false) then Ok false else
  match s_harmonics t with
  | HNone => Ok true
  | HInt _ => Err TypeError          (* [-1 in 5] *)
  | HList hs => if memb Z.eq_dec (-1)%Z hs then Ok true
                else Ok (zsubset (level_indices l) hs)
  end.

(** [str] of an optional int. *)
Definition show_level (show : nat -> string) (k : option nat) : string :=
  match k with Some n => show n | None => "None" end.

(** decimation_level.py 547-601 [to_fc_decimation]. *)
Definition to_fc_decimation (show : nat -> string) (l : level) (remote ignore_indices : bool) : archive :=
  let s := l_stft l in let d := default_stft in
  mkArchive (show_level show (l_number l))
    (if remote then l_reference l else local_channels l)
    (mkTs (t_level (l_dec l)) (t_factor (l_dec l)) (t_method default_ts) (t_rate (l_dec l)) (t_aaf (l_dec l)))
    (mkStft (if ignore_indices then s_harmonics d else HList (level_indices l))
       (s_method s) (s_min_windows d) (s_per_window d) (s_detrend s) (s_prewhitening s) (s_recoloring s)
       (s_window s)).
