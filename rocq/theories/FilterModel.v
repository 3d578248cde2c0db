(** Model of the filters of mt_metadata/timeseries/filters: the complex response of each kind
    of filter, [ChannelResponse], and the conversion to and from obspy response stages.
    Python floats are modelled by reals, so rounding, NaN and infinities are not modelled. *)
From Coq Require Import Reals.
From Verif Require Import PyBase PyText Cplx.
Local Open Scope R_scope.

(** fir_filter.py 101-113: [SymmetryEnum] *)
Inductive symmetry := SymEven | SymOdd | SymNone.

(** The attributes each filter class adds to [FilterBase]:
    coefficient_filter.py (none), time_delay_filter.py 33-46, pole_zero_filter.py 35-76,
    frequency_response_table_filter.py 41-84, fir_filter.py 39-113. *)
Inductive body : Type :=
| Coefficient
| TimeDelay (delay : R)
| PoleZero (zeros poles : list Cx) (normalization_factor : R)
| Fap (table : list (R * (R * R)))     (* frequency, (amplitude, phase) *)
| Fir (coefficients : list R) (sym : symmetry)
      (decimation_factor decimation_input_sample_rate gain_frequency : R).

(** filter_base.py 50-160.  Comments, calibration date and sequence number are left out. *)
Record flt : Type := mkF {
  f_name : string; f_units_in : text; f_units_out : text; f_gain : R; f_body : body }.

(** [x.type] (time_delay_filter.py 48-58 forces "time delay") compared with "time delay";
    channel_response.py 268, 280, 311 *)
Definition is_delay (f : flt) : bool :=
  match f_body f with TimeDelay _ => true | _ => false end.

(** filter_base.py 501-512 [decimation_active]; only FIR filters have [decimation_factor] *)
Definition decimation_active (f : flt) : bool :=
  match f_body f with
  | Fir _ _ d _ _ => if Req_EM_T d 1 then false else true
  | _ => false
  end.

(** fir_filter.py 142-149 [symmetry_corrected_coefficients] *)
Definition symmetry_corrected (s : symmetry) (c : list R) : list R :=
  match s with
  | SymEven => c ++ rev c
  | SymOdd => c ++ rev (tl c)
  | SymNone => c
  end.

(** scipy's [freqz(b, worN=2 pi f, fs=2 pi rate)]: the polynomial [b] at [exp(-2 pi i f/rate)] *)
Fixpoint polyval (b : list R) (z : Cx) : Cx :=
  match b with
  | [] => C0
  | c :: r => Cadd (RtoC c) (Cmul z (polyval r z))
  end.
Definition freqz (b : list R) (rate f : R) : Cx := polyval b (cis (- (2 * PI * f / rate))).

Definition rsum (l : list R) : R := fold_right Rplus 0 l.

(** fir_filter.py 151-168 [coefficient_gain] *)
Definition coefficient_gain (c : list R) (s : symmetry) (rate gf : R) : R :=
  if Req_EM_T gf 0 then rsum (symmetry_corrected s c)
  else Cabs (freqz (symmetry_corrected s c) rate gf).

(** fir_filter.py 174-180 [corrective_scalar]; [total_gain] is [gain] (filter_base.py 240-249) *)
Definition corrective_scalar (gain : R) (c : list R) (s : symmetry) (rate gf : R) : R :=
  if Req_EM_T (coefficient_gain c s rate gf) gain then 1
  else coefficient_gain c s rate gf / gain.

(** scipy's [interp1d(x, y, kind="slinear", fill_value="extrapolate")]: the table is sorted by
    [x]; inside it the two neighbours are joined by a line, outside it the first or last line
    is continued.  (A one-point table raises in scipy.) *)
Fixpoint insert_x {A : Type} (p : R * A) (l : list (R * A)) : list (R * A) :=
  match l with
  | [] => [p]
  | q :: r => if Rle_dec (fst p) (fst q) then p :: l else q :: insert_x p r
  end.
Definition sort_x {A : Type} (l : list (R * A)) : list (R * A) := fold_right insert_x [] l.
Definition line (p q : R * R) (x : R) : R :=
  (snd q - snd p) / (fst q - fst p) * (x - fst p) + snd p.
Fixpoint interp (l : list (R * R)) (x : R) : R :=
  match l with
  | [] => 0
  | p :: r =>
      match r with
      | [] => snd p
      | q :: r' => match r' with
                   | [] => line p q x
                   | _ => if Rle_dec x (fst q) then line p q x else interp r x
                   end
      end
  end.

Definition cprod (l : list Cx) : Cx := fold_right Cmul C1 l.

(** [complex_response] at one frequency, class by class:
    coefficient_filter.py 112-126; time_delay_filter.py 104-123;
    pole_zero_filter.py 178-193 with scipy's [freqs_zpk] and [total_gain] (121-130);
    frequency_response_table_filter.py 210-249; fir_filter.py 265-286. *)
Definition resp (f : flt) (q : R) : Cx :=
  match f_body f with
  | Coefficient => Cmul (RtoC (f_gain f)) C1
  | TimeDelay d => cis (- (2 * PI * q * d))
  | PoleZero z p k =>
      Cmul (RtoC (f_gain f * k))
           (Cdiv (cprod (map (fun r => Csub (0, 2 * PI * q) r) z))
                 (cprod (map (fun r => Csub (0, 2 * PI * q) r) p)))
  | Fap t =>
      Cmul (RtoC (f_gain f))
           (Cmul (RtoC (interp (map (fun e => (fst e, fst (snd e))) (sort_x t)) q))
                 (cis (interp (map (fun e => (fst e, snd (snd e))) (sort_x t)) q)))
  | Fir c s _ rate gf =>
      Cdiv (freqz (symmetry_corrected s c) rate q)
           (RtoC (corrective_scalar (f_gain f) c s rate gf))
  end.

(** channel_response.py 300-317 [get_indices_of_filters_to_remove] *)
Definition filter_indices (fs : list flt) (include_decimation include_delay : bool) : list nat :=
  let idx := seq 0 (length fs) in
  let idx := if include_delay then idx
             else filter (fun i => match nth_error fs i with Some f => negb (is_delay f) | None => false end) idx in
  if include_decimation then idx
  else filter (fun i => match nth_error fs i with Some f => negb (decimation_active f) | None => false end) idx.

(** channel_response.py 319-336 [get_list_of_filters_to_remove] *)
Definition filters_to_remove (fs : list flt) (include_decimation include_delay : bool) : list flt :=
  flat_map (fun i => match nth_error fs i with Some f => [f] | None => [] end)
           (filter_indices fs include_decimation include_delay).

(** channel_response.py 262-283 *)
Definition non_delay_filters (fs : list flt) : list flt := filter (fun f => negb (is_delay f)) fs.
Definition delay_filters (fs : list flt) : list flt := filter is_delay fs.

(** channel_response.py 285-298 [total_delay] *)
Definition delay_of (f : flt) : R := match f_body f with TimeDelay d => d | _ => 0 end.
Definition total_delay (fs : list flt) : R :=
  fold_left (fun acc f => acc + delay_of f) (delay_filters fs) 0.

(** channel_response.py 374-389: the product of the responses at every frequency,
    [result = filters[0].complex_response(...)] and then [result *= ...]. *)
Definition product_response (sel : list flt) (freqs : list R) : list Cx :=
  match sel with
  | [] => map (fun _ => C1) freqs
  | f :: r => fold_left (fun res g => map (fun p => Cmul (fst p) (snd p))
                                          (combine res (map (resp g) freqs)))
                        r (map (resp f) freqs)
  end.

(** channel_response.py 387-388, [result /= np.max(np.abs(result))] *)
Definition max_abs (l : list Cx) : R := fold_right (fun c m => Rmax (Cabs c) m) 0 l.
Definition normalise (l : list Cx) : list Cx := map (fun c => Cdiv c (RtoC (max_abs l))) l.

(** channel_response.py 338-389 [complex_response] with the flags given; [given] is the
    optional [filters_list] argument, which takes precedence over the flags.  (An empty
    selection returns ones before [normalize] is looked at; the maximum of ones is 1.) *)
Definition complex_response (fs : list flt) (given : option (list flt))
    (include_decimation include_delay normalize : bool) (freqs : list R) : list Cx :=
  let sel := match given with
             | Some l => l
             | None => filters_to_remove fs include_decimation include_delay
             end in
  match sel with
  | [] => map (fun _ => C1) freqs
  | _ => let res := product_response sel freqs in if normalize then normalise res else res
  end.

(** ** The ChannelResponse object *)

(** What a user may put into [filters_list]. *)
Inductive item : Type := IFilter (f : flt) | IOther.

(** channel_response.py 174-208 [_validate_filters_list] *)
Fixpoint supported (l : list item) : result (list flt) :=
  match l with
  | [] => Ok []
  | IFilter f :: r => bindR (supported r) (fun fs => Ok (f :: fs))
  | IOther :: _ => Err TypeError
  end.

(** channel_response.py 210-229 [_check_consistency_of_units] *)
Fixpoint check_units (prev : text) (l : list flt) : result unit :=
  match l with
  | [] => Ok tt
  | f :: r => if text_eqb (f_units_in f) prev then check_units (f_units_out f) r else Err ValueError
  end.
Definition check_consistency (fs : list flt) : result (list flt) :=
  match fs with
  | f :: ((_ :: _) as r) => bindR (check_units (f_units_out f) r) (fun _ => Ok fs)
  | _ => Ok fs
  end.

(** [filters_list], [units_in], [units_out] and [frequencies] of a ChannelResponse. *)
Record chan : Type := mkChan {
  c_filters : list flt; c_in : text; c_out : text; c_freqs : list R }.

(** channel_response.py 150-172: the after-validator, run by construction and by every
    attribute assignment ([validate_assignment=True]).  The normalisation frequency is left out. *)
Definition update_units (c : chan) : chan :=
  match c_filters c with
  | [] => c
  | f :: r => mkChan (c_filters c) (f_units_in f) (f_units_out (last r f)) (c_freqs c)
  end.

(** channel_response.py 136-148 [validate_filters_list] *)
Definition validate_filters (l : list item) : result (list flt) :=
  bindR (supported l) check_consistency.

(** [ChannelResponse(filters_list=l, units_in=ui, units_out=uo)]; the unit strings are already
    validated names (filter_base.py 192-219; see UnitsModel). *)
Definition construct (l : list item) (ui uo : text) : result chan :=
  bindR (validate_filters l) (fun fs => Ok (update_units (mkChan fs ui uo []))).

(** Attribute assignments.  A raising assignment leaves the object as it was. *)
Inductive assignment : Type :=
| SetFilters (l : list item) | SetUnitsIn (u : text) | SetUnitsOut (u : text) | SetFrequencies (q : list R).
Definition assign (c : chan) (a : assignment) : result chan :=
  match a with
  | SetFilters l => bindR (validate_filters l) (fun fs =>
                      Ok (update_units (mkChan fs (c_in c) (c_out c) (c_freqs c))))
  | SetUnitsIn u => Ok (update_units (mkChan (c_filters c) u (c_out c) (c_freqs c)))
  | SetUnitsOut u => Ok (update_units (mkChan (c_filters c) (c_in c) u (c_freqs c)))
  | SetFrequencies q => Ok (update_units (mkChan (c_filters c) (c_in c) (c_out c) q))
  end.
Definition step (c : chan) (a : assignment) : chan :=
  match assign c a with Ok c' => c' | Err _ => c end.
Definition run_assignments (c : chan) (l : list assignment) : chan := fold_left step l c.

(** [response.filters_list.append(f)]: the list is changed in place, no validator runs. *)
Definition append_in_place (c : chan) (f : flt) : chan :=
  mkChan (c_filters c ++ [f]) (c_in c) (c_out c) (c_freqs c).

(** ** Phases of a table filter *)

(** frequency_response_table_filter.py 121-144 [validate_phases] *)
Definition rmax_list (l : list R) : R :=
  match l with [] => 0 | x :: r => fold_right Rmax x r end.
Definition validate_phases (v : list R) : list R :=
  match v with
  | [] => []
  | _ => if Rlt_dec (1000 * PI / 2) (rmax_list v) then map (fun x => x / 1000) v
         else if Rlt_dec (6 * PI) (rmax_list (map Rabs v)) then map (fun x => x * (PI / 180)) v
         else v
  end.

(** ** obspy stages *)

Inductive stage_kind : Type :=
| SPolesZeros (zeros poles : list Cx) (norm : R)
| SCoefficients (decimation_factor decimation_delay decimation_correction : R)
| SFir (coefficients : list R) (sym : symmetry) (decimation_factor rate : R)
| SResponseList (table : list (R * (R * R)))
| SPlain.
Record stage : Type := mkS {
  s_name : string; s_gain : R; s_gain_frequency : R; s_in : text; s_out : text; s_kind : stage_kind }.

(** [to_obspy] of each filter class: coefficient_filter.py 40-110, time_delay_filter.py 65-102,
    pole_zero_filter.py 132-176, frequency_response_table_filter.py 172-208, fir_filter.py 201-240.
    [sym] is the unit lookup name -> symbol, [nf] the argument [normalization_frequency]. *)
Definition to_obspy (symbol : text -> text) (nf : R) (f : flt) : stage :=
  mkS (f_name f) (f_gain f) nf (symbol (f_units_in f)) (symbol (f_units_out f))
    (match f_body f with
     | Coefficient => SCoefficients 1 0 0
     | TimeDelay d => SCoefficients 1 d 0
     | PoleZero z p k => SPolesZeros z p k
     | Fap t => SResponseList t
     | Fir c s d rate _ => SFir c s d rate
     end).

(** channel_response.py 476-500: inside a channel response a coefficient filter whose output is
    not counts is written as a pole-zero stage without poles and zeros. *)
Definition to_obspy_in_channel (symbol : text -> text) (nf : R) (f : flt) : stage :=
  match f_body f with
  | Coefficient =>
      if text_eqb (f_units_out f) (txt "count") || text_eqb (f_units_out f) (txt "digital counts")
      then to_obspy symbol nf f
      else to_obspy symbol nf (mkF (f_name f) (f_units_in f) (f_units_out f) (f_gain f) (PoleZero [] [] 1))
  | _ => to_obspy symbol nf f
  end.

(** obspy_stages.py 81-106 [check_if_coefficient_filter_is_delay_only] *)
Definition delay_only (gain dfac ddelay dcorr : R) : bool :=
  (if Req_EM_T gain 1 then true else false) && (if Req_EM_T dfac 1 then true else false)
  && negb (if Req_EM_T ddelay 0 then true else false) && (if Req_EM_T dcorr 0 then true else false).

(** obspy_stages.py 109-184 [create_filter_from_stage] with filter_base.py 270-347
    [from_obspy_stage] and the mappings of each class (filter_base.py 31-47,
    time_delay_filter.py 60-63, pole_zero_filter.py 85-90, fir_filter.py 133-140,
    frequency_response_table_filter.py 104-109).  [name] is the unit lookup symbol -> name;
    failing lookups are not modelled. *)
Definition from_stage (name : text -> text) (s : stage) : flt :=
  mkF (s_name s) (name (s_in s)) (name (s_out s)) (s_gain s)
    (match s_kind s with
     | SPolesZeros z p k =>
         match z, p with
         | [], [] => if negb (contains (txt "counts") (lower (s_in s)))
                        && negb (contains (txt "counts") (lower (s_out s)))
                     then Coefficient else PoleZero z p k
         | _, _ => PoleZero z p k
         end
     | SCoefficients dfac ddelay dcorr =>
         if delay_only (s_gain s) dfac ddelay dcorr then TimeDelay ddelay else Coefficient
     | SFir c sy d rate => Fir c sy d rate (s_gain_frequency s)
     | SResponseList t =>
         Fap (combine (map fst t) (combine (map (fun e => fst (snd e)) t)
                                           (validate_phases (map (fun e => snd (snd e)) t))))
     | SPlain => Coefficient
     end).
