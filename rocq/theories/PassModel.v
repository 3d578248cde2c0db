(** Model of the pass band of a filter and of a channel response, of the normalization frequency taken from it, and of
    the sensitivity written to StationXML: mt_metadata/timeseries/filters/filter_base.py 354-455 and
    channel_response.py 152-175, 246-266, 391-445, 458-488.

    Simplified: floats are real numbers, so what numpy does with infinities and NaN is written as a case of its own
    where it matters; frequencies are real numbers and the window length is not negative. *)
From Coq Require Import Reals.
From Verif Require Import PyBase PyText Cplx FilterModel.
Local Open Scope R_scope.

(** [np.rint], half to even, and [np.round(x, d)]. *)
Definition rint (x : R) : Z :=
  let n := Int_part x in let d := x - IZR n in
  if Rlt_dec d (/ 2) then n else if Rlt_dec (/ 2) d then (n + 1)%Z else if Z.even n then n else (n + 1)%Z.
Definition round_at (d : Z) (x : R) : R := IZR (rint (x * powerRZ 10 d)) * powerRZ 10 (- d).
Definition log10 (x : R) : R := ln x / ln 10.

Definition rmin (x : R) (l : list R) : R := fold_right Rmin x l.
Definition rmax (x : R) (l : list R) : R := fold_right Rmax x l.
Definition mean (l : list R) : R := fold_right Rplus 0 l / INR (length l).

(** filter_base.py 407-409.  [np.round(amp, 6).all()] is [True] or [False], compared as 1 or 0. *)
Definition seems_flat (amp : list R) : bool :=
  let every := forallb (fun a => if Req_EM_T (round_at 6 a) 0 then false else true) amp in
  if Req_EM_T (if every then 1 else 0) (round_at 6 (mean amp)) then true else false.
(** 435-441: [|1 - log10(min)/log10(max)| <= tol].  A zero or a largest value of one gives a NaN or an infinity, and
    these become numbers larger than any tolerance. *)
Definition window_passes (tol : R) (w : list R) : bool :=
  match w with
  | [] => false
  | a :: r =>
      let mn := rmin a r in let mx := rmax a r in
      if Rle_dec mn 0 then false else if Req_EM_T mx 1 then false
      else if Rle_dec (Rabs (1 - log10 mn / log10 mx)) tol then true else false
  end.
(** 412-415: every d-th value. *)
Fixpoint every_from (k d : nat) (l : list R) : list R :=
  match l with
  | [] => []
  | a :: r => match k with O => a :: every_from (d - 1) d r | S k => every_from k d r end
  end.
Definition every_nth (d : nat) (l : list R) : list R := every_from 0 d l.
Definition window (n i : nat) (l : list R) : list R := firstn n (skipn i l).
(** 422-445: the places of the windows that pass; the last window is not among those looked at. *)
Definition passing (n : nat) (tol : R) (amp : list R) : list nat :=
  filter (fun i => window_passes tol (window n i amp)) (seq 0 (length amp - n)).
(** 392-455 [pass_band] from the frequencies and the amplitudes of the response (none when the class has no response).
    A window of no length raises an error that is caught. *)
Definition pass_band (fs : list R) (amp : option (list R)) (n : nat) (tol : R) : option (list R) :=
  match fs with
  | [] => None
  | [f] => Some [f]
  | f0 :: rest =>
      match amp with
      | None => None
      | Some amp =>
          let full := Some [rmin f0 rest; rmax f0 rest] in
          if seems_flat amp then full
          else
            let d := Nat.max 1 (length fs / 1000) in
            let amp_dec := every_nth d amp in
            if (length amp_dec <=? n)%nat then full
            else match n with
                 | O => full
                 | _ =>
                     match passing n tol amp_dec with
                     | [] => full
                     | first :: more =>
                         let i := (first * d)%nat in
                         let j := Nat.min ((last more first + n) * d) (length fs - 1) in
                         Some [nth i fs 0; nth j fs 0]
                     end
                 end
      end
  end.
(** The same for the filters of FilterModel.v, with the default window and tolerance. *)
Definition amplitudes (f : flt) (fs : list R) : list R := map (fun q => Cabs (resp f q)) fs.
Definition filter_pass_band (f : flt) (fs : list R) : option (list R) := pass_band fs (Some (amplitudes f fs)) 5 (/ 2).

(** channel_response.py 246-266 [pass_band]. *)
Definition ends (pb : list R) : R * R := match pb with [] => (0, 0) | a :: r => (rmin a r, rmax a r) end.
Definition bands (flts : list flt) (fs : list R) : list (R * R) :=
  flat_map (fun f => match filter_pass_band f fs with Some pb => [ends pb] | None => [] end) flts.
Definition channel_pass_band (flts : list flt) (fs : list R) : option (R * R) :=
  match fs with
  | [] => None
  | _ =>
      match bands flts fs with
      | [] => None
      | b :: r => Some (rmax (fst b) (map fst r), rmin (snd b) (map snd r))
      end
  end.
(** 166-169: [np.round(10 ** np.mean(np.log10(pass_band)), 3)]; none is NaN. *)
Definition middle (b : R * R) : option R :=
  if Rlt_dec (fst b) 0 then None else if Rlt_dec (snd b) 0 then None
  else if Req_EM_T (fst b) 0 then Some 0 else if Req_EM_T (snd b) 0 then Some 0
  else Some (round_at 3 (Rpower 10 ((log10 (fst b) + log10 (snd b)) / 2))).

(** A channel response: the filters, the normalization frequency (none is NaN) and the frequencies. *)
Record response : Type := mkResponse { r_filters : list flt; r_norm : option R; r_freqs : list R }.
(** 154-175, after every assignment. *)
Definition settle (c : response) : response :=
  match r_filters c with
  | [] => c
  | _ =>
      match r_norm c with
      | Some z =>
          if Req_EM_T z 0 then
            match channel_pass_band (r_filters c) (r_freqs c) with
            | Some b => mkResponse (r_filters c) (middle b) (r_freqs c)
            | None => c
            end
          else c
      | None => c
      end
  end.
Definition set_frequencies (c : response) (fs : list R) : response := settle (mkResponse (r_filters c) (r_norm c) fs).
(** A new response: no frequencies, and a normalization frequency of zero, before they are given. *)
Definition new_response (flts : list flt) (fs : list R) : response := settle (mkResponse flts (Some 0) fs).

(** [round(x, figs - int(np.floor(np.log10(abs(x)))))]; 412-424, 456. *)
Definition sig_round (figs : Z) (x : R) : R := round_at (figs - Int_part (log10 (Rabs x))) x.
(** 391-424 [compute_instrument_sensitivity]. *)
Definition total_response (flts : list flt) (nf : R) : Cx := fold_left (fun s f => Cmul s (resp f nf)) flts C1.
Definition sensitivity (flts : list flt) (nf : R) (figs : Z) : R :=
  let s := Cabs (total_response flts nf) in if Req_EM_T s 0 then 1 else sig_round figs s.
(** 426-456 [compute_total_gain]; [int(-inf)] is an OverflowError. *)
Definition total_gain (flts : list flt) (figs : Z) : result R :=
  let g := fold_left (fun g f => g * f_gain f) flts 1 in
  if Req_EM_T g 0 then Err OverflowError else Ok (sig_round figs g).
(** 458-488 [to_obspy]: the value of the instrument sensitivity. *)
Definition obspy_sensitivity (flts : list flt) (nf : R) : result R :=
  bindR (total_gain flts 16) (fun g => let s := sensitivity flts nf 6 in Ok (if Req_EM_T s g then s else g)).
