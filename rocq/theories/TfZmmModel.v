(** Model of the conversion between TF objects and Z files, as far as channels and arrays go:
    /repo/mt_metadata/transfer_functions/core.py 2310-2339 (make_zmm_run), 2341-2407 (to_zmm), 2409-2483 (from_zmm);
    io/zfiles/zmm.py 644-737 (write), 536-616 (read) and 850-903 (_fill_dataset). *)
From Coq Require Import QArith Qreals.
From Verif Require Import PyBase PyText PyNum PyFloat ZmmModel ZheadModel Cplx ZrotModel TfModel.
From Verif Require TfSpec TfEmtfModel.
Local Open Scope nat_scope.

(** An object that is written: both parts of a number are rational or nan (TfEmtfModel). *)
Notation cpair := TfEmtfModel.cpair.
Notation comp := ZheadModel.comp.
(** An object that is filled: complex numbers or nan (TfSpec). *)
Notation cx := TfSpec.cx_nums.

(** channel_nomenclature[c] *)
Definition name_of (ns : names) (c : comp) : text :=
  match c with ZheadModel.Ex => n_ex ns | ZheadModel.Ey => n_ey ns | ZheadModel.Hx => n_hx ns | ZheadModel.Hy => n_hy ns | ZheadModel.Hz => n_hz ns end.

Section Written.
Variable spr : cpair -> cpair -> cpair.
Notation cells := (TfEmtfModel.cells spr).
Notation tf := (tf cells).

(** What is written of a ZMM object: core.py 2359-2366 and 2404-2405. *)
Record zobject : Type := mkObject {
  zo_names : names; zo_channels : option Z; zo_frequencies : Z; zo_channel : comp -> option (zchannel Q); zo_data : dataset cells }.

(** core.py 2368-2380: the number of channels and their numbers; nothing without tipper and impedance. *)
Definition number_dict (tipper impedance : bool) : option (list (comp * Z)) :=
  if tipper then if impedance then Some [(ZheadModel.Hx, 1); (ZheadModel.Hy, 2); (ZheadModel.Hz, 3); (ZheadModel.Ex, 4); (ZheadModel.Ey, 5)]%Z
                 else Some [(ZheadModel.Hx, 1); (ZheadModel.Hy, 2); (ZheadModel.Hz, 3)]%Z
  else if impedance then Some [(ZheadModel.Hx, 1); (ZheadModel.Hy, 2); (ZheadModel.Ex, 3); (ZheadModel.Ey, 4)]%Z
  else None.
Definition number_in (d : list (comp * Z)) (c : comp) : option Z := option_map snd (List.find (fun x => comp_eqb (fst x) c) d).
(** make_zmm_run, core.py 2327-2338: channels with azimuth and tilt zero. *)
Definition bare_channels (d : list (comp * Z)) : comp -> option (zchannel Q) :=
  fun c => match number_in d c with Some n => Some (mkChannel (Some n) 0%Q 0%Q) | None => None end.
Fixpoint dict_get (d : list (text * text)) (k : text) : option text :=
  match d with [] => None | (x, v) :: r => if text_eqb x k then Some v else dict_get r k end.
(** core.py 2391-2403 for the channels of the first run, given by component, azimuth and tilt.  Components are those of
    ChannelEnum. *)
Fixpoint run_channels (inverse : list (text * text)) (d : option (list (comp * Z))) (run : list (text * (Q * Q)))
  (f : comp -> option (zchannel Q)) : result (comp -> option (zchannel Q)) :=
  match run with
  | [] => Ok f
  | (x, (azimuth, tilt)) :: r =>
      if contains (txt "rr") x then run_channels inverse d r f
      else match dict_get inverse x with
           | None => Err KeyError
           | Some k => match d with
                       | None => Err UnboundLocalError
                       | Some d => match comp_of k with
                                   | None => run_channels inverse (Some d) r f
                                   | Some c => match number_in d c with
                                               | None => run_channels inverse (Some d) r f
                                               | Some n => run_channels inverse (Some d) r (fun c' => if comp_eqb c' c then Some (mkChannel (Some n) azimuth tilt) else f c')
                                               end
                                   end
                       end
           end
  end.
(** core.py 2341-2407.  An empty [run]: there is no run, or the first run has no channels. *)
Definition to_zmm (run : list (text * (Q * Q))) (t : tf) : result zobject :=
  let '(t, inverse) := inverse_names cells t in
  bindR (has_tipper cells t) (fun ht => bindR (has_impedance cells t) (fun hi =>
  let d := number_dict ht hi in
  bindR (match run with
         | [] => match d with Some d => Ok (bare_channels d) | None => Err UnboundLocalError end
         | _ => run_channels inverse d run (fun _ => None)
         end) (fun f =>
  Ok (mkObject (t_names cells t) (option_map (fun d => Z.of_nat (length d)) d) (Z.of_nat (length (d_periods cells (t_data cells t)))) f (t_data cells t))))).

(** Both parts of a number; nan is not written by the model. *)
Definition parts (x : cpair) : Q * Q := (match fst x with Some q => q | None => 0%Q end, match snd x with Some q => q | None => 0%Q end).
(** zmm.py 677-735: one period.  [dec] is what decimation_dict has for the period, or the default: level, band, number of
    points and the text of the sample rate. *)
Definition block (z : zobject) (dec : Q -> Z * (Z * Z) * Z * text) (p : nat) : zdata :=
  let outs := output_channels (zo_channel z) in let ins := input_channels (zo_channel z) in
  let at_ v l l' := fun i j => parts (d_at cells (zo_data z) v p (name_of (zo_names z) (nth i l ZheadModel.Ex)) (name_of (zo_names z) (nth j l' ZheadModel.Ex))) in
  let q := nth p (d_periods cells (zo_data z)) 0%Q in
  let '(level, bands, npts, rate) := dec q in
  mkZdata q level bands npts rate (at_ VTf outs ins) (at_ VIsp ins ins) (at_ VRes outs outs).
(** zmm.py 644-737.  [head] has the rest of the header; an object of fewer than two channels is not modelled, nor are
    periods that appear twice. *)
Definition write_object (head : zhead) (dec : Q -> Z * (Z * Z) * Z * text) (z : zobject) : result text :=
  let outs := output_channels (zo_channel z) in let ins := input_channels (zo_channel z) in
  let h := mkHead (zh_type head) (zh_station head) (zh_latitude head) (zh_longitude head) (zh_declination head) (zo_channels z) (Some (zo_frequencies z)) (zo_channel z) in
  if negb (length ins =? 2) then Err NotImplementedError
  else if negb (located cells (zo_data z) (map (name_of (zo_names z)) (ins ++ outs)) (map (name_of (zo_names z)) (ins ++ outs))) then Err KeyError
  else write_zmm h (length outs) (map (block z dec) (seq 0 (length (d_periods cells (zo_data z))))).
End Written.

(** ** Reading *)
(** Numbers of a file as complex numbers; inf is not distinguished from nan. *)
Definition real_of (x : pynum) : option R := match x with Fin q => Some (Q2R q) | NonFinite => None end.
Definition value_of (x : zval) : option Cx := match real_of (fst x), real_of (snd x) with Some a, Some b => Some (a, b) | _, _ => None end.
(** The arrays after reading: a period that is not in the file is all zeros, zmm.py 536-557. *)
Definition row_at (rows : list (option zread)) (f : zread -> nat -> nat -> zval) (p i j : nat) : option Cx :=
  match nth p rows None with Some r => value_of (f r i j) | None => Some C0 end.
Definition row_period (r : option zread) : Q := match r with Some r => match zr_period r with Fin q => q | NonFinite => 0%Q end | None => 0%Q end.
(** For the rotation: a number that is not finite is not modelled. *)
Definition finite (x : option Cx) : Cx := match x with Some c => c | None => C0 end.
(** Numbers less than one are not modelled here. *)
Definition zchan_of (c : option (zchannel pynum)) : option zchan :=
  match c with
  | Some ch => match zn_number ch with
               | Some n => Some (mkZchan (Z.to_nat (n - 1)) (match zn_azimuth ch with Fin q => Q2R q | NonFinite => 0%R end))
               | None => None end
  | None => None
  end.
(** A ZMM object after reading, without metadata. *)
Record zfile : Type := mkZfile { zf_periods : list Q; zf_ins : list text; zf_outs : list text; zf_data : dataset cx }.
(** What is assigned with [.loc]; None is stored as nan, in the errors too. *)
Definition put_all (d : dataset cx) (v : var) (outs ins : list text) (f : nat -> nat -> nat -> option Cx) : dataset cx := assign cx d v outs ins f.
Definition default_label (c : comp) : text := name_of default_names c.
(** _fill_dataset, zmm.py 850-903.  After reading, the names of the channels are the default ones (zmm.py 603).  Arrays
    that do not fit the channels raise ValueError.  The exceptions are the same for all periods. *)
Definition fill_dataset (rotate : bool) (angle : R) (g : zgot) (rows : list (option zread)) : result zfile :=
  let f := zg_channel g in
  let ins := map default_label (input_channels f) in let outs := map default_label (output_channels f) in
  let periods := map row_period rows in
  let n := match zg_channels g with Some nc => Z.to_nat (nc - 2) | None => 0 end in
  let tfs := row_at rows zr_tf in let sig := row_at rows zr_sig in let res := row_at rows zr_res in
  let fits := (length ins =? 2) && (length outs =? n) in
  let d0 := initialize cx default_names periods in
  let m a p : cmat := fun i j => finite (a p i j) in
  bindR (if rotate then
      let imp p := calculate_impedance n (zchan_of (f ZheadModel.Hx)) (zchan_of (f ZheadModel.Hy)) (zchan_of (f ZheadModel.Ex)) (zchan_of (f ZheadModel.Ey)) angle (m tfs p) (m sig p) (m res p) in
      let tip p := match zchan_of (f ZheadModel.Hz), zchan_of (f ZheadModel.Hx), zchan_of (f ZheadModel.Hy) with
                   | None, _, _ => Ok None
                   | Some hz, Some hx, Some hy => calculate_tippers n hx hy (Some hz) angle (m tfs p) (m sig p) (m res p)
                   | _, _, _ => Err AttributeError end in
      bindR (imp 0) (fun _ => bindR (tip 0) (fun _ =>
      let d1 := put_all d0 VTf (ex_ey default_names) (hx_hy default_names) (fun p i j => match imp p with Ok (Some (z, _)) => Some (z i j) | _ => None end) in
      let d2 := put_all d1 VErr (ex_ey default_names) (hx_hy default_names) (fun p i j => match imp p with Ok (Some (_, e)) => Some (RtoC (e i j)) | _ => None end) in
      let d3 := put_all d2 VTf [n_hz default_names] (hx_hy default_names) (fun p i j => match tip p with Ok (Some (w, _)) => Some (w j) | _ => None end) in
      Ok (put_all d3 VErr [n_hz default_names] (hx_hy default_names) (fun p i j => match tip p with Ok (Some (_, e)) => Some (RtoC (e j)) | _ => None end))))
    else if fits then Ok (put_all d0 VTf outs ins tfs) else Err ValueError) (fun d =>
  if fits then Ok (mkZfile periods ins outs (put_all (put_all d VIsp ins ins sig) VRes outs outs res)) else Err ValueError).
(** ZMM.read, zmm.py 595-616; [None]: does not return. *)
Definition read_object (rotate use_declination : bool) (s : text) : option (result zfile) :=
  option_map (fun r => bindR r (fun '(g, rows) =>
    fill_dataset rotate (read_angle use_declination (match zg_declination g with Fin q => Q2R q | NonFinite => 0%R end)) g rows)) (read_zmm s).

(** One assignment of core.py 2458-2479: KeyError for labels that are not there. *)
Definition copy (z : zfile) (v : var) (outs ins : list text) (t : tf cx) : tf cx * option exn :=
  if located cx (t_data cx t) outs ins && located cx (zf_data z) outs ins
  then (mkTf cx (t_names cx t) (t_inverse cx t)
          (assign cx (t_data cx t) v outs ins (fun p i j => d_at cx (zf_data z) v p (nth i outs []) (nth j ins []))), None)
  else (t, Some KeyError).
Definition andthen (r : tf cx * option exn) (k : tf cx -> tf cx * option exn) : tf cx * option exn :=
  let '(t, e) := r in match e with Some _ => r | None => k t end.
(** from_zmm, core.py 2447-2481, after the metadata. *)
Definition from_zmm (z : zfile) (t : tf cx) : tf cx * option exn :=
  andthen (set_period cx (zf_periods z) t) (fun t =>
  andthen (copy z VTf (zf_outs z) (zf_ins z) t) (fun t =>
  andthen (copy z VErr (zf_outs z) (zf_ins z) t) (fun t =>
  andthen (copy z VIsp (zf_ins z) (zf_ins z) t) (fun t =>
  andthen (copy z VRes (zf_outs z) (zf_outs z) t) (fun t => compute_errors cx t))))).
(** from_zmm with a file; the rotation is the default. *)
Definition read_tf (rotate use_declination : bool) (s : text) (t : tf cx) : option (tf cx * option exn) :=
  option_map (fun r => match r with Ok z => from_zmm z t | Err e => (t, Some e) end) (read_object rotate use_declination s).
(** from_zmm with the object that to_zmm returns: it has no periods (core.py 2365 sets the dataset only), and setting them
    raises: [len(None)], or xarray refuses the coordinate None. *)
Definition from_object (t : tf cx) : tf cx * option exn :=
  if (length (d_periods cx (t_data cx t)) =? 1) && same_periods (d_periods cx (t_data cx t)) [1%Q] then (t, Some ValueError) else (t, Some TypeError).
