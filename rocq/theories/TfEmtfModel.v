(** Model of the conversion between TF objects and EMTF XML objects, as far as the arrays go:
    /repo/mt_metadata/transfer_functions/core.py 2137-2202 (to_emtfxml) and 2204-2256 (from_emtfxml).  The
    metadata of survey and station, tags and period range are not modelled. *)
From Coq Require Import QArith.
From Verif Require Import PyBase PyText TfModel.
From Verif Require EmtfModel.
Local Open Scope nat_scope.

Notation cell := EmtfModel.cell.
Notation cpair := EmtfModel.cpair.
Notation emtf := EmtfModel.data.

(** Numbers as in EmtfModel: both parts are rational or nan.  [x == 0]; [np.nan_to_num(x) == 0] though one part
    is nan; the real part. *)
Definition is_0 (c : cell) : bool := match c with Some q => Qeq_bool q 0 | None => false end.
Definition is_0_or_nan (c : cell) : bool := match c with Some q => Qeq_bool q 0 | None => true end.

Section Conversion.
(** [np.sqrt] of a number that is not negative, and the errors from covariances (core.py 1460-1536), which are
    not computed here. *)
Variable root : Q -> Q.
Variable spr : cpair -> cpair -> cpair.
Definition cells : nums :=
  mkNums cpair (Some 0%Q, Some 0%Q) (fun x => is_0 (fst x) && is_0 (snd x)) (fun x => is_0_or_nan (fst x) && is_0_or_nan (snd x) && negb (is_0 (fst x) && is_0 (snd x)))
    (fun x => (fst x, Some 0%Q)) spr.
Notation tf := (tf cells).

(** [.loc[dict(input=ins, output=outs)].data] of what a getter returned. *)
Definition array_of (l : labelled cells) (outs ins : list text) : nat -> nat -> nat -> cpair := fun p i j => l_at cells l p (nth i outs []) (nth j ins []).
(** [x ** 2] of floats *)
Definition square (x : cpair) : cpair := (match fst x with Some q => Some (q * q)%Q | None => None end, Some 0%Q).
Definition pair_of (z e : option (labelled cells)) (outs ins : list text) : result (option (nat -> nat -> nat -> cpair) * option (nat -> nat -> nat -> cpair)) :=
  match z, e with
  | Some z, Some e => Ok (Some (array_of z outs ins), Some (fun p i j => square (array_of e outs ins p i j)))
  | _, _ => Err AttributeError
  end.
(** to_emtfxml, core.py 2172-2198.  Arrays that are not set stay empty. *)
Definition to_emtf (t : tf) : result emtf :=
  let ns := t_names cells t in
  bindR (has_impedance cells t) (fun hi =>
  bindR (if hi then bindR (get cells AImp t) (fun z => bindR (get cells AImpErr t) (fun e => pair_of z e (ex_ey ns) (hx_hy ns))) else Ok (None, None)) (fun zs =>
  bindR (has_residual_covariance cells t) (fun hr =>
  bindR (if hr then has_inverse_signal_power cells t else Ok false) (fun hc =>
  bindR (if hc then bindR (get cells AIsp t) (fun s => bindR (get cells ARes t) (fun r =>
           match s, r with
           | Some s, Some r => Ok (Some (array_of s (hx_hy ns) (hx_hy ns)), Some (array_of r (ex_ey ns) (ex_ey ns)), Some (array_of r [n_hz ns] [n_hz ns]))
           | _, _ => Err AttributeError end))
         else Ok (None, None, None)) (fun cs =>
  bindR (has_tipper cells t) (fun ht =>
  bindR (if ht then bindR (get cells ATip t) (fun z => bindR (get cells ATipErr t) (fun e => pair_of z e [n_hz ns] (hx_hy ns))) else Ok (None, None)) (fun ts =>
  let '(inv, zres, tres) := cs in
  Ok (EmtfModel.mkEmtf (d_periods cells (t_data cells t))
    (fun k => match k with
     | EmtfModel.KZ => fst zs | EmtfModel.KZVar => snd zs | EmtfModel.KZInv => inv | EmtfModel.KZRes => zres
     | EmtfModel.KT => fst ts | EmtfModel.KTVar => snd ts | EmtfModel.KTInv => inv | EmtfModel.KTRes => tres end))))))))).

(** One statement after the other. *)
Definition andthen (r : tf * option exn) (k : tf -> tf * option exn) : tf * option exn :=
  let '(t, e) := r in match e with Some _ => r | None => k t end.
(** An array of the EMTF XML object; the empty ones have no periods (data.py 58-168). *)
Definition emtf_array (d : emtf) (k : EmtfModel.key) (r c : nat) : given cells :=
  match EmtfModel.e_arr d k with
  | Some a => GArray cells [length (EmtfModel.e_period d); r; c] a
  | None => GArray cells [0; r; c] (fun _ _ _ => (None, None))
  end.
(** [np.sqrt(np.where(v >= 0, v, np.nan))] and [np.sqrt(v)] *)
Definition sqrt_cell (x : cpair) : cpair :=
  (match fst x with Some v => if Qle_bool 0 v then Some (root v) else None | None => None end, Some 0%Q).
Definition sqrt_given (v : given cells) : given cells := match v with GArray _ sh a => GArray cells sh (fun p i j => sqrt_cell (a p i j)) | v => v end.
(** Assignment to [.loc] of the dataset: KeyError for labels that are not there, ValueError for an array of
    another number of periods. *)
Definition put (v : var) (outs ins : list text) (g : given cells) (t : tf) : tf * option exn :=
  match g with
  | GArray _ sh a =>
      if located cells (t_data cells t) outs ins then
        if hd 0 sh =? length (d_periods cells (t_data cells t)) then (mkTf cells (t_names cells t) (t_inverse cells t) (assign cells (t_data cells t) v outs ins a), None)
        else (t, Some ValueError)
      else (t, Some KeyError)
  | _ => (t, None)
  end.
(** from_emtfxml, core.py 2233-2256, after the metadata. *)
Definition from_emtf (d : emtf) (t : tf) : tf * option exn :=
  let h := [txt "hx"; txt "hy"] in let e := [txt "ex"; txt "ey"] in let z := [txt "hz"] in
  andthen (set_period cells (EmtfModel.e_period d) t) (fun t =>
  andthen (set cells AImp (emtf_array d EmtfModel.KZ 2 2) t) (fun t =>
  andthen (set cells AImpErr (sqrt_given (emtf_array d EmtfModel.KZVar 2 2)) t) (fun t =>
  andthen (put VIsp h h (emtf_array d EmtfModel.KZInv 2 2) t) (fun t =>
  andthen (put VRes e e (emtf_array d EmtfModel.KZRes 2 2) t) (fun t =>
  andthen (set cells ATip (emtf_array d EmtfModel.KT 1 2) t) (fun t =>
  andthen (set cells ATipErr (sqrt_given (emtf_array d EmtfModel.KTVar 1 2)) t) (fun t =>
  andthen (put VIsp h h (emtf_array d EmtfModel.KTInv 2 2) t) (fun t =>
  put VRes z z (emtf_array d EmtfModel.KTRes 1 1) t)))))))).
End Conversion.
