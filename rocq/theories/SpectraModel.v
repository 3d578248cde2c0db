(** Model of the transfer functions from spectra: _read_spectra,
    /repo/mt_metadata/transfer_functions/io/edi/edi.py 460-687, for one frequency.  The numbers are exact; nan
    is [None].  The reading of the numbers from the lines (478-509) is not modelled. *)
From Verif Require Import PyBase Cplx.
Local Open Scope R_scope.

(** io/tools.py 69-90 [index_locator]: the position of each channel, the last one if it is listed twice. *)
Fixpoint last_index (c : string) (k : nat) (l : list string) : option nat :=
  match l with
  | [] => None
  | x :: r => match last_index c (S k) r with
              | Some i => Some i
              | None => if String.eqb c x then Some k else None
              end
  end.
Definition locate (comps : list string) (c : string) : option nat := last_index c 0 comps.
(** tools.py 80-84: without remote references the channel itself. *)
Definition locate_ref (comps : list string) (r c : string) : option nat :=
  match locate comps r with Some i => Some i | None => locate comps c end.

(** The channel lists of edi.py 342-350. *)
Definition channel_list (nchan : nat) : result (list string) :=
  match nchan with
  | 5%nat => Ok ["hx"; "hy"; "hz"; "ex"; "ey"]%string
  | 4%nat => Ok ["hx"; "hy"; "ex"; "ey"]%string
  | 6%nat => Ok ["hx"; "hy"; "ex"; "ey"; "rhx"; "rhy"]%string
  | 7%nat => Ok ["hx"; "hy"; "hz"; "ex"; "ey"; "rhx"; "rhy"]%string
  | _ => Err UnboundLocalError
  end.

Definition Cx_dec (a b : Cx) : {a = b} + {a <> b}.
Proof. destruct a as [a1 a2], b as [b1 b2]. destruct (Req_EM_T a1 b1), (Req_EM_T a2 b2); [left; congruence|right..]; congruence. Defined.

(** Complex arrays with nan; an operation with nan is nan. *)
Definition cell : Type := option Cx.
Definition mat : Type := nat -> nat -> cell.
Definition lift2 (f : Cx -> Cx -> Cx) (a b : cell) : cell :=
  match a, b with Some x, Some y => Some (f x y) | _, _ => None end.
Definition oadd := lift2 Cadd.
Definition osub := lift2 Csub.
Definition omul := lift2 Cmul.
Definition oconj (a : cell) : cell := option_map Cconj a.
(** np.matmul for the matrices here, whose common size is the number of inputs, 2. *)
Definition mmul (a b : mat) : mat := fun i j => oadd (omul (a i 0%nat) (b 0%nat j)) (omul (a i 1%nat) (b 1%nat j)).
Definition ct (a : mat) : mat := fun i j => oconj (a j i).
Definition madd (a b : mat) : mat := fun i j => oadd (a i j) (b i j).
Definition msub (a b : mat) : mat := fun i j => osub (a i j) (b i j).
(** np.linalg.inv of a 2x2 matrix. *)
Definition inv2 (m : mat) : result mat :=
  match m 0%nat 0%nat, m 0%nat 1%nat, m 1%nat 0%nat, m 1%nat 1%nat with
  | Some a, Some b, Some c, Some d =>
      let det := Csub (Cmul a d) (Cmul b c) in
      if Cx_dec det C0 then Err LinAlgError
      else Ok (fun i j => match i, j with
                          | 0%nat, 0%nat => Some (Cdiv d det)
                          | 0%nat, 1%nat => Some (Cdiv (Copp b) det)
                          | 1%nat, 0%nat => Some (Cdiv (Copp c) det)
                          | 1%nat, 1%nat => Some (Cdiv a det)
                          | _, _ => None
                          end)
  | _, _, _, _ => Ok (fun _ _ => None)
  end.

(** The cross powers, edi.py 539-559, from the square array of the file. *)
Definition cross (arr : nat -> nat -> R) (i j : nat) : Cx :=
  if Nat.eqb i j then (arr i i, 0)
  else if Nat.ltb i j then (arr j i, - arr i j) else (arr i j, arr j i).
(** edi.py 561-562: zeros and the marker of missing values become nan. *)
Definition clean (empty : R) (c : Cx) : cell :=
  if Cx_dec c C0 then None else if Cx_dec c (empty, 0) then None else Some c.

(** The positions of the channels. *)
Record chans : Type := mkChans { c_hx : nat; c_hy : nat; c_hz : option nat; c_e : option (nat * nat); c_rhx : nat; c_rhy : nat }.
(** edi.py 511 and 342-350, for channel lists with both or none of the electric channels; the other lists
    fail at an index that is None. *)
Definition chans_of (comps : list string) : result chans :=
  match locate comps "hx", locate comps "hy", locate_ref comps "rhx" "hx", locate_ref comps "rhy" "hy" with
  | Some hx, Some hy, Some rhx, Some rhy =>
      match locate comps "ex", locate comps "ey" with
      | Some ex, Some ey => Ok (mkChans hx hy (locate comps "hz") (Some (ex, ey)) rhx rhy)
      | None, None => Ok (mkChans hx hy (locate comps "hz") None rhx rhy)
      | _, _ => Err ValueError
      end
  | _, _, _, _ => Err ValueError
  end.

(** edi.py 571-640: the matrices of cross powers. *)
Definition pick (a b : nat) (i : nat) : nat := match i with O => a | _ => b end.
Definition pick3 (a b c : nat) (i : nat) : nat := match i with O => a | S O => b | _ => c end.
Definition inputs (s : mat) (a a' b b' : nat) : mat := fun i j => s (pick a a' i) (pick b b' j).
Definition zero_mat : mat := fun _ _ => Some C0.
Definition set_cell (i0 j0 : nat) (v : cell) (m : mat) : mat :=
  fun i j => if (Nat.eqb i i0 && Nat.eqb j j0)%bool then v else m i j.
Definition outputs (s : mat) (c : chans) : mat * mat * mat :=
  match c_hz c, c_e c with
  | Some hz, Some (ex, ey) =>
      (fun i j => s (pick (c_rhx c) (c_rhy c) i) (pick3 ex ey hz j),
       fun i j => s (pick (c_hx c) (c_hy c) i) (pick3 ex ey hz j),
       fun i j => s (pick3 ex ey hz i) (pick3 ex ey hz j))
  | None, Some (ex, ey) =>
      (set_cell 1 0 (s (c_rhy c) ey) (set_cell 1 0 (s (c_rhy c) ex)
         (set_cell 0 1 (s (c_rhx c) ey) (set_cell 0 0 (s (c_rhx c) ex) zero_mat))),
       set_cell 1 1 (s (c_hy c) ey) (set_cell 0 1 (s (c_hy c) ex)
         (set_cell 0 1 (s (c_hx c) ey) (set_cell 0 0 (s (c_hx c) ex) zero_mat))),
       fun i j => s (pick ex ey i) (pick ex ey j))
  | Some hz, None =>
      (fun i j => s (pick (c_rhx c) (c_rhy c) i) hz, fun i j => s (pick (c_hx c) (c_hy c) i) hz, fun i j => s hz hz)
  | None, None => (zero_mat, zero_mat, zero_mat)
  end.

(** edi.py 642-687: transfer function, its error, and the place of impedance and tipper.  The warning for a
    small determinant is not modelled.  An averaging time of 0 gives infinities, here nan. *)
Record spectra_tf : Type := mkStf { s_tf : mat; s_sig : mat; s_res : mat; s_err : nat -> nat -> R }.
Definition err_of (res sig : mat) (n m : nat) : R :=
  match omul (res n n) (sig m m) with
  | Some v => let e := sqrt (Cabs v) in if Req_EM_T e 0 then 1 else e
  | None => 1
  end.
Definition transfer_function (empty avgt : R) (c : chans) (arr : nat -> nat -> R) : result spectra_tf :=
  let s : mat := fun i j => clean empty (cross arr i j) in
  let rh := inputs s (c_rhx c) (c_rhy c) (c_hx c) (c_hy c) in
  let rr := inputs s (c_rhx c) (c_rhy c) (c_rhx c) (c_rhy c) in
  let hh := inputs s (c_hx c) (c_hy c) (c_hx c) (c_hy c) in
  let '(re, he, ee) := outputs s c in
  bindR (inv2 rh) (fun irh => bindR (inv2 (ct rh)) (fun irhh =>
  let tfh := mmul irh re in
  let tf := ct tfh in
  let sig := mmul irh (mmul rr irhh) in
  let r := madd (msub (msub ee (mmul tf he)) (mmul (ct he) tfh)) (mmul tf (mmul hh tfh)) in
  let res : mat := fun i j => if Req_EM_T avgt 0 then None else omul (r i j) (Some (RtoC (/ avgt))) in
  Ok (mkStf tf sig res (err_of res sig)))).
(** Impedance (rows 0 and 1) and tipper (row 2, or row 0 without electric channels). *)
Definition impedance (r : spectra_tf) (i j : nat) : cell := s_tf r i j.
Definition tipper (c : chans) (r : spectra_tf) (j : nat) : cell :=
  match c_e c with Some _ => s_tf r 2%nat j | None => s_tf r 0%nat j end.
