(** Model of the rotation of transfer functions read from Z files, for one period:
    /repo/mt_metadata/transfer_functions/io/zfiles/zmm.py 905-1109 (calculate_impedance, calculate_tippers) and
    850-903 (_fill_dataset).  The numbers are exact. *)
From Verif Require Import PyBase Cplx.
Local Open Scope R_scope.

(** zfiles/metadata/channel.py: index (number - 1) and azimuth in degrees.  Channels without a number and output
    channels numbered before the inputs are not modelled. *)
Record zchan : Type := mkZchan { zc_index : nat; zc_az : R }.
Definition cmat : Type := nat -> nat -> Cx.
Definition rmat : Type := nat -> nat -> R.
Definition deg2rad (d : R) : R := d * PI / 180.
Definition set_rmat (i0 j0 : nat) (v : R) (m : rmat) : rmat := fun i j => if (Nat.eqb i i0 && Nat.eqb j j0)%bool then v else m i j.
Definition eye : rmat := fun i j => if Nat.eqb i j then 1 else 0.
Fixpoint sumC (n : nat) (f : nat -> Cx) : Cx := match n with O => C0 | S k => Cadd (sumC k f) (f k) end.
(** np.matmul of matrices with [n] common entries. *)
Definition mul_rc (n : nat) (a : rmat) (b : cmat) : cmat := fun i j => sumC n (fun k => Cmul (RtoC (a i k)) (b k j)).
Definition mul_cr (n : nat) (a : cmat) (b : rmat) : cmat := fun i j => sumC n (fun k => Cmul (a i k) (RtoC (b k j))).
Definition transp (m : rmat) : rmat := fun i j => m j i.
(** np.linalg.inv of a real 2x2 matrix.  In binary64 a determinant that should be zero may be a tiny number. *)
Definition inv2R (m : rmat) : result rmat :=
  let det := m 0%nat 0%nat * m 1%nat 1%nat - m 0%nat 1%nat * m 1%nat 0%nat in
  if Req_EM_T det 0 then Err LinAlgError
  else Ok (fun i j => match i, j with
                      | 0%nat, 0%nat => m 1%nat 1%nat / det
                      | 0%nat, 1%nat => - m 0%nat 1%nat / det
                      | 1%nat, 0%nat => - m 1%nat 0%nat / det
                      | 1%nat, 1%nat => m 0%nat 0%nat / det
                      | _, _ => 0
                      end).
(** zmm.py 965-972 and 1053-1060. *)
Definition u_matrix (hx hy : zchan) (angle : R) : result rmat :=
  let i := zc_index hx in let j := zc_index hy in
  if (Nat.ltb i 2 && Nat.ltb j 2)%bool then
    inv2R (set_rmat j j (sin (deg2rad (zc_az hy - angle))) (set_rmat j i (cos (deg2rad (zc_az hy - angle)))
          (set_rmat i j (sin (deg2rad (zc_az hx - angle))) (set_rmat i i (cos (deg2rad (zc_az hx - angle))) eye))))
  else Err IndexError.
(** zmm.py 975-981. *)
Definition v_matrix (n : nat) (ex ey : zchan) (angle : R) : result rmat :=
  let i := (zc_index ex - 2)%nat in let j := (zc_index ey - 2)%nat in
  if (Nat.ltb i n && Nat.ltb j n)%bool then
    Ok (set_rmat j j (sin (deg2rad (zc_az ey - angle))) (set_rmat i j (cos (deg2rad (zc_az ey - angle)))
       (set_rmat j i (sin (deg2rad (zc_az ex - angle))) (set_rmat i i (cos (deg2rad (zc_az ex - angle))) eye))))
  else Err IndexError.
(** zmm.py 984-988. *)
Definition rotate_tf (n : nat) (v u : rmat) (t : cmat) : cmat := mul_rc n v (mul_cr 2 t (transp u)).
Definition rotate_cov (n : nat) (m : rmat) (s : cmat) : cmat := mul_rc n m (mul_cr n s (transp m)).
(** Impedance and its error, both 2x2: zmm.py 990-1021.  [n] is the number of output channels. *)
Definition calculate_impedance (n : nat) (hx hy ex ey : option zchan) (angle : R) (t s e : cmat) : result (option (cmat * rmat)) :=
  match ex, ey, hx, hy with
  | Some ex, Some ey, Some hx, Some hy =>
      if Req_EM_T (zc_az hx) (zc_az hy) then Ok None
      else if Req_EM_T (zc_az ex) (zc_az ey) then Ok None
      else bindR (u_matrix hx hy angle) (fun u => bindR (v_matrix n ex ey angle) (fun v =>
           let rt := rotate_tf n v u t in
           let rs := rotate_cov 2 u s in
           let re := rotate_cov n v e in
           let row i := match i with O => (zc_index ex - 2)%nat | _ => (zc_index ey - 2)%nat end in
           let col j := match j with O => zc_index hx | _ => zc_index hy end in
           Ok (Some (fun i j => rt (row i) (col j),
                     fun i j => sqrt (fst (Cmul (re (row i) (row i)) (rs (col j) (col j))))))))
  | _, _, _, _ => Ok None
  end.
(** Tipper and its error, zmm.py 1023-1109; the matrix of the output channels is the identity.  Without
    horizontal magnetic channels an AttributeError. *)
Definition calculate_tippers (n : nat) (hx hy : zchan) (hz : option zchan) (angle : R) (t s e : cmat) : result (option ((nat -> Cx) * (nat -> R))) :=
  match hz with
  | None => Ok None
  | Some hz =>
      bindR (u_matrix hx hy angle) (fun u =>
      let k := (zc_index hz - 2)%nat in
      if Nat.ltb k n then
        let rt := rotate_tf n eye u t in
        let rs := rotate_cov 2 u s in
        let re := rotate_cov n eye e in
        let col j := match j with O => zc_index hx | _ => zc_index hy end in
        Ok (Some (fun j => rt k (col j), fun j => sqrt (fst (Cmul (re k k) (rs (col j) (col j))))))
      else Err IndexError)
  end.
(** zmm.py 867-903 with rotation, for files with all five channels: the angle, and the transfer function of the
    dataset with its rows in the order of the file.  What is kept for writing are these rotated transfer functions,
    the unrotated covariances and the azimuths of the file. *)
Definition read_angle (use_declination : bool) (declination : R) : R := if use_declination then -1 * declination else 0.
Definition dataset_tf (n : nat) (hx hy ex ey hz : zchan) (angle : R) (t s e : cmat) : result cmat :=
  bindR (calculate_impedance n (Some hx) (Some hy) (Some ex) (Some ey) angle t s e) (fun z =>
  bindR (calculate_tippers n hx hy (Some hz) angle t s e) (fun w =>
  match z, w with
  | Some (z, _), Some (w, _) =>
      let col j := if Nat.eqb j (zc_index hx) then 0%nat else 1%nat in
      Ok (fun i j => if Nat.eqb i (zc_index ex - 2) then z 0%nat (col j)
                     else if Nat.eqb i (zc_index ey - 2) then z 1%nat (col j) else w (col j))
  | _, _ => Err TypeError
  end)).
