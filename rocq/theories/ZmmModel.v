(** Model of the data part of Z files (EMTF transfer functions):
    /repo/mt_metadata/transfer_functions/io/zfiles/zmm.py 680-738 (write), 740-848 (_get_period_blocks,
    _read_period_block and the _fill_*_from_block methods).  The header lines are a text without further structure. *)
From Verif Require Import PyBase PyText PyNum IsoModel PyFloat PySci EdiModel.
Local Open Scope Z_scope.

(** [s.split(p)] for a non-empty [p]; [skip] counts the characters of a match still to be consumed. *)
Fixpoint split_str_from (p : text) (skip : nat) (cur : text) (s : text) : list text :=
  match s with
  | [] => [rev cur]
  | c :: r =>
      match skip with
      | S k => split_str_from p k cur r
      | O => if prefix_of p s then rev cur :: split_str_from p (List.length p - 1) [] r
             else split_str_from p 0 (c :: cur) r
      end
  end.
Definition split_str (p s : text) : list text := split_str_from p 0 [] s.
(** [f"{s:^w}"] *)
Definition center (w : nat) (s : text) : text :=
  let k := (w - List.length s)%nat in
  (repeat " "%char (Nat.div k 2) ++ s ++ repeat " "%char (k - Nat.div k 2))%list.
(** [int(s)] for a text without underscores. *)
Definition read_int (s : text) : option Z :=
  let '(sg, r) := read_sign (strip s) in
  if (nonempty r && forallb is_digit r)%bool then Some (sg * number_of r) else None.

(** One period: the period, the entry of [decimation_dict] (the sample rate by its text, since Python's [str] of a
    float reads back as that float) and the three matrices with [n] output and two input channels in the order of
    the file. *)
Record zdata : Type := mkZdata {
  zd_period : Q; zd_level : Z; zd_band : Z * Z; zd_npts : Z; zd_rate : text;
  zd_tf : nat -> nat -> Q * Q; zd_sig : nat -> nat -> Q * Q; zd_res : nat -> nat -> Q * Q }.

(** zmm.py 710, 722, 734: [f"{x.real:>12.4E}{x.imag:>12.4E}"]. *)
Definition znumber (q : Q) : text := rjust 12 (upper (show_sci 4 q)).
Definition zpair (x : Q * Q) : text := (znumber (fst x) ++ znumber (snd x))%list.
Definition zrow (l : list (Q * Q)) : text := concat (map zpair l).
(** zmm.py 691-698. *)
Definition period_line (d : zdata) : text :=
  (txt "period : " ++ center 18 (show_fixed 5 (zd_period d)) ++ txt " decimation level " ++ center 8 (show_int (zd_level d)) ++
   txt "freq. band from " ++ rjust 5 (show_int (fst (zd_band d))) ++ txt " to " ++ rjust 5 (show_int (snd (zd_band d))))%list.
Definition points_line (d : zdata) : text :=
  (txt "number of data point " ++ show_int (zd_npts d) ++ txt " sampling freq. " ++ zd_rate d ++ txt " Hz")%list.
(** zmm.py 699-736. *)
Definition tf_rows (n : nat) (m : nat -> nat -> Q * Q) : list (list (Q * Q)) := map (fun i => [m i 0%nat; m i 1%nat]) (seq 0 n).
Definition tri_rows (n : nat) (m : nat -> nat -> Q * Q) : list (list (Q * Q)) := map (fun i => map (m i) (seq 0 (S i))) (seq 0 n).
Definition write_block (n : nat) (d : zdata) : list text :=
  ([period_line d; points_line d; txt " Transfer Functions"] ++ map zrow (tf_rows n (zd_tf d)) ++
   [txt " Inverse Coherent Signal Power Matrix"] ++ map zrow (tri_rows 2 (zd_sig d)) ++
   [txt " Residual Covariance"] ++ map zrow (tri_rows n (zd_res d)))%list.
(** zmm.py 677-680, 737. *)
Definition write_file (header : list text) (n : nat) (l : list zdata) : text :=
  join [newline] (header ++ [[]] ++ concat (map (write_block n) l))%list.

(** zmm.py 740-751. *)
Definition get_period_blocks (s : text) : list (list text) := tl (map (split_on newline) (split_str (txt "period") (lower s))).

(** [line.strip().split(sep)[1].split()[0].strip()] *)
Definition word_after (sep : text) (line : text) : result text :=
  match split_str sep (strip line) with
  | _ :: x :: _ => match split_ws x with w :: _ => Ok (strip w) | [] => Err IndexError end
  | _ => Err IndexError
  end.
Definition number_at (sep line : text) : result pynum :=
  bindR (word_after sep line) (fun w => match read_float w with Some v => Ok v | None => Err ValueError end).
Definition integer_at (sep line : text) : result Z :=
  bindR (word_after sep line) (fun w => match read_int w with Some v => Ok v | None => Err ValueError end).
Definition zval : Type := (pynum * pynum)%type.
(** zmm.py 796-801: the numbers of a line in pairs. *)
Fixpoint pairs_of (l : list pynum) : result (list zval) :=
  match l with
  | [] => Ok []
  | [_] => Err IndexError
  | a :: b :: r => bindR (pairs_of r) (fun x => Ok ((a, b) :: x))
  end.
Definition read_values (line : text) : result (list zval) :=
  bindR (mapR (fun w => match read_float w with Some v => Ok v | None => Err ValueError end) (split_ws (strip line))) pairs_of.
(** zmm.py 783-802. *)
Inductive zkey3 : Type := KTf | KSig | KRes.
Record zblock : Type := mkZblock { zb_tf : list (list zval); zb_sig : list (list zval); zb_res : list (list zval) }.
Definition add_row (k : zkey3) (v : list zval) (b : zblock) : zblock :=
  match k with
  | KTf => mkZblock (zb_tf b ++ [v])%list (zb_sig b) (zb_res b)
  | KSig => mkZblock (zb_tf b) (zb_sig b ++ [v])%list (zb_res b)
  | KRes => mkZblock (zb_tf b) (zb_sig b) (zb_res b ++ [v])%list
  end.
Fixpoint read_rows (k : zkey3) (b : zblock) (lines : list text) : result zblock :=
  match lines with
  | [] => Ok b
  | line :: r =>
      if contains (txt "transfer") (lower line) then read_rows KTf b r
      else if contains (txt "signal") (lower line) then read_rows KSig b r
      else if contains (txt "residual") (lower line) then read_rows KRes b r
      else bindR (read_values line) (fun v => read_rows k (add_row k v b) r)
  end.

(** What is read for one period. *)
Record zread : Type := mkZread {
  zr_period : pynum; zr_level : Z; zr_band : Z * Z; zr_npts : Z; zr_rate : pynum;
  zr_tf : nat -> nat -> zval; zr_sig : nat -> nat -> zval; zr_res : nat -> nat -> zval }.
Definition pyneg (x : pynum) : pynum := match x with Fin q => Fin (- q) | NonFinite => NonFinite end.
Definition zconj (x : zval) : zval := (fst x, pyneg (snd x)).
Definition zzero : zval := (Fin 0, Fin 0).
Definition zset (i0 j0 : nat) (v : zval) (m : nat -> nat -> zval) : nat -> nat -> zval :=
  fun i j => if (Nat.eqb i i0 && Nat.eqb j j0)%bool then v else m i j.
(** zmm.py 818-825.  [n] is the number of output channels. *)
Fixpoint fill_tf (n k : nat) (l : list zval) (m : nat -> nat -> zval) : result (nat -> nat -> zval) :=
  match l with
  | [] => Ok m
  | [_] => Err IndexError
  | a :: b :: r => if Nat.ltb k n then fill_tf n (S k) r (zset k 1 b (zset k 0 a m)) else Err IndexError
  end.
(** zmm.py 827-835. *)
Definition fill_sig (l : list zval) : result (nat -> nat -> zval) :=
  match l with
  | a :: b :: c :: _ => Ok (zset 1 1 c (zset 0 1 (zconj b) (zset 1 0 b (zset 0 0 a (fun _ _ => zzero)))))
  | _ => Err IndexError
  end.
(** zmm.py 837-848. *)
Fixpoint fill_res_row (j : nat) (ks : list nat) (values : list zval) (m : nat -> nat -> zval) : result (nat -> nat -> zval) :=
  match ks with
  | [] => Ok m
  | k :: r => match nth_error values k with
              | None => Err IndexError
              | Some v => fill_res_row j r values (if Nat.eqb j k then zset j k v m else zset k j (zconj v) (zset j k v m))
              end
  end.
Fixpoint fill_res (js : list nat) (rows : list (list zval)) (m : nat -> nat -> zval) : result (nat -> nat -> zval) :=
  match js with
  | [] => Ok m
  | j :: r => match nth_error rows j with
              | None => Err IndexError
              | Some values => bindR (fill_res_row j (seq 0 (S j)) values m) (fill_res r rows)
              end
  end.
(** zmm.py 753-802 and 607-613. *)
Definition read_block (n : nat) (lines : list text) : result zread :=
  let l0 := nth 0 lines [] in
  let l1 := nth 1 lines [] in
  bindR (number_at (txt ":") l0) (fun p => bindR (integer_at (txt "level") l0) (fun lev =>
  bindR (integer_at (txt "from") l0) (fun b0 => bindR (integer_at (txt "to") l0) (fun b1 =>
  bindR (integer_at (txt "point") l1) (fun np => bindR (number_at (txt "freq.") l1) (fun sr =>
  bindR (read_rows KTf (mkZblock [] [] []) (tl (tl lines))) (fun b =>
  bindR (fill_tf n 0 (concat (zb_tf b)) (fun _ _ => zzero)) (fun t =>
  bindR (fill_sig (concat (zb_sig b))) (fun s =>
  bindR (fill_res (seq 0 n) (zb_res b) (fun _ _ => zzero)) (fun e =>
  Ok (mkZread p lev (b0, b1) np sr t s e))))))))))).
(** A block has at least two lines when it has an index [1]; otherwise an IndexError, as here because the empty
    line has no number. *)
Definition read_file (n : nat) (s : text) : result (list zread) := mapR (read_block n) (get_period_blocks s).
