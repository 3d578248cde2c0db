(** Model of the conversion between TF objects and EDI objects and files, as far as the arrays go:
    /repo/mt_metadata/transfer_functions/core.py 2015-2073 (to_edi) and 2077-2135 (from_edi, for files with
    impedances and tippers; those with spectra are in SpectraModel), and
    /repo/mt_metadata/transfer_functions/io/edi/edi.py 757-850 (write) for objects without an impedance. *)
From Coq Require Import QArith Qabs.
From Verif Require Import PyBase PyText PyFloat TfModel TfEmtfModel.
From Verif Require EdiModel.
Local Open Scope nat_scope.

Notation earr := (nat -> nat -> nat -> cpair).
(** The arrays of an EDI object, edi.py 69-100: an impedance and a tipper with their errors, or None. *)
Record eobj : Type := mkEobj { x_freq : list Q; x_rot : list Q; x_z : option (earr * earr); x_t : option (earr * earr) }.
(** _rotation_angle, core.py 59: one number or an array. *)
Inductive rotation : Type := ROne (a : Q) | RMany (l : list Q).

Section Conversion.
Variable root : Q -> Q.
Variable spr : cpair -> cpair -> cpair.
Notation num := (cells spr).
Notation tf := (tf num).

(** [.data] of what a getter returned. *)
Definition data_of (l : labelled num) : earr := fun p i j => l_at num l p (nth i (l_outs num l) []) (nth j (l_ins num l) []).
Definition both_of (z e : option (labelled num)) : result (option (earr * earr)) :=
  match z, e with Some z, Some e => Ok (Some (data_of z, data_of e)) | _, _ => Err AttributeError end.
(** to_edi, core.py 2037-2049 *)
Definition to_edi (rot : rotation) (t : tf) : result eobj :=
  bindR (has_impedance num t) (fun hi =>
  bindR (if hi then bindR (get num AImp t) (fun z => bindR (get num AImpErr t) (both_of z)) else Ok None) (fun z =>
  bindR (has_tipper num t) (fun ht =>
  bindR (if ht then bindR (get num ATip t) (fun z => bindR (get num ATipErr t) (both_of z)) else Ok None) (fun w =>
  let ps := d_periods num (t_data num t) in
  Ok (mkEobj (map (fun q => (1 / q)%Q) ps) (match rot with ROne a => repeat a (length ps) | RMany l => l end) z w))))).
(** from_edi, core.py 2107-2135; EDI.period is 1 / frequency, edi.py 241-245. *)
Definition given_of (n r c : nat) (a : option earr) : given num := match a with Some a => GArray num [n; r; c] a | None => GNone num end.
Definition from_edi (x : eobj) (t : tf) : tf * option exn * rotation :=
  let n := length (x_freq x) in
  (andthen spr (set_period num (map (fun f => (1 / f)%Q) (x_freq x)) t) (fun t =>
   andthen spr (set num AImp (given_of n 2 2 (option_map fst (x_z x))) t) (fun t =>
   andthen spr (set num AImpErr (given_of n 2 2 (option_map snd (x_z x))) t) (fun t =>
   andthen spr (set num ATip (given_of n 1 2 (option_map fst (x_t x))) t) (fun t =>
   set num ATipErr (given_of n 1 2 (option_map snd (x_t x))) t)))), RMany (x_rot x)).
End Conversion.

(** np.nan_to_num of a finite number or nan *)
Definition no_nan (c : cell) : Q := match c with Some q => q | None => 0%Q end.
(** The place of a component, edi.py 90-100. *)
Definition z_place (c : EdiModel.zc) : nat * nat := match c with EdiModel.ZXX => (0, 0) | EdiModel.ZXY => (0, 1) | EdiModel.ZYX => (1, 0) | EdiModel.ZYY => (1, 1) end.
Definition t_place (c : EdiModel.tc) : nat * nat := match c with EdiModel.TX => (0, 0) | EdiModel.TY => (0, 1) end.
(** The numbers of the blocks, edi.py 773-796 and 814-829: nan becomes zero, of the errors the squares are
    written. *)
Definition column {A : Type} (n : nat) (ij : nat * nat) (f : cpair -> A) (zero : A) (a : option earr) : list A :=
  map (fun p => match a with Some a => f (a p (fst ij) (snd ij)) | None => zero end) (seq 0 n).
Definition numbers (x : eobj) : EdiModel.edi Q :=
  let n := length (x_freq x) in
  let pair c := (no_nan (fst c), no_nan (snd c)) in
  let var c := (no_nan (fst c) * no_nan (fst c))%Q in
  EdiModel.mkEdi (x_freq x) (x_rot x)
    (fun c => column n (z_place c) pair (0, 0)%Q (option_map fst (x_z x))) (fun c => column n (z_place c) var 0%Q (option_map snd (x_z x)))
    (fun c => column n (t_place c) pair (0, 0)%Q (option_map fst (x_t x))) (fun c => column n (t_place c) var 0%Q (option_map snd (x_t x))).
(** The data part of the file, edi.py 757-850; without an impedance its section is empty (edi.py 775-777 and
    797).  [numbers] of an object without a tipper has zeros there, for which nothing is written either. *)
Definition sections (x : eobj) : list (text * list (text * list Q)) :=
  map (fun s => if text_eqb (fst s) (txt "IMPEDANCES") then (fst s, match x_z x with Some _ => snd s | None => [] end) else s) (EdiModel.sections (numbers x)).
Definition write_object (empty : Q) (x : eobj) : result text :=
  if Nat.eqb (length (x_rot x)) (length (x_freq x)) then
    bindR (mapR (EdiModel.write_section empty) (sections x)) (fun l => Ok (concat l ++ txt ">END")%list)
  else Err ValueError.
(** The arrays after reading, edi.py 391-429: errors are the square roots of the magnitudes.  None stands for
    frequencies or angles that are not finite. *)
Definition cell_of (p : pynum) : cell := match p with Fin q => Some q | NonFinite => None end.
Fixpoint finite (l : list pynum) : option (list Q) :=
  match l with
  | [] => Some []
  | Fin q :: r => option_map (cons q) (finite r)
  | NonFinite :: _ => None
  end.
Definition z_at (i j : nat) : EdiModel.zc := match i, j with 0, 0 => EdiModel.ZXX | 0, _ => EdiModel.ZXY | _, 0 => EdiModel.ZYX | _, _ => EdiModel.ZYY end.
Definition t_at (j : nat) : EdiModel.tc := match j with 0 => EdiModel.TX | _ => EdiModel.TY end.
Definition pair_cell (l : list (pynum * pynum)) (p : nat) : cpair := match nth_error l p with Some (a, b) => (cell_of a, cell_of b) | None => (None, None) end.
Definition error_cell (root : Q -> Q) (l : list pynum) (p : nat) : cpair :=
  (match nth_error l p with Some (Fin v) => Some (root (Qabs v)) | _ => None end, Some 0%Q).
Definition of_read (root : Q -> Q) (e : EdiModel.edi pynum) : option eobj :=
  match finite (EdiModel.e_freq e), finite (EdiModel.e_rot e) with
  | Some f, Some r => Some (mkEobj f r
      (Some (fun p i j => pair_cell (EdiModel.e_z e (z_at i j)) p, fun p i j => error_cell root (EdiModel.e_zvar e (z_at i j)) p))
      (Some (fun p i j => pair_cell (EdiModel.e_t e (t_at j)) p, fun p i j => error_cell root (EdiModel.e_tvar e (t_at j)) p)))
  | _, _ => None
  end.
