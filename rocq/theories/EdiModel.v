(** Model of the data part of EDI files: /repo/mt_metadata/transfer_functions/io/edi/edi.py. *)
From Verif Require Import PyBase PyText PyNum IsoModel PyFloat PySci.
Local Open Scope Z_scope.

(** The components of the impedance and of the tipper, edi.py 90-100 and 177-188. *)
Inductive zc : Type := ZXX | ZXY | ZYX | ZYY.
Inductive tc : Type := TX | TY.
Definition zcs : list zc := [ZXX; ZXY; ZYX; ZYY].
Definition tcs : list tc := [TX; TY].
Definition zkey (c : zc) : text :=
  match c with ZXX => txt "zxx" | ZXY => txt "zxy" | ZYX => txt "zyx" | ZYY => txt "zyy" end.
Definition tkey (c : tc) : text := match c with TX => txt "tx" | TY => txt "ty" end.

(** The arrays of an EDI object, by component: a complex number is the pair of its parts; of the errors the
    squares are kept, which is what the file holds (square roots of rational numbers are not modelled). *)
Record edi (V : Type) : Type := mkEdi {
  e_freq : list V; e_rot : list V;
  e_z : zc -> list (V * V); e_zvar : zc -> list V;
  e_t : tc -> list (V * V); e_tvar : tc -> list V }.
Arguments mkEdi {V}. Arguments e_freq {V}. Arguments e_rot {V}. Arguments e_z {V}. Arguments e_zvar {V}.
Arguments e_t {V}. Arguments e_tvar {V}.

(** _accepted_keys, edi.py 102-141. *)
Definition accepted_keys : list text :=
  map txt ["freq"; "zxxr"; "zxxi"; "zxyr"; "zxyi"; "zyxr"; "zyxi"; "zyyr"; "zyyi"; "zxx.var"; "zxy.var"; "zyx.var";
           "zyy.var"; "txr.exp"; "txi.exp"; "tyr.exp"; "tyi.exp"; "txvar.exp"; "tyvar.exp"; "rhoxx"; "rhoxy";
           "rhoyx"; "rhoyy"; "rhoxx.err"; "rhoxy.err"; "rhoyx.err"; "rhoyy.err"; "phsxx"; "phsxy"; "phsyx";
           "phsyy"; "phsxx.err"; "phsxy.err"; "phsyx.err"; "phsyy.err"; "zrot"; "rhorot"; "trot"]%string.

Definition newline : ascii := "010"%char.
(** The characters > and !. *)
Definition gt_char : ascii := ">"%char.
Definition bang : ascii := "!"%char.

(** _num_format and _block_len, edi.py 192-193: f"{x: 15.6e}", six numbers on a line. *)
Definition number_text (q : Q) : text := rjust 15 (show_sci_sign 6 q).
Definition block_len : nat := 6.

(** _write_data_block, edi.py 852-908; the lines are joined by [write]. *)
Definition block_header (key : text) (n : nat) : result text :=
  let k := lower key in
  let rot := existsb (text_eqb k) [txt "zrot"; txt "trot"] in
  let size := show_nat (Z.of_nat n) in
  if (contains (txt "z") k && negb rot)%bool then
    Ok (gt_char :: upper key ++ txt " ROT=ZROT // " ++ size ++ [newline])%list
  else if (contains (txt "t") k && negb rot)%bool then
    Ok (gt_char :: upper key ++ txt " ROT=TROT // " ++ size ++ [newline])%list
  else if (text_eqb k (txt "freq") || rot)%bool then
    Ok (gt_char :: upper key ++ txt " // " ++ size ++ [newline])%list
  else Err ValueError.
Fixpoint block_numbers (empty : Q) (key : text) (size i : nat) (l : list Q) : text :=
  match l with
  | [] => []
  | x :: r =>
      let rot := existsb (text_eqb (lower key)) [txt "zrot"; txt "trot"] in
      let x := if (Qeq_bool x 0 && negb rot)%bool then empty else x in
      (number_text x
       ++ (if Nat.eqb (Nat.modulo i block_len) 0 then [newline] else [])
       ++ (if Nat.eqb i size then [newline] else [])
       ++ block_numbers empty key size (S i) r)%list
  end.
Definition write_data_block (empty : Q) (l : list Q) (key : text) : result text :=
  bindR (block_header key (List.length l)) (fun h => Ok (h ++ block_numbers empty key (List.length l) 1 l)%list).
(** _data_header_str, edi.py 190. *)
Definition data_header (t : text) : text := (txt ">!****" ++ t ++ txt "****!" ++ [newline])%list.

(** The blocks of the impedance and of the tipper, edi.py 780-796 and 814-829. *)
Definition z_blocks (e : edi Q) (c : zc) : list (text * list Q) :=
  [ ((zkey c ++ txt "r")%list, map fst (e_z e c));
    ((zkey c ++ txt "i")%list, map snd (e_z e c));
    ((zkey c ++ txt ".var")%list, e_zvar e c) ].
Definition t_blocks (e : edi Q) (c : tc) : list (text * list Q) :=
  [ ((tkey c ++ txt "r.exp")%list, map fst (e_t e c));
    ((tkey c ++ txt "i.exp")%list, map snd (e_t e c));
    ((tkey c ++ txt "var.exp")%list, e_tvar e c) ].
(** np.all(self.t == 0), edi.py 800. *)
Definition zero_pair (p : Q * Q) : bool := (Qeq_bool (fst p) 0 && Qeq_bool (snd p) 0)%bool.
Definition no_tipper (e : edi Q) : bool := forallb (fun c => forallb zero_pair (e_t e c)) tcs.
(** The sections of the data part of the file with their blocks. *)
Definition sections (e : edi Q) : list (text * list (text * list Q)) :=
  [ (txt "FREQUENCIES", [(txt "freq", e_freq e)]);
    (txt "IMPEDANCE ROTATION ANGLES", [(txt "zrot", e_rot e)]);
    (txt "IMPEDANCES", flat_map (z_blocks e) zcs) ] ++
  (if no_tipper e then [] else
   [ (txt "TIPPER ROTATION ANGLES", [(txt "trot", e_rot e)]);
     (txt "TIPPER", flat_map (t_blocks e) tcs) ]).
Definition write_section (empty : Q) (s : text * list (text * list Q)) : result text :=
  bindR (mapR (fun b => write_data_block empty (snd b) (fst b)) (snd s)) (fun bs =>
    Ok (data_header (fst s) ++ concat bs)%list).
(** The data part of the file, write, edi.py 757-850 (arrays without nan, for which nan_to_num changes
    nothing). *)
Definition write_data (empty : Q) (e : edi Q) : result text :=
  if Nat.eqb (List.length (e_rot e)) (List.length (e_freq e)) then
    bindR (mapR (write_section empty) (sections e)) (fun l => Ok (concat l ++ txt ">END")%list)
  else Err ValueError.

(** The lines of the file.  (The line ends, which [strip] removes, are left out; taking quotes and brackets
    out, io/tools.py 140-169, changes nothing in this part of a written file.) *)
Definition file_lines (s : text) : list text := split_on newline s.

(** The values of a line, edi.py 378-389. *)
Definition read_value (empty : Q) (w : text) : pynum :=
  match read_float w with
  | Some (Fin q) => if Qeq_bool q empty then Fin 0 else Fin q
  | Some NonFinite => NonFinite
  | None => Fin 0
  end.
(** The loop of _read_mt, edi.py 363-389: whether a block is open, its key, and the blocks so far. *)
Definition blocks : Type := list (text * list pynum).
Record rstate : Type := mkRs { rs_find : bool; rs_key : text; rs_dict : blocks }.
Definition read_line (empty : Q) (st : rstate) (line : text) : rstate :=
  let line := strip line in
  if (has_char gt_char line && negb (has_char bang line))%bool then
    match split_ws (strip (tl line)) with
    | [] => st
    | w :: _ =>
        let key := lower w in
        if existsb (text_eqb key) accepted_keys then mkRs true key (dset text_dec key [] (rs_dict st))
        else mkRs false key (rs_dict st)
    end
  else if (rs_find st && negb (has_char gt_char line) && negb (has_char bang line))%bool then
    match dget text_dec (rs_key st) (rs_dict st) with
    | Some l => mkRs true (rs_key st)
                  (dset text_dec (rs_key st) (l ++ map (read_value empty) (split_ws (strip line)))%list (rs_dict st))
    | None => st
    end
  else st.
Definition read_blocks (empty : Q) (lines : list text) : blocks :=
  rs_dict (fold_left (read_line empty) lines (mkRs false [] [])).

(** Filling the tensors, edi.py 403-429.  A missing block leaves the zeros; blocks of different sizes cannot
    be assigned (that a block of one number fills an array is not modelled). *)
Definition zeros {A : Type} (z : A) (n : nat) : list A := repeat z n.
Definition fill_complex (n : nat) (d : blocks) (kr ki : text) : result (option (list (pynum * pynum))) :=
  match dget text_dec kr d, dget text_dec ki d with
  | Some a, Some b =>
      if (Nat.eqb (List.length a) n && Nat.eqb (List.length b) n)%bool then Ok (Some (combine a b)) else Err ValueError
  | _, _ => Ok None
  end.
Definition fill_error (n : nat) (d : blocks) (key : text) : result (list pynum) :=
  match filter (fun kv => contains key (fst kv) && contains (txt "var") (fst kv))%bool d with
  | [] => Ok (zeros (Fin 0) n)
  | kv :: _ => if Nat.eqb (List.length (snd kv)) n then Ok (snd kv) else Err ValueError
  end.
Definition fill (n : nat) (d : blocks) (key : text) (kr ki : text) : result (list (pynum * pynum) * list pynum) :=
  bindR (fill_complex n d kr ki) (fun o =>
    match o with
    | None => Ok (zeros (Fin 0, Fin 0) n, zeros (Fin 0) n)
    | Some l => bindR (fill_error n d key) (fun v => Ok (l, v))
    end).
Definition fill_z (n : nat) (d : blocks) (c : zc) :=
  fill n d (zkey c) (zkey c ++ txt "r")%list (zkey c ++ txt "i")%list.
Definition fill_t (n : nat) (d : blocks) (c : tc) :=
  fill n d (tkey c) (tkey c ++ txt "r.exp")%list (tkey c ++ txt "i.exp")%list.

(** _assert_descending_frequency, edi.py 247-266. *)
Definition pylt (a b : pynum) : bool :=
  match a, b with Fin x, Fin y => negb (Qle_bool y x) | _, _ => false end.
Definition descend (e : edi pynum) : result (edi pynum) :=
  match e_freq e with
  | f0 :: f1 :: _ =>
      if pylt f0 f1 then
        Ok (mkEdi (rev (e_freq e)) (e_rot e) (fun c => rev (e_z e c)) (fun c => rev (e_zvar e c))
                  (fun c => rev (e_t e c)) (fun c => rev (e_tvar e c)))
      else Ok e
  | _ => Err IndexError
  end.

(** _read_mt, edi.py 355-458, for files without apparent resistivities (those are in EdiRhoModel). *)
Definition read_mt (empty : Q) (lines : list text) : result (edi pynum) :=
  let d := read_blocks empty lines in
  match dget text_dec (txt "freq") d with
  | None => Err KeyError
  | Some f =>
      let n := List.length f in
      bindR (fill_z n d ZYY) (fun yy => bindR (fill_z n d ZYX) (fun yx => bindR (fill_z n d ZXY) (fun xy =>
      bindR (fill_z n d ZXX) (fun xx => bindR (fill_t n d TY) (fun ty => bindR (fill_t n d TX) (fun tx =>
      let z c := match c with ZXX => xx | ZXY => xy | ZYX => yx | ZYY => yy end in
      let t c := match c with TX => tx | TY => ty end in
      bindR (descend (mkEdi f [] (fun c => fst (z c)) (fun c => snd (z c)) (fun c => fst (t c)) (fun c => snd (t c)))) (fun e =>
      let rot := match dget text_dec (txt "zrot") d with
                 | Some l => l
                 | None => match dget text_dec (txt "rhorot") d with
                           | Some l => l
                           | None => zeros (Fin 0) n
                           end
                 end in
      Ok (mkEdi (e_freq e) rot (e_z e) (e_zvar e) (e_t e) (e_tvar e)))))))))
  end.
