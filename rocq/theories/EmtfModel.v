(** Model of the data of an EMTF XML file: class TransferFunction in
    /repo/mt_metadata/transfer_functions/io/emtfxml/metadata/data.py, and what [EMTFXML.read] (emtfxml.py
    305-341) does to the XML tree before: element_to_dict (XmlModel) and _convert_keys_to_lower_case
    (emtfxml/metadata/helpers.py 146-173).  Trees are modelled, not the text of XML.  A number is a rational
    number or nan; infinities and the sign of zero are not modelled. *)
From Coq Require Import QArith Qround.
From Verif Require Import PyBase PyText PyNum PyFloat PySci ValidatorsModel XmlModel UnitsModel.
Local Open Scope nat_scope.

Definition cell : Type := option Q.
(** A complex number; for the variances only the first part is used. *)
Definition cpair : Type := cell * cell.
(** The arrays of data.py, 58-168 and 274-284 (array_dict, in its order). *)
Inductive key : Type := KZ | KZVar | KZInv | KZRes | KT | KTVar | KTInv | KTRes.
Definition keys : list key := [KZ; KZVar; KZInv; KZRes; KT; KTVar; KTInv; KTRes].
Definition key_dec (a b : key) : {a = b} + {a <> b}.
Proof. decide equality. Defined.
Definition key_name (k : key) : text :=
  match k with
  | KZ => txt "z" | KZVar => txt "z_var" | KZInv => txt "z_invsigcov" | KZRes => txt "z_residcov"
  | KT => txt "t" | KTVar => txt "t_var" | KTInv => txt "t_invsigcov" | KTRes => txt "t_residcov"
  end.
(** _array_dtypes_dict, data.py 46-56 *)
Definition is_complex (k : key) : bool := match k with KZVar | KTVar => false | _ => true end.
(** _write_dict, data.py 170-188 *)
Definition out_channels (k : key) : list text :=
  match k with
  | KZ | KZVar | KZRes => [txt "ex"; txt "ey"]
  | KZInv | KTInv => [txt "hx"; txt "hy"]
  | KT | KTVar | KTRes => [txt "hz"]
  end.
Definition in_channels (k : key) : list text :=
  match k with
  | KZRes => [txt "ex"; txt "ey"]
  | KTRes => [txt "hz"]
  | _ => [txt "hx"; txt "hy"]
  end.
(** The data: periods, and the arrays; None stands for None and for an array of size 0.  Arrays have the
    shape (number of periods, number of outputs, number of inputs); other shapes are not modelled. *)
Record data : Type := mkEmtf { e_period : list Q; e_arr : key -> option (nat -> nat -> nat -> cpair) }.

(** [np.nan_to_num], and 1e32 for zero, data.py 388-394 *)
Definition nan_to_num (c : cell) : Q := match c with Some q => q | None => 0%Q end.
Definition empty_value : Q := inject_Z (10 ^ 32).
Definition filled (k : key) (c : cpair) : Q * Q :=
  let re := nan_to_num (fst c) in let im := nan_to_num (snd c) in
  if is_complex k then (if Qeq_bool re 0 && Qeq_bool im 0 then (empty_value, empty_value) else (re, im))
  else (if Qeq_bool re 0 then (empty_value, 0%Q) else (re, 0%Q)).
(** _dtype_dict, data.py 30-35; _units_dict 36; _name_dict 37-44 *)
Definition type_name (k : key) : text := if is_complex k then txt "complex" else txt "real".
Definition units_of (k : key) : option text := match k with KZ => Some (txt "[mV/km]/[nT]") | KT => Some (txt "[]") | _ => None end.
Definition comp_names : list (text * text) :=
  [(txt "exhx", txt "zxx"); (txt "exhy", txt "zxy"); (txt "eyhx", txt "zyx"); (txt "eyhy", txt "zyy"); (txt "hzhx", txt "tx"); (txt "hzhy", txt "ty")].
(** The element of one value, data.py 412-425. *)
Definition value_text (k : key) (c : cpair) : text :=
  let '(re, im) := filled k c in
  if is_complex k then (show_sci 6 re ++ " "%char :: show_sci 6 im)%list else show_sci 6 re.
Definition value_element (k : key) (o i : text) (c : cpair) : xml :=
  let name := match dget text_dec (o ++ i)%list comp_names with Some n => [(txt "name", capitalize n)] | None => [] end in
  Elem (txt "value") (name ++ [(txt "output", capitalize o); (txt "input", capitalize i)])%list (Some (value_text k c)) [].
(** The element of one array, data.py 396-425; its tag is [key.replace("_", ".").upper()]. *)
Definition indexed {A} (l : list A) : list (nat * A) := combine (seq 0 (length l)) l.
Definition size_text (k : key) : text :=
  (show_int (Z.of_nat (length (out_channels k))) ++ " "%char :: show_int (Z.of_nat (length (in_channels k))))%list.
Definition key_tag (k : key) : text := upper (replace_char "_" (txt ".") (key_name k)).
Definition array_element (k : key) (p : nat) (at_ : nat -> nat -> nat -> cpair) : xml :=
  Elem (key_tag k)
    ([(txt "type", type_name k); (txt "size", size_text k)] ++ match units_of k with Some u => [(txt "units", u)] | None => [] end)%list
    None
    (flat_map (fun oi => map (fun ij => value_element k (snd oi) (snd ij) (at_ p (fst oi) (fst ij))) (indexed (in_channels k))) (indexed (out_channels k))).
(** write_block, data.py 365-427 *)
Definition write_block (d : data) (p : nat) (q : Q) : xml :=
  Elem (txt "Period") [(txt "value", show_sci 12 q); (txt "units", txt "secs")] None
    (flat_map (fun k => match e_arr d k with None => [] | Some at_ => [array_element k p at_] end) keys).
(** to_xml, data.py 429-447.  The tags hold capitals, so _convert_tag_to_capwords (helpers.py 27-72) leaves
    them, and no text or attribute is one of NULL_VALUES. *)
Definition to_xml (d : data) : xml :=
  Elem (txt "Data") [(txt "count", show_int (Z.of_nat (length (e_period d))))] None
    (map (fun iq => write_block d (fst iq) (snd iq)) (indexed (e_period d))).

(** _convert_keys_to_lower_case, helpers.py 146-173: anything else than a dictionary or list becomes an
    empty dictionary; inside a dictionary other values stay. *)
Fixpoint conv (x : xval) : result xval :=
  match x with
  | XDict d =>
      bindR ((fix each (d : list (text * xval)) (acc : list (text * xval)) : result (list (text * xval)) :=
                match d with
                | [] => Ok acc
                | (k, v) :: r =>
                    bindR (validate_attribute k) (fun k' =>
                    bindR (match v with XDict _ | XList _ => conv v | _ => Ok v end) (fun v' =>
                    each r (dset text_dec k' v' acc)))
                end) d [])
        (fun d' => Ok (XDict d'))
  | XList l =>
      bindR ((fix each (l : list xval) : result (list xval) :=
                match l with [] => Ok [] | v :: r => bindR (conv v) (fun v' => bindR (each r) (fun r' => Ok (v' :: r'))) end) l)
        (fun l' => Ok (XList l'))
  | _ => Ok (XDict [])
  end.

(** [x[k]] (data.py 314-338, 356-362): KeyError for a dictionary without the key, TypeError for anything that is not a dictionary. *)
Definition at_key (k : text) (x : xval) : result xval :=
  match x with XDict d => match dget text_dec k d with Some v => Ok v | None => Err KeyError end | _ => Err TypeError end.
(** data.py 327-339: [float(x)] and [x.split()], [x.lower()], [x.strip()] of what was read. *)
Definition as_text (x : xval) : result text := match x with XText s | XNum s => Ok s | _ => Err AttributeError end.
Definition as_cell (v : pynum) : cell := match v with Fin q => Some q | NonFinite => None end.
Definition float_text (s : text) : result cell := match read_float s with Some v => Ok (as_cell v) | None => Err ValueError end.
Definition float_of (x : xval) : result cell := match x with XText s | XNum s => float_text s | _ => Err TypeError end.

(** What is being filled (the attributes of the object while it reads, data.py 360-363): the number of periods, the periods and the arrays. *)
Record filling : Type := mkFilling { f_n : nat; f_period : nat -> cell; f_arr : key -> nat -> nat -> nat -> cpair }.
(** initialize_arrays, data.py 246-270 *)
Definition initialize_arrays (n : nat) : filling := mkFilling n (fun _ => Some 0%Q) (fun _ _ _ _ => (Some 0%Q, Some 0%Q)).
(** _index_dict, data.py 29 *)
Definition channel_index (s : text) : option nat :=
  dget text_dec s [(txt "hx", 0); (txt "hy", 1); (txt "ex", 0); (txt "ey", 1); (txt "hz", 0)].
(** _derived_keys, data.py 191-216 *)
Definition derived_keys : list text :=
  map txt ["rho"; "rho_var"; "phs"; "phs_var"; "tipphs"; "tipphs_var"; "tipmag"; "tipmag_var"; "zstrike"; "zstrike_var"; "zskew"; "zskew_var";
           "zellip"; "zellip_var"; "tstrike"; "tstrike_var"; "tskew"; "tskew_var"; "tellip"; "tellip_var"; "indmag"; "indmag_var"; "indang"; "indang_var"]%string.
Inductive dtype : Type := DComplex | DReal | DUnknown | DName.
(** data.py 313-316.  The entries "complex128" and "float64" of _dtype_dict give names ([DName]). *)
Definition dtype_of (x : xval) : result dtype :=
  match at_key (txt "type") x with
  | Err KeyError => Ok DUnknown
  | Err e => Err e
  | Ok (XText s) =>
      Ok (if text_eqb s (txt "complex") then DComplex else if text_eqb s (txt "real") then DReal
          else if text_eqb s (txt "complex128") || text_eqb s (txt "float64") then DName else DUnknown)
  | Ok (XList _) | Ok (XDict _) => Err TypeError
  | Ok _ => Ok DUnknown
  end.
(** data.py 329-339: the number; [inl] if it is complex.  For a [DName] no number is assigned: the one before
    (if any) is used, which is not modelled. *)
Definition item_value (t : dtype) (x : xval) : result (cpair + cell) :=
  bindR (at_key (txt "value") x) (fun v =>
  match t with
  | DComplex => bindR (as_text v) (fun s => match split_ws s with
      | a :: b :: _ => bindR (float_text a) (fun re => bindR (float_text b) (fun im => Ok (inl (re, im))))
      | [a] => bindR (float_text a) (fun _ => Err IndexError)
      | [] => Err IndexError end)
  | DReal => bindR (float_of v) (fun q => Ok (inr q))
  | DUnknown => bindR (as_text v) (fun s => match split_ws s with
      | a :: b :: _ => bindR (float_text a) (fun re => bindR (float_text b) (fun im => Ok (inl (re, im))))
      | [a] => bindR (float_text a) (fun re => Ok (inr re))
      | [] => Err IndexError end)
  | DName => Err UnboundLocalError
  end).
Definition key_of_name (s : text) : option key := List.find (fun k => text_eqb s (key_name k)) keys.
(** [self.array_dict[comp][p, i, j] = value], data.py 341; a complex number does not go into an array of floats. *)
Definition store (comp : text) (p i j : nat) (v : cpair + cell) (f : filling) : result filling :=
  match key_of_name comp with
  | None => Err KeyError
  | Some k =>
      if (p <? f_n f) && (i <? length (out_channels k)) && (j <? length (in_channels k)) then
        match v, is_complex k with
        | inl _, false => Err TypeError
        | inl c, true => Ok (mkFilling (f_n f) (f_period f) (fun k' p' i' j' => if key_dec k' k then if (p' =? p) && (i' =? i) && (j' =? j) then c else f_arr f k' p' i' j' else f_arr f k' p' i' j'))
        | inr q, _ => Ok (mkFilling (f_n f) (f_period f) (fun k' p' i' j' => if key_dec k' k then if (p' =? p) && (i' =? i) && (j' =? j) then (q, Some 0%Q) else f_arr f k' p' i' j' else f_arr f k' p' i' j'))
        end
      else Err IndexError
  end.
(** The loop over the values, data.py 326-341. *)
Definition read_item (comp : text) (t : dtype) (p : nat) (f : filling) (x : xval) : result filling :=
  bindR (at_key (txt "output") x) (fun o => bindR (as_text o) (fun o =>
  match channel_index (lower o) with
  | None => Err KeyError
  | Some i =>
    bindR (at_key (txt "input") x) (fun c => bindR (as_text c) (fun c =>
    match channel_index (lower c) with
    | None => Err KeyError
    | Some j => bindR (item_value t x) (fun v => store comp p i j v f)
    end))
  end)).
Fixpoint read_items (comp : text) (t : dtype) (p : nat) (f : filling) (l : list xval) : result filling :=
  match l with [] => Ok f | x :: r => bindR (read_item comp t p f x) (fun f' => read_items comp t p f' r) end.
(** read_block, data.py 293-341, for one key of the block. *)
Definition read_key (p : nat) (f : filling) (kv : text * xval) : result filling :=
  let comp := replace_char "." (txt "_") (replace_char "_" [] (fst kv)) in
  if text_eqb comp (txt "value") then Ok f
  else if existsb (text_eqb comp) derived_keys then Ok f
  else bindR (dtype_of (snd kv)) (fun t =>
    match at_key (txt "value") (snd kv) with
    | Err KeyError => Ok f
    | Err e => Err e
    | Ok (XList l) => read_items comp t p f l
    | Ok v => read_items comp t p f [v]
    end).
Fixpoint read_keys (p : nat) (f : filling) (l : list (text * xval)) : result filling :=
  match l with [] => Ok f | kv :: r => bindR (read_key p f kv) (fun f' => read_keys p f' r) end.
(** The body of the loop over the periods, data.py 361-363. *)
Definition read_period (p : nat) (f : filling) (block : xval) : result filling :=
  bindR (at_key (txt "value") block) (fun v => bindR (float_of v) (fun q =>
  if p <? f_n f then
    let f' := mkFilling (f_n f) (fun p' => if p' =? p then q else f_period f p') (f_arr f) in
    match block with XDict d => read_keys p f' d | _ => Err TypeError end
  else Err IndexError)).
Fixpoint read_periods (p : nat) (f : filling) (l : list xval) : result filling :=
  match l with [] => Ok f | b :: r => bindR (read_period p f b) (fun f' => read_periods (S p) f' r) end.
(** [int(float(text))]; the error for an infinite number is OverflowError, which is not told apart. *)
Definition int_of (x : xval) : result Z :=
  bindR (as_text x) (fun s => match read_float (strip s) with Some (Fin q) => Ok (if Qle_bool 0 q then Qfloor q else Qceiling q) | Some NonFinite => Err ValueError | None => Err ValueError end).
(** read_dict, data.py 343-363.  The elements of a dictionary or text that is iterated over are texts. *)
Definition iterate (x : xval) : result (list xval) :=
  match x with
  | XList l => Ok l
  | XDict d => Ok (map (fun kv => XText (fst kv)) d)
  | XText s | XNum s => Ok (map (fun c => XText [c]) s)
  | XNone => Err TypeError
  end.
Definition read_dict (root : xval) : result filling :=
  bindR (at_key (txt "data") root) (fun d =>
  bindR (match at_key (txt "count") d with
         | Err KeyError => bindR (at_key (txt "period") d) (fun l => bindR (iterate l) (fun l => Ok (Z.of_nat (length l))))
         | Err e => Err e
         | Ok c => int_of c
         end) (fun n =>
  if (n <? 0)%Z then Err ValueError else
  bindR (at_key (txt "period") d) (fun l => bindR (iterate l) (fun l => read_periods 0 (initialize_arrays (Z.to_nat n)) l)))).
(** EMTFXML.read, emtfxml.py 331-341, for the data: the tree of the file. *)
Definition read_tree (root : xml) : result filling := bindR (read root) (fun x => bindR (conv x) read_dict).
