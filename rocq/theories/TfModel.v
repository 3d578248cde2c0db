(** Model of the data part of /repo/mt_metadata/transfer_functions/core.py (class TF): the labelled arrays
    behind impedance, tipper, errors and covariances, their setters and getters and the periods. *)
From Coq Require Import QArith.
From Verif Require Import PyBase PyText JfileModel.
Local Open Scope nat_scope.

(** What is needed of the numbers that are stored: complex numbers with nan.  [is_zero] is [x == 0] (false
    for nan); [real] is what is kept when a value is put into an array of floats; [spread a b] is
    [np.sqrt(np.abs(np.abs(a * b)))].  TfSpec gives the complex numbers. *)
Record nums : Type := mkNums {
  val : Type;
  vzero : val;
  is_zero : val -> bool;
  is_nan : val -> bool;
  real : val -> val;
  spread : val -> val -> val }.

(** The channel names in use, core.py 584-611 (attributes ex, ey, hx, hy, hz).  A nomenclature with a name
    twice is not modelled: xarray then selects several rows by one name. *)
Record names : Type := mkNames { n_ex : text; n_ey : text; n_hx : text; n_hy : text; n_hz : text }.
(** mt_metadata/__init__.py 85-91 *)
Definition default_names : names := mkNames (txt "ex") (txt "ey") (txt "hx") (txt "hy") (txt "hz").

(** The variables of the dataset, core.py 550-556. *)
Inductive var : Type := VTf | VErr | VModel | VIsp | VRes.
Definition var_eqb (a b : var) : bool :=
  match a, b with VTf, VTf | VErr, VErr | VModel, VModel | VIsp, VIsp | VRes, VRes => true | _, _ => false end.

(** What can be set: the names of the array types, core.py 613-642 and 867-884. *)
Inductive atype : Type := ATf | AImp | ATip | AImpErr | AImpModel | ATipErr | ATipModel | AIsp | ARes | ATfErr | ATfModel.

(** The keys "all", core.py 626 and 642. *)
Definition all_names (ns : names) : list text := [n_ex ns; n_ey ns; n_hz ns; n_hx ns; n_hy ns].
Definition hx_hy (ns : names) : list text := [n_hx ns; n_hy ns].
Definition ex_ey (ns : names) : list text := [n_ex ns; n_ey ns].
Definition ex_ey_hz (ns : names) : list text := [n_ex ns; n_ey ns; n_hz ns].

(** _ch_input_dict, core.py 613-627; there is no entry "tf_model_error". *)
Definition ch_in (ns : names) (a : atype) : option (list text) :=
  match a with
  | ARes => Some (ex_ey_hz ns)
  | ATfModel => None
  | _ => Some (hx_hy ns)
  end.
(** _ch_output_dict, core.py 629-642 *)
Definition ch_out (ns : names) (a : atype) : option (list text) :=
  match a with
  | AImp | AImpErr | AImpModel => Some (ex_ey ns)
  | ATip | ATipErr | ATipModel => Some [n_hz ns]
  | AIsp => Some (hx_hy ns)
  | ARes | ATf | ATfErr => Some (ex_ey_hz ns)
  | ATfModel => None
  end.
(** key_dict, core.py 867-884 *)
Definition key_of (a : atype) : var :=
  match a with
  | ATf | AImp | ATip => VTf
  | AIsp => VIsp
  | ARes => VRes
  | AImpErr | ATipErr | ATfErr => VErr
  | AImpModel | ATipModel | ATfModel => VModel
  end.
(** shape_dict, core.py 761-774 *)
Definition shape_of (a : atype) : list nat :=
  match a with
  | AImp | AImpErr | AImpModel | AIsp => [2; 2]
  | ATip | ATipErr | ATipModel => [1; 2]
  | ARes => [3; 3]
  | ATf | ATfErr | ATfModel => [3; 2]
  end.

(** The place of a label in an index. *)
Fixpoint index_of (x : text) (l : list text) : option nat :=
  match l with
  | [] => None
  | y :: r => if text_eqb x y then Some 0 else option_map S (index_of x r)
  end.
Definition member (x : text) (l : list text) : bool := match index_of x l with Some _ => true | None => false end.

Fixpoint same_periods (a b : list Q) : bool :=
  match a, b with
  | [], [] => true
  | x :: a', y :: b' => Qeq_bool x y && same_periods a' b'
  | _, _ => false
  end.

Section Numbers.
Variable num : nums.
Notation val := (val num).

(** The xarray dataset: periods, the labels of both channel dimensions, and the values of the five
    variables by place of the period and labels of output and input.  Attributes are not modelled. *)
Record dataset : Type := mkData {
  d_periods : list Q;
  d_labels : list text;
  d_at : var -> nat -> text -> text -> val }.

(** A TF object: the names in use (attributes), the cached inverse of the names (core.py 113-119) and the
    dataset. *)
Record tf : Type := mkTf { t_names : names; t_inverse : list (text * text); t_data : dataset }.

(** What can be given to a setter: nothing; an array (list, tuple or ndarray) with its shape; a labelled array
    (DataArray) with its coordinates, addressed by place; a labelled array without one of the coordinates
    period and input; anything else.  A DataArray without the coordinate output (KeyError) and ragged lists
    are not modelled. *)
Inductive given : Type :=
| GNone
| GArray (shape : list nat) (at_ : nat -> nat -> nat -> val)
| GData (periods : list Q) (outs ins : list text) (at_ : nat -> nat -> nat -> val)
| GNoCoords
| GOther.

(** _initialize_transfer_function, core.py 482-567: everything is zero. *)
Definition initialize (ns : names) (periods : list Q) : dataset :=
  mkData periods (all_names ns) (fun _ _ _ _ => vzero num).

(** Reading [.loc] with lists of labels: KeyError if a label is not there. *)
Definition located (d : dataset) (outs ins : list text) : bool :=
  forallb (fun x => member x (d_labels d)) ins && forallb (fun x => member x (d_labels d)) outs.

(** Assignment to [.loc]: the value at period [p], output number [i] and input number [j].  Arrays of floats
    (the errors) keep the real part. *)
Definition stored (v : var) (x : val) : val := match v with VErr | VModel => real num x | _ => x end.
Definition assign (d : dataset) (v : var) (outs ins : list text) (at_ : nat -> nat -> nat -> val) : dataset :=
  mkData (d_periods d) (d_labels d)
    (fun w p o i => if var_eqb w v then
       match index_of o outs, index_of i ins with
       | Some r, Some c => stored v (at_ p r c)
       | _, _ => d_at d w p o i
       end else d_at d w p o i).

(** [np.all(... == 0)] over the periods, outputs and inputs. *)
Definition all_zero (test : val -> bool) (d : dataset) (v : var) (outs ins : list text) : bool :=
  forallb (fun p => forallb (fun o => forallb (fun i => test (d_at d v p o i)) ins) outs) (seq 0 (length (d_periods d))).
(** [np.nan_to_num(x) == 0] *)
Definition zero_or_nan (x : val) : bool := is_zero num x || is_nan num x.

(** has_transfer_function, core.py 904-930 *)
Definition has_transfer_function (t : tf) : result bool :=
  let ns := t_names t in let d := t_data t in
  if member (n_ex ns) (d_labels d) || member (n_ey ns) (d_labels d) || member (n_hz ns) (d_labels d)
  then if located d (ex_ey_hz ns) (hx_hy ns) then Ok (negb (all_zero (is_zero num) d VTf (ex_ey_hz ns) (hx_hy ns))) else Err KeyError
  else Ok false.
(** has_impedance, core.py 1042-1068 *)
Definition has_impedance (t : tf) : result bool :=
  let ns := t_names t in let d := t_data t in
  if member (n_ex ns) (d_labels d) || member (n_ey ns) (d_labels d)
  then if located d (ex_ey ns) (hx_hy ns) then Ok (negb (all_zero (is_zero num) d VTf (ex_ey ns) (hx_hy ns))) else Err KeyError
  else Ok false.
(** has_tipper, core.py 1184-1211 *)
Definition has_tipper (t : tf) : result bool :=
  let ns := t_names t in let d := t_data t in
  if member (n_hz ns) (d_labels d)
  then if located d [n_hz ns] (hx_hy ns) then Ok (negb (all_zero zero_or_nan d VTf [n_hz ns] (hx_hy ns))) else Err KeyError
  else Ok false.
(** has_inverse_signal_power, core.py 1328-1350 *)
Definition has_inverse_signal_power (t : tf) : result bool :=
  let ns := t_names t in let d := t_data t in
  if located d (hx_hy ns) (hx_hy ns) then Ok (negb (all_zero (is_zero num) d VIsp (hx_hy ns) (hx_hy ns))) else Err KeyError.
(** has_residual_covariance, core.py 1394-1416 *)
Definition has_residual_covariance (t : tf) : result bool :=
  let ns := t_names t in let d := t_data t in
  if located d (ex_ey_hz ns) (ex_ey_hz ns) then Ok (negb (all_zero (is_zero num) d VRes (ex_ey_hz ns) (ex_ey_hz ns))) else Err KeyError.

(** What a getter returns: periods, labels and values; or None. *)
Record labelled : Type := mkLabelled { l_periods : list Q; l_outs : list text; l_ins : list text; l_at : nat -> text -> text -> val }.
Definition select (d : dataset) (v : var) (outs ins : list text) : result labelled :=
  if located d outs ins then Ok (mkLabelled (d_periods d) outs ins (d_at d v)) else Err KeyError.
Definition getter (has : result bool) (sel : result labelled) : result (option labelled) :=
  bindR has (fun h => if h then bindR sel (fun l => Ok (Some l)) else Ok None).

(** The getters, core.py 933-950 (transfer_function), 969-986, 1006-1023, 1071-1092 (impedance), 1107-1130,
    1145-1168, 1214-1237 (tipper), 1252-1275, 1290-1312, 1353-1375 (inverse_signal_power), 1419-1441
    (residual_covariance).  Errors are only given when the quantity itself is there. *)
Definition get (a : atype) (t : tf) : result (option labelled) :=
  let ns := t_names t in let d := t_data t in
  match a with
  | ATf | ATfErr | ATfModel => getter (has_transfer_function t) (select d (key_of a) (ex_ey_hz ns) (hx_hy ns))
  | AImp | AImpErr | AImpModel => getter (has_impedance t) (select d (key_of a) (ex_ey ns) (hx_hy ns))
  | ATip | ATipErr | ATipModel => getter (has_tipper t) (select d (key_of a) [n_hz ns] (hx_hy ns))
  | AIsp => getter (has_inverse_signal_power t) (select d VIsp (hx_hy ns) (hx_hy ns))
  | ARes => getter (has_residual_covariance t) (select d VRes (ex_ey_hz ns) (ex_ey_hz ns))
  end.

(** _validate_input_ndarray, core.py 747-790 *)
Definition validate_ndarray (d : dataset) (a : atype) (shape : list nat) : result unit :=
  if negb (if list_eq_dec Nat.eq_dec (tl shape) (shape_of a) then true else false) then Err TFError
  else if negb (hd 0 shape =? length (d_periods d)) then Err TFError else Ok tt.

(** _validate_input_dataarray, core.py 792-849: the labels must be those expected, in any order; a TF of one
    period without impedance and tipper is started again with the periods of the input.  The labels have
    been looked up before (854-860). *)
Definition validate_dataarray (t : tf) (out_labels in_labels : list text) (periods : list Q) (outs ins : list text)
  (at_ : nat -> nat -> nat -> val) : result (tf * (nat -> nat -> nat -> val)) :=
  if negb (if list_eq_dec text_dec (sort_texts out_labels) (sort_texts outs) then true else false) then Err TFError
  else if negb (if list_eq_dec text_dec (sort_texts in_labels) (sort_texts ins) then true else false) then Err TFError
  else
    let moved p r c := match nth_error out_labels r, nth_error in_labels c with
      | Some o, Some i => match index_of o outs, index_of i ins with Some r', Some c' => at_ p r' c' | _, _ => vzero num end
      | _, _ => vzero num end in
    bindR (if length (d_periods (t_data t)) =? 1 then bindR (has_tipper t) (fun ht => if ht then Ok false else bindR (has_impedance t) (fun hi => Ok (negb hi))) else Ok false)
      (fun first =>
         if first then Ok (mkTf (t_names t) (t_inverse t) (initialize (t_names t) periods), moved)
         else if length (d_periods (t_data t)) =? length periods then Ok (t, moved)
         else Err TFError).

(** _set_data_array, core.py 851-902.  The object and what was raised, if anything.  Assigning a DataArray
    compares the coordinates of the periods (xarray raises IndexError if they differ). *)
Definition set_data_array (t : tf) (v : given) (a : atype) : tf * option exn :=
  match v with
  | GNone => (t, None)
  | _ =>
    match ch_in (t_names t) a, ch_out (t_names t) a with
    | Some ins, Some outs =>
      match v with
      | GNone => (t, None)
      | GArray shape at_ =>
          match validate_ndarray (t_data t) a shape with
          | Err e => (t, Some e)
          | Ok _ => if located (t_data t) outs ins
                    then (mkTf (t_names t) (t_inverse t) (assign (t_data t) (key_of a) outs ins at_), None)
                    else (t, Some KeyError)
          end
      | GData periods douts dins at_ =>
          match validate_dataarray t outs ins periods douts dins at_ with
          | Err e => (t, Some e)
          | Ok (t1, moved) =>
              if located (t_data t1) outs ins
              then if same_periods periods (d_periods (t_data t1))
                   then (mkTf (t_names t1) (t_inverse t1) (assign (t_data t1) (key_of a) outs ins moved), None)
                   else (t1, Some IndexError)
              else (t1, Some KeyError)
          end
      | GNoCoords => (t, Some TFError)
      | GOther => (t, Some TFError)
      end
    | _, _ => (t, Some KeyError)
    end
  end.

(** _compute_impedance_error_from_covariance, core.py 1460-1498, _compute_tipper_error_from_covariance,
    core.py 1500-1528, and _compute_error_from_covariance, core.py 1530-1536.  A covariance that is None has
    no attribute loc. *)
Definition compute_errors (t : tf) : tf * option exn :=
  let ns := t_names t in
  match get ARes t, get AIsp t with
  | Err e, _ => (t, Some e)
  | Ok None, _ => (t, Some AttributeError)
  | Ok (Some _), Err e => (t, Some e)
  | Ok (Some _), Ok None => (t, Some AttributeError)
  | Ok (Some r), Ok (Some s) =>
      let z_err p i j := match i, j with
        | 0, 0 => spread num (l_at r p (n_ex ns) (n_ex ns)) (l_at s p (n_hx ns) (n_hx ns))
        | 0, 1 => spread num (l_at r p (n_ex ns) (n_ex ns)) (l_at s p (n_hy ns) (n_hy ns))
        | 1, 0 => spread num (l_at r p (n_ey ns) (n_ey ns)) (l_at s p (n_hx ns) (n_hx ns))
        | 1, 1 => spread num (l_at r p (n_ey ns) (n_ey ns)) (l_at s p (n_hy ns) (n_hy ns))
        | _, _ => vzero num end in
      let t_err p i j := match i, j with
        | 0, 0 => spread num (l_at r p (n_hz ns) (n_hz ns)) (l_at s p (n_hx ns) (n_hx ns))
        | 0, 1 => spread num (l_at r p (n_hz ns) (n_hz ns)) (l_at s p (n_hy ns) (n_hy ns))
        | _, _ => vzero num end in
      let d1 := assign (t_data t) VErr (ex_ey ns) (hx_hy ns) z_err in
      let d2 := assign d1 VErr [n_hz ns] (hx_hy ns) t_err in
      (mkTf ns (t_inverse t) d2, None)
  end.

(** The setters: core.py 953-965, 989-1002, 1026-1040 (transfer functions), 1094-1104, 1132-1142, 1170-1181
    (impedances), 1239-1249, 1277-1287, 1314-1325 (tippers), 1377-1391 (inverse_signal_power), 1443-1457
    (residual_covariance). *)
Definition set (a : atype) (v : given) (t : tf) : tf * option exn :=
  let '(t1, e) := set_data_array t v a in
  match e with
  | Some e => (t1, Some e)
  | None =>
    match a with
    | AIsp => match has_residual_covariance t1 with
              | Err e => (t1, Some e) | Ok false => (t1, None) | Ok true => compute_errors t1 end
    | ARes => match has_inverse_signal_power t1 with
              | Err e => (t1, Some e) | Ok false => (t1, None) | Ok true => compute_errors t1 end
    | _ => (t1, None)
    end
  end.

(** period, core.py 1543-1575, for arrays. *)
Definition set_period (l : list Q) (t : tf) : tf * option exn :=
  let d := t_data t in
  if (length (d_periods d) =? 1) && same_periods (d_periods d) [1%Q]
  then (mkTf (t_names t) (t_inverse t) (initialize (t_names t) l), None)
  else if negb (length l =? length (d_periods d)) then (t, Some TFError)
  else if negb (same_periods (d_periods d) l)
  then (mkTf (t_names t) (t_inverse t) (mkData l (d_labels d) (d_at d)), None)
  else (t, None).
(** channel_nomenclature, core.py 584-611: the dataset keeps its labels. *)
Definition set_names (ns : names) (t : tf) : tf := mkTf ns (t_inverse t) (t_data t).
Definition name_items (ns : names) : list (text * text) :=
  [(txt "hx", n_hx ns); (txt "hy", n_hy ns); (txt "hz", n_hz ns); (txt "ex", n_ex ns); (txt "ey", n_ey ns)].
(** inverse_channel_nomenclature, core.py 113-119: kept after the first use. *)
Definition inverse_names (t : tf) : tf * list (text * text) :=
  match t_inverse t with
  | [] => let inv := map (fun kv => (snd kv, fst kv)) (name_items (t_names t)) in (mkTf (t_names t) inv (t_data t), inv)
  | inv => (t, inv)
  end.

(** TF(...), core.py 53-110, for the keywords period (or frequency, given as 1 / frequency) and then
    channel_nomenclature and arrays in the order given.  Without period there is no dataset yet when the
    other keywords are set. *)
Inductive keyword : Type := KNames (ns : names) | KData (a : atype) (v : given).
Definition set_keyword (k : keyword) (t : tf) : tf * option exn :=
  match k with KNames ns => (set_names ns t, None) | KData a v => set a v t end.
Fixpoint set_keywords (ks : list keyword) (t : tf) : tf * option exn :=
  match ks with
  | [] => (t, None)
  | k :: r => let '(t1, e) := set_keyword k t in match e with Some e => (t1, Some e) | None => set_keywords r t1 end
  end.
Fixpoint names_only (ks : list keyword) (ns : names) : result names :=
  match ks with
  | [] => Ok ns
  | KNames ns' :: r => names_only r ns'
  | KData a GNone :: r => match a with AIsp | ARes => Err AttributeError | _ => names_only r ns end
  | KData ATfModel _ :: _ => Err KeyError
  | KData a GOther :: _ => Err TFError
  | KData a GNoCoords :: _ => Err TFError
  | KData a (GArray shape _) :: _ => if list_eq_dec Nat.eq_dec (tl shape) (shape_of a) then Err AttributeError else Err TFError
  | KData a (GData _ douts dins _) :: _ =>
      match ch_out ns a, ch_in ns a with
      | Some outs, Some ins =>
          if list_eq_dec text_dec (sort_texts outs) (sort_texts douts) then
            if list_eq_dec text_dec (sort_texts ins) (sort_texts dins) then Err AttributeError else Err TFError
          else Err TFError
      | _, _ => Err KeyError
      end
  end.
Definition new (periods : option (list Q)) (ks : list keyword) : result tf :=
  match periods with
  | Some l => let '(t, e) := set_keywords ks (mkTf default_names [] (initialize default_names l)) in
              match e with Some e => Err e | None => Ok t end
  | None => bindR (names_only ks default_names) (fun ns => Ok (mkTf ns [] (initialize ns [1%Q])))
  end.

End Numbers.
