(** Model of [TF.merge], /repo/mt_metadata/transfer_functions/core.py 1660-1881, with what it uses of pandas
    (slices of an index of numbers by labels) and of xarray ([sortby], [where], [combine_by_coords] with its
    defaults; other versions of these libraries are not modelled).  Periods are rational numbers (no nan). *)
From Coq Require Import QArith.
From Verif Require Import PyBase PyText JfileModel TfModel.
Local Open Scope nat_scope.

Section Numbers.
Variable num : nums.

(** A row of a dataset: a period and where its values are. *)
Definition row : Type := Q * (dataset num * nat).
Definition rows_of (d : dataset num) : list row := map (fun p => (nth p (d_periods num d) 0%Q, (d, p))) (seq 0 (length (d_periods num d))).
(** The dataset made of some rows. *)
Definition of_rows (labels : list text) (rs : list row) : dataset num :=
  mkData num (map fst rs) labels
    (fun v p o i => match nth_error rs p with Some (_, (d, r)) => d_at num d v r o i | None => vzero num end).

(** pandas: is_monotonic_increasing and is_monotonic_decreasing (not strict). *)
Fixpoint rising (l : list Q) : bool := match l with x :: ((y :: _) as r) => Qle_bool x y && rising r | _ => true end.
Fixpoint falling (l : list Q) : bool := match l with x :: ((y :: _) as r) => Qle_bool y x && falling r | _ => true end.

Definition less (a b : Q) : bool := negb (Qle_bool b a).
(** pandas get_loc: the places of a label. *)
Fixpoint places (x : Q) (l : list Q) (n : nat) : list nat :=
  match l with
  | [] => []
  | y :: r => if Qeq_bool x y then n :: places x r (S n) else places x r (S n)
  end.
Fixpoint consecutive (l : list nat) : bool := match l with a :: ((b :: _) as r) => (b =? S a) && consecutive r | _ => true end.
(** pandas _searchsorted_monotonic *)
Definition searchsorted (left : bool) (x : Q) (l : list Q) : result nat :=
  let below := length (filter (fun y => less y x) l) in
  let upto := length (filter (fun y => Qle_bool y x) l) in
  if rising l then Ok (if left then below else upto)
  else if falling l then Ok (if left then length l - upto else length l - below)
  else Err KeyError.
(** pandas get_slice_bound *)
Definition slice_bound (left : bool) (x : Q) (l : list Q) : result nat :=
  match places x l 0 with
  | [] => searchsorted left x l
  | first :: r => if consecutive (first :: r) then Ok (if left then first else S (last r first)) else Err KeyError
  end.
(** [dataset.loc[{"period": slice(lo, hi)}]] *)
Definition loc (lo hi : option Q) (rs : list row) : result (list row) :=
  bindR (match lo with None => Ok 0 | Some x => slice_bound true x (map fst rs) end) (fun start =>
  bindR (match hi with None => Ok (length rs) | Some x => slice_bound false x (map fst rs) end) (fun stop =>
  Ok (firstn (stop - start) (skipn start rs)))).
(** get_slice, core.py 1802-1850 *)
Definition get_slice (lo hi : option Q) (rs : list row) : result (list row) :=
  match loc lo hi rs with
  | Err KeyError =>
      match lo, hi with
      | Some a, Some b => Ok (filter (fun r : row => Qle_bool a (fst r) && Qle_bool (fst r) b) rs)
      | None, Some b => Ok (filter (fun r : row => Qle_bool (fst r) b) rs)
      | Some a, None => Ok (filter (fun r : row => Qle_bool a (fst r)) rs)
      | None, None => Err TypeError
      end
  | x => x
  end.
(** sort_by_period, core.py 1728-1732: a stable sort. *)
Fixpoint insert_row (x : row) (l : list row) : list row :=
  match l with
  | [] => [x]
  | y :: r => if Qle_bool (fst x) (fst y) then x :: y :: r else y :: insert_row x r
  end.
Definition sort_rows (l : list row) : list row := fold_right insert_row [] l.

(** What can be given: a TF; a dictionary with a TF and bounds; a dictionary with other keys; anything else. *)
Inductive item : Type :=
| ITf (t : tf num)
| IDict (t : tf num) (lo hi : option Q)
| IKeys
| IOther.
Inductive others : Type := One (i : item) | Many (l : list item).
(** is_tf and is_dict, core.py 1734-1800, and the loop 1857-1865.  (The data of the TF of a dictionary are
    left sorted, see [left_behind].) *)
Definition item_rows (i : item) : result (list row) :=
  match i with
  | ITf t => Ok (sort_rows (rows_of (t_data num t)))
  | IDict t lo hi => get_slice lo hi (sort_rows (rows_of (t_data num t)))
  | IKeys => Err KeyError
  | IOther => Err TypeError
  end.
Fixpoint all_rows (l : list item) : result (list (list row)) :=
  match l with
  | [] => Ok []
  | i :: r => bindR (item_rows i) (fun a => bindR (all_rows r) (fun b => Ok (a :: b)))
  end.
(** The TF of a dictionary after the call, core.py 1797-1799. *)
Definition left_behind (i : item) : option (tf num) :=
  match i with
  | IDict t _ _ => Some (mkTf num (t_names num t) (t_inverse num t) (of_rows (d_labels num (t_data num t)) (sort_rows (rows_of (t_data num t)))))
  | ITf t => Some t
  | _ => None
  end.

(** xarray _infer_concat_order_from_coords and _combine_nd: the datasets go by the rank of their first
    period; of several with the same first period the last one is taken. *)
Definition first_of (rs : list row) : Q := match rs with r :: _ => fst r | [] => 0%Q end.
Fixpoint latest (l : list (list row)) : list (list row) :=
  match l with
  | [] => []
  | a :: r => if existsb (fun b => Qeq_bool (first_of a) (first_of b)) r then latest r else a :: latest r
  end.
Fixpoint insert_part (before : Q -> Q -> bool) (x : list row) (l : list (list row)) : list (list row) :=
  match l with
  | [] => [x]
  | y :: r => if before (first_of x) (first_of y) then x :: y :: r else y :: insert_part before x r
  end.
Definition sort_parts (before : Q -> Q -> bool) (l : list (list row)) : list (list row) := fold_right (insert_part before) [] l.
(** xarray combine_by_coords *)
Definition combine (l : list (list row)) : result (list row) :=
  match l with
  | [] => Err ValueError
  | a :: r =>
      if forallb (fun b => same_periods (map fst b) (map fst a)) r
      then match r with [] => Ok a | _ => Err ValueError end
      else
        bindR (if forallb (fun b => rising (map fst b)) l then Ok less
               else if forallb (fun b => falling (map fst b)) l then Ok (fun x y => less y x)
               else Err ValueError) (fun before =>
        if existsb (fun b : list row => match b with [] => true | _ => false end) l then Err ValueError
        else
          let rs := concat (sort_parts before (latest l)) in
          if rising (map fst rs) || falling (map fst rs) then Ok rs else Err ValueError)
  end.
(** merge, core.py 1660-1881: the merged TF, a copy of [self] with other data (inplace=False).  The datasets
    are supposed to have the same channel labels, else the result is not modelled (NotImplementedError). *)
Definition labels_of (i : item) : list (list text) :=
  match i with ITf t | IDict t _ _ => [d_labels num (t_data num t)] | _ => [] end.
Definition merge (self : tf num) (other : others) (lo hi : option Q) : result (tf num) :=
  bindR (get_slice lo hi (rows_of (t_data num self))) (fun mine =>
  let items := match other with One i => [i] | Many l => l end in
  bindR (all_rows items) (fun parts =>
  if forallb (fun l => if list_eq_dec text_dec l (d_labels num (t_data num self)) then true else false) (flat_map labels_of items) then
    bindR (combine (mine :: parts)) (fun rs =>
    Ok (mkTf num (t_names num self) (t_inverse num self) (of_rows (d_labels num (t_data num self)) rs)))
  else Err NotImplementedError)).
End Numbers.
