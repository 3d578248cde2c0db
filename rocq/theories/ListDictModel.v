(** Model of [ListDict], /repo/mt_metadata/common/list_dict.py (whole class, lines 16-340).
    [__str__], [__repr__] and [to_dict] (a stub) are not modelled. *)
From Verif Require Import PyBase.

(** Keys of [self._home]: strings, or [None] when an object's [id] is [None]
    (list_dict.py 82-87, 231-235).  Other key types are not modelled. *)
Inductive key : Type := KNone | KStr (s : string).

Definition key_dec (a b : key) : {a = b} + {a <> b}.
Proof. decide equality. apply string_dec. Defined.

(** A stored object as far as list_dict.py 72-87 looks at it: [at_id = None] means
    [hasattr(obj, "id")] is false, [Some k] is the value of the attribute; the same for
    [component].  [payload] stands for everything else. *)
Record obj (A : Type) : Type := mkObj
  { at_id : option key; at_component : option key; payload : A }.
Arguments mkObj {A}. Arguments at_id {A}. Arguments at_component {A}. Arguments payload {A}.

(** [self._home], list_dict.py 26-27. *)
Definition home (A : Type) : Type := list (key * obj A).

Section ListDict.
  Context {A : Type}.
  Notation home := (home A).
  Notation obj := (obj A).

  Definition hget : key -> home -> option obj := dget key_dec.
  Definition hset : key -> obj -> home -> home := dset key_dec.
  Definition hdel : key -> home -> home := ddel key_dec.
  Definition hmem : key -> home -> bool := dmem key_dec.

  (** list_dict.py 58-63 [_get_key_from_index]; a negative index matches no position. *)
  Definition key_from_index (d : home) (i : Z) : result key :=
    if (i <? 0)%Z then Err KeyError
    else match nth_error (dkeys d) (Z.to_nat i) with
         | Some k => Ok k
         | None => Err KeyError
         end.

  (** list_dict.py 65-70 [_get_index_from_key]. *)
  Fixpoint index_of (k : key) (ks : list key) (i : Z) : result Z :=
    match ks with
    | [] => Err KeyError
    | k' :: r => if key_dec k' k then Ok i else index_of k r (i + 1)
    end.
  Definition index_from_key (d : home) (k : key) : result Z := index_of k (dkeys d) 0.

  (** list_dict.py 72-87 [_get_key_from_object]. *)
  Definition key_from_object (o : obj) : result key :=
    match at_id o with
    | Some k => Ok k
    | None => match at_component o with
              | Some k => Ok k
              | None => Err TypeError
              end
    end.

  (** Arguments of [d[...]]: str, int, slice, anything else. *)
  Inductive slice_end : Type := SNone | SInt (z : Z) | SStr (s : string) | SOther.
  Inductive index : Type :=
  | IStr (s : string) | IInt (z : Z)
  | ISlice (start stop : slice_end) (step : option Z)
  | INone | IOther.

  (** list_dict.py 127-139: one end point of a slice. *)
  Definition resolve_end (d : home) (e : slice_end) : result (option Z) :=
    match e with
    | SNone => Ok None
    | SInt z => Ok (Some z)
    | SStr s => bindR (index_from_key d (KStr s)) (fun i => Ok (Some i))
    | SOther => Err TypeError
    end.

  (** Python's [slice.indices] for one end: negative counts from the end, then clamp. *)
  Definition clampi (lo hi x : Z) : Z := Z.max lo (Z.min hi x).
  Definition adjust (n x : Z) : Z := if (x <? 0)%Z then (x + n)%Z else x.

  (** Python list slicing [l[start:stop:step]]. *)
  Definition py_slice {B : Type} (l : list B) (start stop step : option Z) : result (list B) :=
    let n := Z.of_nat (length l) in
    let st := match step with None => 1%Z | Some s => s end in
    if (st =? 0)%Z then Err ValueError
    else if (0 <? st)%Z then
      let a := match start with None => 0%Z | Some x => clampi 0 n (adjust n x) end in
      let b := match stop with None => n | Some x => clampi 0 n (adjust n x) end in
      Ok (map snd (filter (fun iv => (a <=? fst iv)%Z && (fst iv <? b)%Z && ((fst iv - a) mod st =? 0)%Z)
                          (combine (map Z.of_nat (seq 0 (length l))) l)))
    else
      let a := match start with None => (n - 1)%Z | Some x => clampi (-1) (n - 1) (adjust n x) end in
      let b := match stop with None => (-1)%Z | Some x => clampi (-1) (n - 1) (adjust n x) end in
      Ok (map snd (filter (fun iv => (fst iv <=? a)%Z && (b <? fst iv)%Z && ((a - fst iv) mod (- st) =? 0)%Z)
                          (rev (combine (map Z.of_nat (seq 0 (length l))) l)))).

  (** list_dict.py 143-162 [__getitem__]: a value, or a new ListDict for a slice. *)
  Definition getitem (d : home) (i : index) : result (obj + home) :=
    match i with
    | IStr s => match hget (KStr s) d with Some o => Ok (inl o) | None => Err KeyError end
    | IInt z => bindR (key_from_index d z) (fun k =>
                match hget k d with Some o => Ok (inl o) | None => Err KeyError end)
    | ISlice a b st =>
        bindR (resolve_end d a) (fun a' =>
        bindR (resolve_end d b) (fun b' =>
        bindR (py_slice d a' b' st) (fun ps => Ok (inr (dupdate key_dec [] ps)))))
    | INone | IOther => Err TypeError
    end.

  (** Decimal text of a number ([str(int)]), used for the fall-back keys. *)
  Fixpoint nat_digits (fuel n : nat) (acc : string) : string :=
    match fuel with
    | O => acc
    | S f =>
        let acc' := String (ascii_of_nat (48 + n mod 10)) acc in
        if (n <? 10)%nat then acc' else nat_digits f (n / 10) acc'
    end.
  Definition str_nat (n : nat) : string := nat_digits (S n) n "".
  Definition str_int (z : Z) : string :=
    if (z <? 0)%Z then String "-" (str_nat (Z.to_nat (- z))) else str_nat (Z.to_nat z).

  (** Result of one operation as the caller sees it. *)
  Inductive out : Type :=
  | Done | Raised (e : exn) | Popped (kv : key * obj) | Renamed (r : list (key * key)).

  (** list_dict.py 164-182 [__setitem__]; [INone]/[IOther] fall through every branch. *)
  Definition setitem (d : home) (i : index) (o : obj) : home * out :=
    match i with
    | IStr s => (hset (KStr s) o d, Done)
    | IInt z =>
        let k := match key_from_index d z with
                 | Ok k => k
                 | Err _ => match key_from_object o with
                            | Ok k => k
                            | Err _ => KStr (str_int z)
                            end
                 end in
        (hset k o d, Done)
    | ISlice _ _ _ => (d, Raised NotImplementedError)
    | INone | IOther => (d, Done)
    end.

  (** list_dict.py 196-212 [append]. *)
  Definition append (d : home) (o : obj) : home * out :=
    let k := match key_from_object o with
             | Ok k => k
             | Err _ => KStr (str_nat (length d))
             end in
    (hset k o d, Done).

  (** [OrderedDict.__delitem__]. *)
  Definition delitem (d : home) (k : key) : home * out :=
    if hmem k d then (hdel k d, Done) else (d, Raised KeyError).

  (** list_dict.py 214-238 [remove]. *)
  Definition remove (d : home) (i : index) : home * out :=
    match i with
    | IStr s => delitem d (KStr s)
    | IInt z => match key_from_index d z with
                | Ok k => delitem d k
                | Err e => (d, Raised e)
                end
    | INone => delitem d KNone
    | ISlice _ _ _ | IOther => (d, Raised TypeError)
    end.

  (** list_dict.py 240-260 [extend]; [other] is the item list of a ListDict / dict. *)
  Definition extend (d : home) (other : home) (skip : list key) : home * out :=
    (fold_left (fun acc kv => if memb key_dec (fst kv) skip then acc
                              else hset (fst kv) (snd kv) acc) other d, Done).

  (** list_dict.py 276-287 [update].  For a ListDict argument [OrderedDict.update] reads
      [other[key]] through [ListDict.__getitem__], which raises TypeError for a [None] key
      after the earlier keys were stored. *)
  Fixpoint update_from_listdict (d : home) (other : home) : home * out :=
    match other with
    | [] => (d, Done)
    | (KNone, _) :: _ => (d, Raised TypeError)
    | (KStr s, o) :: r => update_from_listdict (hset (KStr s) o d) r
    end.
  Definition update (d : home) (other_is_listdict : bool) (other : home) : home * out :=
    if other_is_listdict then update_from_listdict d other
    else (dupdate key_dec d other, Done).

  (** list_dict.py 338-340 [clear]. *)
  Definition clear (d : home) : home * out := ([], Done).

  (** [sorted] on keys: a TypeError when [None] and another key are compared. *)
  Fixpoint insert_key (k : string) (l : list string) : list string :=
    match l with
    | [] => [k]
    | x :: r => if String.leb k x then k :: x :: r else x :: insert_key k r
    end.
  Definition sort_strings (l : list string) : list string := fold_right insert_key [] l.
  Fixpoint all_strings (l : list key) : option (list string) :=
    match l with
    | [] => Some []
    | KNone :: _ => None
    | KStr s :: r => match all_strings r with Some t => Some (s :: t) | None => None end
    end.
  Definition sorted_keys (l : list key) : result (list key) :=
    match all_strings l with
    | Some ss => Ok (map KStr (sort_strings ss))
    | None => if (1 <? length l)%nat then Err TypeError else Ok l
    end.

  (** list_dict.py 262-274 [sort] (in place). *)
  Definition sort (d : home) : home * out :=
    match sorted_keys (dkeys d) with
    | Err e => (d, Raised e)
    | Ok ks =>
        (fold_left (fun od k => match hget k d with Some o => hset k o od | None => od end) ks [],
         Done)
    end.

  (** Truth value of a key. *)
  Definition truthy (k : key) : bool :=
    match k with KNone => false | KStr s => negb (String.eqb s "") end.

  (** list_dict.py 289-302 [pop]: [self._home.popitem(key)] passes the key as the [last] flag. *)
  Definition pop (d : home) (k : key) : home * out :=
    if hmem k d then
      if truthy k then
        match rev d with
        | [] => (d, Raised KeyError)
        | kv :: r => (rev r, Popped kv)
        end
      else
        match d with
        | [] => (d, Raised KeyError)
        | kv :: r => (r, Popped kv)
        end
    else (d, Raised KeyError).

  (** list_dict.py 304-332 [update_keys]. *)
  Definition new_key (old : key) (o : obj) : key :=
    match key_from_object o with Ok k => k | Err _ => old end.
  Definition update_keys (d : home) : home * out :=
    (fold_left (fun nh kv => hset (new_key (fst kv) (snd kv)) (snd kv) nh) d [],
     Renamed (fold_left (fun u kv =>
                let nk := new_key (fst kv) (snd kv) in
                if key_dec (fst kv) nk then u else dset key_dec (fst kv) nk u) d [])).

  (** list_dict.py 89-112 [__deepcopy__]/[copy]: re-inserts through [__setitem__], which ignores
      a [None] key.  The copy of a value is the value. *)
  Definition copy (d : home) : home :=
    fold_left (fun c kv => match fst kv with
                           | KStr s => fst (setitem c (IStr s) (snd kv))
                           | KNone => fst (setitem c INone (snd kv))
                           end) d [].

  (** One public operation. *)
  Inductive op : Type :=
  | OSet (i : index) (o : obj)
  | OAppend (o : obj)
  | ORemove (i : index)
  | OExtend (other : home) (skip : list key)
  | OUpdate (other_is_listdict : bool) (other : home)
  | OClear
  | OSort
  | OPop (k : key)
  | OUpdateKeys.

  Definition step (d : home) (o : op) : home * out :=
    match o with
    | OSet i v => setitem d i v
    | OAppend v => append d v
    | ORemove i => remove d i
    | OExtend other skip => extend d other skip
    | OUpdate b other => update d b other
    | OClear => clear d
    | OSort => sort d
    | OPop k => pop d k
    | OUpdateKeys => update_keys d
    end.

  Fixpoint run (d : home) (ops : list op) : home * list out :=
    match ops with
    | [] => (d, [])
    | o :: r => let (d', x) := step d o in
                let (d'', xs) := run d' r in (d'', x :: xs)
    end.
End ListDict.

Arguments index : clear implicits.
Arguments slice_end : clear implicits.
Arguments op : clear implicits.
Arguments out : clear implicits.
