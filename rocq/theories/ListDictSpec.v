(** Specification of an insertion-ordered map, independent of the list_dict.py model.
    Only the vocabulary of operations ([op], [out], [index], [key], [obj]) is shared. *)
From Verif Require Import PyBase ListDictModel.
From Coq Require Import Permutation Sorted.

Section Spec.
  Context {A : Type}.

  (** An ordered map: the keys in order, and the content as a function. *)
  Record omap : Type := { order : list key; content : key -> option (obj A) }.

  Definition empty_map (m : omap) : Prop := order m = [] /\ forall k, content m k = None.

  (** Storing [v] under [k]: an existing key keeps its place, a new one goes last; no other
      key is affected. *)
  Definition put (m : omap) (k : key) (v : obj A) (m' : omap) : Prop :=
    (In k (order m) -> order m' = order m) /\
    (~ In k (order m) -> order m' = order m ++ [k]) /\
    content m' k = Some v /\
    (forall a, a <> k -> content m' a = content m a).

  (** Removing [k]: the others keep their relative order and content. *)
  Definition del (m : omap) (k : key) (m' : omap) : Prop :=
    (exists l1 l2, order m = l1 ++ k :: l2 /\ order m' = l1 ++ l2) /\
    content m' k = None /\
    (forall a, a <> k -> content m' a = content m a).

  Definition same (m m' : omap) : Prop :=
    order m' = order m /\ forall a, content m' a = content m a.

  (** Storing a list of pairs one after the other. *)
  Inductive puts : omap -> list (key * obj A) -> omap -> Prop :=
  | puts_nil m m' : same m m' -> puts m [] m'
  | puts_cons m k v r m1 m2 : put m k v m1 -> puts m1 r m2 -> puts m ((k, v) :: r) m2.

  (** The name an object carries, if any: its [id], else its [component]. *)
  Inductive object_name : obj A -> option key -> Prop :=
  | on_id o k : at_id o = Some k -> object_name o (Some k)
  | on_comp o k : at_id o = None -> at_component o = Some k -> object_name o (Some k)
  | on_none o : at_id o = None -> at_component o = None -> object_name o None.

  (** The key at a position. *)
  Definition at_position (m : omap) (z : Z) (k : key) : Prop :=
    (0 <= z)%Z /\ nth_error (order m) (Z.to_nat z) = Some k.
  Definition no_position (m : omap) (z : Z) : Prop := forall k, ~ at_position m z k.

  Definition key_le (a b : key) : Prop :=
    match a, b with KStr s, KStr t => String.leb s t = true | _, _ => False end.

  (** What each operation must do.  [OPop] and [OUpdateKeys] have their own properties. *)
  Definition spec_step (m : omap) (o : op A) (m' : omap) (x : out A) : Prop :=
    match o with
    | OSet (IStr s) v => put m (KStr s) v m' /\ x = Done
    | OSet (IInt z) v =>
        x = Done /\
        ((exists k, at_position m z k /\ put m k v m') \/
         (no_position m z /\
          ((exists k, object_name v (Some k) /\ put m k v m') \/
           (object_name v None /\ put m (KStr (str_int z)) v m'))))
    | OSet (ISlice _ _ _) v => same m m' /\ x = Raised NotImplementedError
    | OSet _ v => same m m' /\ x = Done
    | OAppend v =>
        x = Done /\
        ((exists k, object_name v (Some k) /\ put m k v m') \/
         (object_name v None /\ put m (KStr (str_nat (length (order m)))) v m'))
    | ORemove (IStr s) =>
        (In (KStr s) (order m) /\ del m (KStr s) m' /\ x = Done) \/
        (~ In (KStr s) (order m) /\ same m m' /\ x = Raised KeyError)
    | ORemove (IInt z) =>
        (exists k, at_position m z k /\ del m k m' /\ x = Done) \/
        (no_position m z /\ same m m' /\ x = Raised KeyError)
    | ORemove INone =>
        (In KNone (order m) /\ del m KNone m' /\ x = Done) \/
        (~ In KNone (order m) /\ same m m' /\ x = Raised KeyError)
    | ORemove _ => same m m' /\ x = Raised TypeError
    | OExtend other skip =>
        puts m (filter (fun kv => if in_dec key_dec (fst kv) skip then false else true) other) m'
        /\ x = Done
    | OUpdate _ other => puts m other m' /\ x = Done
    | OClear => empty_map m' /\ x = Done
    | OSort =>
        (x = Done /\ Permutation (order m) (order m') /\
         (forall a, content m' a = content m a) /\
         (length (order m) <= 1 \/ StronglySorted key_le (order m'))) \/
        (x = Raised TypeError /\ same m m' /\ In KNone (order m) /\ 1 < length (order m))
    | OPop _ | OUpdateKeys => False
    end.

  Inductive spec_run : omap -> list (op A) -> omap -> list (out A) -> Prop :=
  | sr_nil m m' : same m m' -> spec_run m [] m' []
  | sr_cons m o r m1 x m2 xs :
      spec_step m o m1 x -> spec_run m1 r m2 xs -> spec_run m (o :: r) m2 (x :: xs).

  (** Which operations the map specification speaks about. *)
  Definition is_map_op (o : op A) : Prop :=
    match o with
    | OPop _ | OUpdateKeys => False
    | OUpdate true other => forall o, ~ In (KNone, o) other
    | _ => True
    end.

  (** The observable content of a ListDict: its [keys()] and its lookups. *)
  Definition observe (d : home A) (m : omap) : Prop :=
    order m = map fst d /\
    forall k, match content m k with
              | Some v => In (k, v) d
              | None => ~ In k (map fst d)
              end.

  (** Direct "last write" reading for keyed operations: what a key holds after a history. *)
  Inductive write : Type := W (k : key) (v : obj A) | D (k : key).
  Fixpoint last_write (k : key) (h : list write) (acc : option (obj A)) : option (obj A) :=
    match h with
    | [] => acc
    | W k' v :: r => last_write k r (if key_dec k k' then Some v else acc)
    | D k' :: r => last_write k r (if key_dec k k' then None else acc)
    end.

  (** The same history written as operations of the container. *)
  Fixpoint write_ops (h : list write) : list (op A) :=
    match h with
    | [] => []
    | W (KStr s) v :: r => OSet (IStr s) v :: write_ops r
    | W KNone v :: r => OExtend [(KNone, v)] [] :: write_ops r
    | D (KStr s) :: r => ORemove (IStr s) :: write_ops r
    | D KNone :: r => ORemove INone :: write_ops r
    end.

  (** C05: the keys an object should be found under. *)
  Inductive names (o : obj A) (old : key) : key -> Prop :=
  | nm_named k : object_name o (Some k) -> names o old k
  | nm_anon : object_name o None -> names o old old.

  (** C02: the position a slice end point denotes in a container with the given keys.
      Integers follow the Python rule (negative counts from the end, out of range is clamped);
      a string is the position of that key. *)
  Inductive endpoint (keys : list key) (dflt : nat) : slice_end -> nat -> Prop :=
  | ep_none : endpoint keys dflt SNone dflt
  | ep_in (p : nat) : p <= length keys -> endpoint keys dflt (SInt (Z.of_nat p)) p
  | ep_over (z : Z) : (Z.of_nat (length keys) < z)%Z -> endpoint keys dflt (SInt z) (length keys)
  | ep_neg (p q : nat) : p + q = length keys -> 0 < q -> endpoint keys dflt (SInt (- Z.of_nat q)) p
  | ep_under (z : Z) : (z < - Z.of_nat (length keys))%Z -> endpoint keys dflt (SInt z) 0
  | ep_key (s : string) (p : nat) : nth_error keys p = Some (KStr s) -> endpoint keys dflt (SStr s) p.

  (** The items at positions [a], ..., [b-1], in order. *)
  Definition between {B : Type} (l : list B) (a b : nat) (r : list B) : Prop :=
    length r = Nat.min b (length l) - a /\
    forall i, i < length r -> nth_error r i = nth_error l (a + i).
End Spec.
Arguments omap : clear implicits.
Arguments write : clear implicits.

(** The decimal numeral of a number, without zeros in front. *)
Inductive decimal : string -> nat -> Prop :=
| d_digit d : d < 10 -> decimal (String (ascii_of_nat (48 + d)) ""%string) d
| d_more s m d : decimal s m -> 0 < m -> d < 10 -> decimal (s ++ String (ascii_of_nat (48 + d)) ""%string)%string (10 * m + d).
Definition numeral (s : string) (z : Z) : Prop :=
  ((0 <= z)%Z /\ decimal s (Z.to_nat z)) \/ ((z < 0)%Z /\ exists t, s = String "-" t /\ decimal t (Z.to_nat (- z))).
