(** Python run-time notions shared by all models.

    These definitions model the Python language, not a file of the repository;
    the models that use them cite the code they are used for. *)
From Coq Require Export String Ascii.
From Coq Require Export Bool Arith ZArith Lia List.
Export ListNotations.
#[global] Open Scope list_scope.

(** Exception classes raised by the modelled code.  The message is dropped. *)
Inductive exn : Type :=
| KeyError | TypeError | ValueError | IndexError | AttributeError
| NotImplementedError | UnboundLocalError | ZeroDivisionError | AssertionError
| LinAlgError | OverflowError | OutOfFuel | TFError.

(** An expression either returns or raises. *)
Inductive result (A : Type) : Type :=
| Ok (a : A)
| Err (e : exn).
Arguments Ok {A} a.
Arguments Err {A} e.

Definition bindR {A B : Type} (r : result A) (f : A -> result B) : result B :=
  match r with Ok a => f a | Err e => Err e end.

Definition is_ok {A : Type} (r : result A) : bool :=
  match r with Ok _ => true | Err _ => false end.

(** Sequential evaluation of [f] over a list, stopping at the first exception
    (a Python [for] loop or list comprehension whose body may raise). *)
Fixpoint mapR {A B : Type} (f : A -> result B) (l : list A) : result (list B) :=
  match l with
  | [] => Ok []
  | x :: xs => bindR (f x) (fun y => bindR (mapR f xs) (fun ys => Ok (y :: ys)))
  end.

(** [dict] / [collections.OrderedDict]: an association list in insertion order.
    Assigning to an existing key keeps its position (CPython dict semantics). *)
Section Dict.
  Context {K V : Type}.
  Variable eqd : forall a b : K, {a = b} + {a <> b}.

  Fixpoint dget (k : K) (d : list (K * V)) : option V :=
    match d with
    | [] => None
    | (k', v) :: r => if eqd k k' then Some v else dget k r
    end.

  Fixpoint dset (k : K) (v : V) (d : list (K * V)) : list (K * V) :=
    match d with
    | [] => [(k, v)]
    | (k', v') :: r => if eqd k k' then (k', v) :: r else (k', v') :: dset k v r
    end.

  Fixpoint ddel (k : K) (d : list (K * V)) : list (K * V) :=
    match d with
    | [] => []
    | (k', v') :: r => if eqd k k' then r else (k', v') :: ddel k r
    end.

  Definition dmem (k : K) (d : list (K * V)) : bool :=
    match dget k d with Some _ => true | None => false end.

  Definition dkeys (d : list (K * V)) : list K := map fst d.
  Definition dvals (d : list (K * V)) : list V := map snd d.

  (** [dict(pairs)] / [OrderedDict(pairs)] / [d.update(pairs)] *)
  Definition dupdate (d : list (K * V)) (pairs : list (K * V)) : list (K * V) :=
    fold_left (fun acc kv => dset (fst kv) (snd kv) acc) pairs d.
End Dict.

(** Python's [x in l] on a list. *)
Definition memb {K : Type} (eqd : forall a b : K, {a = b} + {a <> b}) (k : K) (l : list K) : bool :=
  if in_dec eqd k l then true else false.
