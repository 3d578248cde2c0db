(** Specification notions for nested dictionaries: paths and well-formedness. *)
From Verif Require Import PyBase PyText DictFlatModel.

Section Spec.
  Context {A : Type}.

  (** The value found by following keys one after the other. *)
  Inductive at_path : val A -> list text -> val A -> Prop :=
  | ap_here v : at_path v [] v
  | ap_in d k v p w : In (k, v) d -> at_path v p w -> at_path (Node d) (k :: p) w.

  (** A dictionary as a program can hold it (each key once at each level) with non-empty,
      separator-free keys and no empty dictionary below the top. *)
  Inductive tidy (sep : ascii) : val A -> Prop :=
  | tidy_leaf a : tidy sep (Leaf a)
  | tidy_node d : NoDup (map fst d) -> d <> [] ->
                  (forall k v, In (k, v) d -> k <> [] /\ ~ In sep k /\ tidy sep v) ->
                  tidy sep (Node d).
  Definition tidy_top (sep : ascii) (d : dict A) : Prop := d = [] \/ tidy sep (Node d).

  (** Each key once at each level. *)
  Inductive proper : val A -> Prop :=
  | pr_leaf a : proper (Leaf a)
  | pr_node d : NoDup (map fst d) -> (forall k v, In (k, v) d -> proper v) -> proper (Node d).

  (** The dotted name of a path. *)
  Definition dotted (sep : ascii) (p : list text) : text := join [sep] p.

  Definition is_prefix (p q : list text) : Prop := exists r, q = p ++ r.
  Definition unrelated (p q : list text) : Prop := ~ is_prefix p q /\ ~ is_prefix q p.

  (** Leaves as values, for feeding a flat dictionary back. *)
  Definition as_items (l : list (text * A)) : list (text * val A) :=
    map (fun kv => (fst kv, Leaf (snd kv))) l.

  (** What a path holds, [None] when it is absent (read through the attribute model). *)
  Definition found (q : list text) (d : dict A) : option (val A) :=
    match getattr_parts q (Node d) with Ok r => r | Err _ => None end.

  (** No keyword is the class name itself. *)
  Definition no_class_key (cls : text) (kw : dict A) : Prop := forall kv, In kv kw -> fst kv <> cls.
End Spec.
