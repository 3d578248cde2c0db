(** What the field tree of a class is, and when the answers of the caches can be trusted: written without the caches. *)
From Verif Require Import PyBase PyText PyFacts PyJson PyJsonFacts CacheModel.
Local Open Scope nat_scope.

Section Spec.
Variable cls : Type.
Variable table : cls -> class cls.

(** The tree of a class has, in the order of the fields, an entry for each field that is not deprecated: its summary, or the tree of its class. *)
Inductive tree : cls -> json -> Prop :=
| tree_of c l : entries (c_fields (table c)) l -> tree c (JObj l)
with entries : list (field cls) -> list (text * json) -> Prop :=
| entries_nil : entries [] []
| entries_deprecated f fs l r : f_deprecated f = Some r -> entries fs l -> entries (f :: fs) l
| entries_simple f fs l s : f_deprecated f = None -> f_kind f = Simple s -> entries fs l -> entries (f :: fs) ((f_name f, s) :: l)
| entries_class f fs l d j : f_deprecated f = None -> f_kind f = Class d -> tree d j -> entries fs l -> entries (f :: fs) ((f_name f, j) :: l).

(** The classes of a program: no class contains itself, directly or not ([depth]), names of fields differ, summaries are JSON, full names differ. *)
Record regular (limit : nat) (depth : cls -> nat) : Prop := {
  acyclic : forall c f d, In f (c_fields (table c)) -> f_deprecated f = None -> f_kind f = Class d -> depth d < depth c;
  shallow : forall c, depth c < limit;
  names_differ : forall c, NoDup (map f_name (c_fields (table c)));
  summaries : forall c f s, In f (c_fields (table c)) -> f_kind f = Simple s -> good s;
  classes_differ : forall a b, c_fqname (table a) = c_fqname (table b) -> a = b }.

(** A file of the cache that holds, at most, an unfinished or damaged copy of the tree of its class: cut short, or with characters not yet written. *)
Definition copy_of (c : cls) (t : text) : Prop := exists j, tree c j /\ torn (dumps false (txt "  ") j) t.

(** After an exception the caches must be cleared, or the process started anew, before the next question: until then answers are not trusted, and
    if a question was asked meanwhile the files are not trusted either. *)
Inductive status := Fine | Risky | Spoilt.
Variable fails : nat -> option exn.
Fixpoint trusted (s : status) (l : list (answer cls)) : Prop :=
  match l with
  | [] => True
  | (Ask _ c, a) :: r =>
      match s with
      | Fine => (exists j, a = Some (Ok j) /\ tree c j /\ trusted Fine r) \/ (exists n e, fails n = Some e /\ a = Some (Err e) /\ trusted Risky r)
      | _ => trusted Spoilt r
      end
  | (_, _) :: r => trusted (match s with Spoilt => Spoilt | _ => Fine end) r
  end.
End Spec.

(** The dotted names of the simple fields of a class: deprecated fields are left out, a field of a class stands for the fields of that class. *)
Inductive field_at {cls} (table : cls -> class cls) : cls -> list text -> json -> Prop :=
| field_simple c f s : In f (c_fields (table c)) -> f_deprecated f = None -> f_kind f = Simple s -> field_at table c [f_name f] s
| field_nested c f d names s : In f (c_fields (table c)) -> f_deprecated f = None -> f_kind f = Class d -> field_at table d names s -> field_at table c (f_name f :: names) s.
