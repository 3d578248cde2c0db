(** Specification for C141: channel names of transfer functions. *)
From Verif Require Import PyBase PyText NmcModel.
Local Open Scope list_scope.

(** The five components, and the name of each. *)
Definition comps : list text := [txt "ex"; txt "ey"; txt "hx"; txt "hy"; txt "hz"].
Definition name_list (n : names) : list (text * text) :=
  [(txt "ex", n_ex n); (txt "ey", n_ey n); (txt "hx", n_hx n); (txt "hy", n_hy n); (txt "hz", n_hz n)].
(** The dictionary gives the five names. *)
Definition names_in (d : dict) (n : names) : Prop := forall c v, In (c, v) (name_list n) -> get c d = Some v.
Definition usual : names := mkNames (txt "ex") (txt "ey") (txt "hx") (txt "hy") (txt "hz").
(** The object a program has as number [i]. *)
Definition object (s : state) (i : nat) (x : obj) : Prop := nth_error (objs s) i = Some x.
(** What a program does not do. *)
Definition edits_default (o : op) : Prop := exists k v, o = Edit 0 k v.
Definition edits (o : op) : Prop := exists r k v, o = Edit r k v.
Definition sets (i : nat) (o : op) : Prop := exists r, o = SetNames i r.
(** A history in which no dictionary is edited and only complete dictionaries are set. *)
Inductive clean : state -> list op -> Prop :=
| clean_nil : forall s, clean s []
| clean_cons : forall s o l, ~ edits o -> snd (step s o) = None -> clean (fst (step s o)) l -> clean s (o :: l).
