(** Specification for C54, C55 and C80 to C83. *)
From Verif Require Import PyBase PyText SxmlModel.
Local Open Scope list_scope.

(** An entry of a translation dictionary gives a name for a key; "special" is no name. *)
Inductive gives : option text * tval -> text -> text -> Prop :=
| gives_name : forall k s, s <> txt "special" -> gives (Some k, TName s) k s
| gives_list : forall k l s, In s l -> gives (Some k, TList l) k s.
(** The last entry that gives the name. *)
Definition last_gives (d : list (option text * tval)) (s k : text) : Prop :=
  exists a e b, d = a ++ e :: b /\ gives e k s /\ forall e' k', In e' b -> ~ gives e' k' s.

(** Text that does not begin or end with white space and is not empty. *)
Definition word_like (s : text) : Prop :=
  s <> [] /\ (forall c r, s = c :: r -> is_space c = false) /\ (forall r c, s = r ++ [c] -> is_space c = false).
(** Keys and values of comments: none with ":" or ",", but the last value may have ",". *)
Definition good_key (k : text) : Prop := word_like k /\ ~ In ":"%char k /\ ~ In ","%char k.
Fixpoint good_values (vs : list text) : Prop :=
  match vs with
  | [] => True
  | v :: r => word_like v /\ ~ In ":"%char v /\ (r <> [] -> ~ In ","%char v) /\ good_values r
  end.
Definition good_pairs (kvs : list (text * text)) : Prop := Forall good_key (map fst kvs) /\ good_values (map snd kvs).
(** Not both an author and comments. *)
Definition no_author (kvs : list (text * text)) : Prop :=
  Forall (fun kv => contains (txt "author") (fst kv) = false) kvs \/ Forall (fun kv => contains (txt "comments") (fst kv) = false) kvs.
Definition as_comment (kvs : list (text * text)) : cdict := map (fun kv => (fst kv, Some (snd kv))) kvs.
(** The values that are set, under the last part of their names. *)
Fixpoint set_values (get : text -> option text) (parts : list text) : list (text * text) :=
  match parts with
  | [] => []
  | p :: r => match get p with
              | Some (c :: v) => (last_part p, c :: v) :: set_values get r
              | _ => set_values get r
              end
  end.
