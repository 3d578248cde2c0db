(** Model of nested metadata dictionaries and dotted names:
    /repo/mt_metadata/base/helpers.py 545-568, 587-606, 645-728 and
    /repo/mt_metadata/base/metadata.py 76-187. *)
From Verif Require Import PyBase PyText.

(** A nested Python dictionary with string keys: a mapping or any other value. *)
Inductive val (A : Type) : Type :=
| Leaf (a : A)
| Node (d : list (text * val A)).
Arguments Leaf {A}. Arguments Node {A}.

Section Dicts.
  Context {A : Type}.
  Notation val := (val A).
  Definition dict : Type := list (text * val).

  (** helpers.py 560-563: a falsy parent ([None] or "") adds no prefix. *)
  Definition new_key (sep : ascii) (parent key : text) : text :=
    match parent with [] => key | _ => parent ++ [sep] ++ key end.

  (** helpers.py 545-568 [flatten_dict]; [dict(items)] keeps the first position and the last
      value of a repeated name.  The separator is one character. *)
  Fixpoint flat_val (sep : ascii) (parent : text) (v : val) : list (text * A) :=
    match v with
    | Leaf a => [(parent, a)]
    | Node d =>
        dupdate text_dec []
          ((fix items (d : list (text * val)) : list (text * A) :=
              match d with
              | [] => []
              | (k, v') :: r => flat_val sep (new_key sep parent k) v' ++ items r
              end) d)
    end.
  Definition flatten_dict (sep : ascii) (d : dict) : list (text * A) := flat_val sep [] (Node d).

  (** helpers.py 587-606 [recursive_split_dict] on the list of parts of the name:
      [setdefault] creates a level or returns what is there; a value that is not a dictionary
      has no [setdefault] (AttributeError) and no item assignment (TypeError). *)
  Fixpoint put_parts (parts : list text) (v : val) (d : dict) : result dict :=
    match parts with
    | [] => Ok d
    | [k] => Ok (dset text_dec k v d)
    | k :: rest =>
        match dget text_dec k d with
        | None => bindR (put_parts rest v []) (fun n => Ok (dset text_dec k (Node n) d))
        | Some (Node n) => bindR (put_parts rest v n) (fun n' => Ok (dset text_dec k (Node n') d))
        | Some (Leaf _) => Err (match rest with [_] => TypeError | _ => AttributeError end)
        end
    end.

  (** The parts of a name: [key.split(sep, 1)] at the first level; the recursive call at
      helpers.py 604 does not pass [sep] on, so below it the separator is ".". *)
  Definition parts_of (sep : ascii) (name : text) : list text :=
    match split1 sep name with
    | (k, None) => [k]
    | (k, Some r) => k :: split_on "." r
    end.

  (** helpers.py 714-728 [structure_dict]. *)
  Fixpoint structure_from (sep : ascii) (items : list (text * val)) (acc : dict) : result dict :=
    match items with
    | [] => Ok acc
    | (name, v) :: r => bindR (put_parts (parts_of sep name) v acc) (structure_from sep r)
    end.
  Definition structure_dict (sep : ascii) (items : list (text * val)) : result dict :=
    structure_from sep items [].

  (** *** Attribute paths of nested objects.
      An object is a [Node] of its attributes, anything else a [Leaf].  [coerce path v] is what
      the validators of the attribute at [path] make of [v] (pydantic [validate_assignment]). *)
  Definition attr (k : text) (o : val) : option val :=
    match o with Node d => dget text_dec k d | Leaf _ => None end.

  (** helpers.py 645-665 [recursive_split_getattr] (the value; the [prop] flag is not
      modelled): a missing intermediate attribute raises, a missing last one gives [None]. *)
  Fixpoint getattr_parts (parts : list text) (o : val) : result (option val) :=
    match parts with
    | [] => Ok (Some o)
    | [k] => Ok (attr k o)
    | k :: rest => match attr k o with
                   | Some o' => getattr_parts rest o'
                   | None => Err AttributeError
                   end
    end.
  Definition get_attr_from_name (name : text) (o : val) : result (option val) :=
    getattr_parts (split_on "." name) o.

  (** helpers.py 668-711 [recursive_split_setattr]; the list-of-dictionaries branch 694-709 is
      not modelled.  Unknown attributes are accepted (model config [extra="allow"]). *)
  Fixpoint setattr_parts (coerce : list text -> val -> result val) (base parts : list text) (v : val) (o : val)
    : result val :=
    match parts with
    | [] => Ok o
    | [k] =>
        match o with
        | Node d => bindR (coerce (base ++ [k]) v) (fun v' => Ok (Node (dset text_dec k v' d)))
        | Leaf _ => Err AttributeError
        end
    | k :: rest =>
        match o with
        | Node d =>
            match dget text_dec k d with
            | Some o' => bindR (setattr_parts coerce (base ++ [k]) rest v o')
                               (fun o'' => Ok (Node (dset text_dec k o'' d)))
            | None => Err AttributeError
            end
        | Leaf _ => Err AttributeError
        end
    end.
  Definition set_attr_from_name (coerce : list text -> val -> result val) (name : text) (v o : val) : result val :=
    setattr_parts coerce [] (split_on "." name) v o.

  (** metadata.py 146-187 [update_attribute]; the last assignment is made twice (186-187). *)
  Fixpoint update_parts (coerce : list text -> val -> result val) (base parts : list text) (v : val) (o : val)
    : result val :=
    match parts with
    | [] => Ok o
    | [k] =>
        match o with
        | Node d => bindR (coerce (base ++ [k]) v) (fun v1 =>
                    bindR (coerce (base ++ [k]) v) (fun v2 =>
                    Ok (Node (dset text_dec k v2 (dset text_dec k v1 d)))))
        | Leaf _ => Err AttributeError
        end
    | k :: rest =>
        match attr k o, o with
        | Some o', Node d => bindR (update_parts coerce (base ++ [k]) rest v o')
                                   (fun o'' => Ok (Node (dset text_dec k o'' d)))
        | _, _ => Err AttributeError
        end
    end.
  Definition update_attribute (coerce : list text -> val -> result val) (name : text) (v o : val) : result val :=
    if has_char "." name then update_parts coerce [] (split_on "." name) v o
    else match o with
         | Node d => bindR (coerce [name] v) (fun v' => Ok (Node (dset text_dec name v' d)))
         | Leaf _ => Err AttributeError
         end.

  (** metadata.py 110-144 [_set_nested_attribute]. *)
  Fixpoint set_nested (parts : list text) (v : val) (d : dict) : dict :=
    match parts with
    | [] => d
    | [k] => dset text_dec k v d
    | k :: rest =>
        let below := match dget text_dec k d with Some (Node n) => n | _ => [] end in
        dset text_dec k (Node (set_nested rest v below)) d
    end.

  (** metadata.py 76-108 [DotNotationBaseModel.__init__] up to the pydantic constructor: the
      dictionary handed to it.  [cls] is [validate_name] of the class name. *)
  Definition init_entry (cls : text) (st : dict * dict) (kv : text * val) : dict * dict :=
    let (flat, nested) := st in
    let (k, v) := kv in
    if has_char "." k then (flat, set_nested (split_on "." k) v nested)
    else if text_dec k cls then
      match v with
      | Node items =>
          fold_left (fun st' kv' =>
            match snd kv' with
            | Node _ => (fst st', set_nested (split_on "." (fst kv')) (snd kv') (snd st'))
            | Leaf _ => (dset text_dec (fst kv') (snd kv') (fst st'), snd st')
            end) items (flat, nested)
      | Leaf _ => (dset text_dec k v flat, nested)
      end
    else (dset text_dec k v flat, nested).
  Definition init_data (cls : text) (kwargs : dict) : dict :=
    let (flat, nested) := fold_left (init_entry cls) kwargs ([], []) in
    dupdate text_dec flat nested.
End Dicts.
Arguments dict : clear implicits.
