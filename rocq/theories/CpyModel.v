(** Model of copying metadata objects: /repo/mt_metadata/base/metadata.py 614-694 [MetadataBase.copy].

    An object is its attributes in order; a value is None, a plain value that cannot be changed, another object, which is a place in memory, or something that cannot be
    copied deeply, with the kind of error that tells so.  Nested objects have plain attributes only: deeper nesting is not modelled, nor is the split of attributes into
    fields and extra attributes of pydantic. *)
From Verif Require Import PyBase PyText.
Local Open Scope list_scope.

Inductive value : Type := VNone | Plain (p : text) | Obj (place : nat) | Uncopyable (p : text) (known_message : bool).
Definition cell : Type := list (text * text).
Definition memory : Type := list cell.
Definition object : Type := list (text * value).

(** [copy.deepcopy] of the attributes, as pydantic's [__deepcopy__] calls it: an object met before is not copied again ([memo]).  The error says with [true] that its message
    has "no default __reduce__" or "__cinit__" in it. *)
Fixpoint deep_copy (h : memory) (memo : list (nat * nat)) (o : object) : (memory * object) + bool :=
  match o with
  | [] => inl (h, [])
  | (k, v) :: r =>
      match v with
      | Obj l =>
          match List.find (fun m => Nat.eqb (fst m) l) memo with
          | Some (_, l') => match deep_copy h memo r with inl (h', r') => inl (h', (k, Obj l') :: r') | inr e => inr e end
          | None => match deep_copy (h ++ [nth l h []]) ((l, length h) :: memo) r with inl (h', r') => inl (h', (k, Obj (length h)) :: r') | inr e => inr e end
          end
      | Uncopyable _ known => inr known
      | _ => match deep_copy h memo r with inl (h', r') => inl (h', (k, v) :: r') | inr e => inr e end
      end
  end.
(** [update] of attributes *)
Definition set_all (update : object) (o : object) : object := fold_left (fun acc kv => dset text_dec (fst kv) (snd kv) acc) update o.
(** pydantic's [model_copy]: first the copy, then the updates, without validation. *)
Definition model_copy (h : memory) (o update : object) (deep : bool) : (memory * object) + bool :=
  match (if deep then deep_copy h [] o else inl (h, o)) with inl (h', c) => inl (h', set_all update c) | inr e => inr e end.
(** 657-674: what is added to the updates *)
Definition held (o : object) (k : text) : option value := match dget text_dec k o with Some VNone => None | v => v end.
Definition full_update (o update : object) (deep : bool) : object :=
  let u := if deep then match held o (txt "hdf5_reference") with Some _ => dset text_dec (txt "hdf5_reference") VNone update | None => update end else update in
  match held o (txt "mth5_type") with Some v => dset text_dec (txt "mth5_type") v u | None => u end.
(** 686-688: only attributes that the new object has *)
Definition set_present (update : object) (o : object) : object :=
  fold_left (fun acc kv => match dget text_dec (fst kv) acc with Some _ => dset text_dec (fst kv) (snd kv) acc | None => acc end) update o.
(** 614-694.  [rebuild] makes a new object of the class and reads the dictionary of this one into it (680-682). *)
Definition copy (rebuild : memory -> object -> memory * object) (h : memory) (o update : object) (deep : bool) : result (memory * object) :=
  let u := full_update o update deep in
  match model_copy h o u deep with
  | inl r => Ok r
  | inr true => let '(h', n) := rebuild h o in Ok (h', set_present u n)
  | inr false => Err TypeError
  end.

(** [setattr(o.k, a, p)] of a nested object *)
Definition set_nested (h : memory) (o : object) (k a p : text) : memory :=
  match dget text_dec k o with
  | Some (Obj l) => map (fun ic => if Nat.eqb (fst ic) l then dset text_dec a p (snd ic) else snd ic) (combine (seq 0 (length h)) h)
  | _ => h
  end.
