(** The field trees of metadata classes and their caches.

    mt_metadata/base/pydantic_helpers.py: get_all_fields_serializable (90-143), _compute_fields_tree (207-252), _model_fingerprint (704-752),
    _disk_cache_path (755-772), _load_fields_from_disk (775-800), _save_fields_to_disk (803-828), flatten_field_tree_map (146-189),
    clear_field_caches (192-199); mt_metadata/base/metadata.py: get_all_fields (696-713). *)
From Verif Require Import PyBase PyText PyFacts PyJson.
From Verif Require JfileModel.
Local Open Scope nat_scope.

(** A class as these functions see it.  Simplified: what a field's annotation resolves to (_extract_base_type, _is_basemodel_subclass) and a
    simple field's summary (_to_serializable_field, 327-383: type, default, description, enumeration, examples, validators, constraints) are given. *)
Inductive kind (cls : Type) : Type :=
| Simple (summary : json)
| Class (c : cls).
Arguments Simple {cls}. Arguments Class {cls}.
Record field (cls : Type) : Type := mkField {
  f_name : text;
  f_deprecated : option text;    (* repr of deprecated, None when it is not *)
  f_annotation : text;           (* repr *)
  f_default : text;              (* repr *)
  f_extra : text;                (* json_schema_extra, dumped *)
  f_kind : kind cls }.
Arguments mkField {cls}. Arguments f_name {cls}. Arguments f_deprecated {cls}. Arguments f_annotation {cls}. Arguments f_default {cls}. Arguments f_extra {cls}. Arguments f_kind {cls}.
Record class (cls : Type) : Type := mkClass { c_fqname : text; c_fields : list (field cls) }.
Arguments mkClass {cls}. Arguments c_fqname {cls}. Arguments c_fields {cls}.

(** What a write leaves behind: all of it, its first characters (an error after the file was opened for writing), nothing (it could not be opened). *)
Inductive written := Whole | Cut (n : nat) | Untouched.

Section Cache.
Variable cls : Type.
Variable cls_dec : forall a b : cls, {a = b} + {a <> b}.
Variable table : cls -> class cls.
(** the version of pydantic and SHA-256 *)
Variable version : text.
Variable digest : list (text * list (option text)) -> text.
(** the recursion limit of Python *)
Variable limit : nat.

(** parts and sorted(parts), _model_fingerprint 725-751: names differ, so the order is that of the names. *)
Definition part (f : field cls) : text * list (option text) := (f_name f, [f_deprecated f; Some (f_annotation f); Some (f_default f); Some (f_extra f)]).
Fixpoint insert_part (p : text * list (option text)) (l : list (text * list (option text))) : list (text * list (option text)) :=
  match l with
  | [] => [p]
  | q :: r => if JfileModel.text_leb (fst p) (fst q) then p :: l else q :: insert_part p r
  end.
Definition fingerprint (c : cls) : text := digest (fold_right insert_part [] (map part (c_fields (table c)))).
(** _disk_cache_path 769-772, without the directory *)
Definition path (c : cls) : text := (c_fqname (table c) ++ txt "__pyd" ++ version ++ txt "__" ++ fingerprint c ++ txt ".json")%list.

(** The world: _FIELDS_TREE_CACHE, the files of the cache directory, MT_METADATA_DISABLE_DISK_CACHE of the running process, and a clock that
    counts the steps.  What other processes do to the files just before step n is [others n]: a file and its new text, or None when it is gone.
    [fails n] is an exception raised at step n (an interrupt, a cache directory that cannot be made); [writes n] is what the write of step n leaves. *)
Record world := mkWorld { w_mem : list (cls * json); w_disk : list (text * text); w_off : bool; w_clock : nat }.
Variable others : nat -> list (text * option text).
Variable fails : nat -> option exn.
Variable writes : nat -> written.

Fixpoint remove (p : text) (d : list (text * text)) : list (text * text) :=
  match d with
  | [] => []
  | (q, t) :: r => if text_dec p q then remove p r else (q, t) :: remove p r
  end.
Definition disturb (d : list (text * text)) (ch : text * option text) : list (text * text) :=
  match snd ch with Some t => dset text_dec (fst ch) t d | None => remove (fst ch) d end.
Definition tick (w : world) : world := mkWorld (w_mem w) (fold_left disturb (others (w_clock w)) (w_disk w)) (w_off w) (S (w_clock w)).
Definition remember (c : cls) (j : json) (w : world) : world := mkWorld (dset cls_dec c j (w_mem w)) (w_disk w) (w_off w) (w_clock w).

(** _load_fields_from_disk 794-800: any error of reading is None, and so is the value null; the path may not be had, which is not caught. *)
Definition load (w : world) (c : cls) : world * result (option json) :=
  let w' := tick w in
  match fails (w_clock w) with
  | Some e => (w', Err e)
  | None =>
      (w', Ok match dget text_dec (path c) (w_disk w') with
              | None => None
              | Some t => match loads t with Ok JNull => None | Ok j => Some j | Err _ => None end
              end)
  end.
(** _save_fields_to_disk 822-828: json.dump(tree, f, indent=2, ensure_ascii=False). *)
Definition save (w : world) (c : cls) (tree : json) : world * result unit :=
  let w' := tick w in
  match fails (w_clock w) with
  | Some e => (w', Err e)
  | None =>
      let full := dumps false (txt "  ") tree in
      let put t := mkWorld (w_mem w') (dset text_dec (path c) t (w_disk w')) (w_off w') (w_clock w') in
      (match writes (w_clock w) with Whole => put full | Cut n => put (firstn n full) | Untouched => w' end, Ok tt)
  end.

(** _compute_fields_tree 233-252; an exception may come while a field is summarised. *)
Fixpoint compute (get : world -> cls -> world * result json) (w : world) (fs : list (field cls)) (out : list (text * json)) : world * result (list (text * json)) :=
  match fs with
  | [] => (w, Ok out)
  | f :: r =>
      match f_deprecated f with
      | Some _ => compute get w r out
      | None =>
          match f_kind f with
          | Class d =>
              match get w d with
              | (w', Err e) => (w', Err e)
              | (w', Ok tree) => compute get w' r (dset text_dec (f_name f) tree out)
              end
          | Simple s =>
              match fails (w_clock w) with
              | Some e => (tick w, Err e)
              | None => compute get (tick w) r (dset text_dec (f_name f) s out)
              end
          end
      end
  end.
(** get_all_fields_serializable 115-143. *)
Fixpoint get (fuel : nat) (w : world) (c : cls) : world * result json :=
  match fuel with
  | O => (w, Err OutOfFuel)
  | S fuel' =>
      match dget cls_dec c (w_mem w) with
      | Some tree => (w, Ok tree)
      | None =>
          match (if w_off w then (w, Ok None) else load w c) with
          | (w1, Err e) => (w1, Err e)
          | (w1, Ok (Some disk)) => (remember c disk w1, Ok disk)
          | (w1, Ok None) =>
              match compute (get fuel') (remember c (JObj []) w1) (c_fields (table c)) [] with
              | (w2, Err e) => (w2, Err e)
              | (w2, Ok l) =>
                  let w3 := remember c (JObj l) w2 in
                  if w_off w3 then (w3, Ok (JObj l))
                  else match save w3 c (JObj l) with
                       | (w4, Err e) => (w4, Err e)
                       | (w4, Ok tt) => (w4, Ok (JObj l))
                       end
              end
          end
      end
  end.

(** What happens to a cache: a question, clear_field_caches (192-199), a new process (after an exit or a crash; a crash in the middle of a
    question leaves the files as that question does when its later writes are Untouched). *)
Inductive event := Ask (c : cls) | Clear | Start (off : bool).
Definition answer : Type := event * option (result json).
Definition step (w : world) (e : event) : world * option (result json) :=
  match e with
  | Ask c => let '(w', r) := get limit w c in (w', Some r)
  | Clear => (mkWorld [] (w_disk w) (w_off w) (w_clock w), None)
  | Start off => (mkWorld [] (w_disk w) off (w_clock w), None)
  end.
Fixpoint run (w : world) (h : list event) : list answer :=
  match h with
  | [] => []
  | e :: r => let '(w', a) := step w e in (e, a) :: run w' r
  end.
End Cache.

(** flatten_field_tree_map 171-189; node.get("__field__") is True *)
Definition is_leaf (node : json) : bool :=
  match node with JObj l => match dget text_dec (txt "__field__") l with Some (JBool true) => true | _ => false end | _ => false end.
Definition dotted (prefix name : text) : text := match prefix with [] => name | _ => (prefix ++ "."%char :: name)%list end.
Fixpoint flatten (prefix : text) (tree : json) : list (text * json) :=
  match tree with
  | JObj l =>
      fold_left (fun out kv =>
        if is_leaf (snd kv) then dset text_dec (dotted prefix (fst kv)) (snd kv) out
        else fold_left (fun o pv => dset text_dec (fst pv) (snd pv) o) (flatten (dotted prefix (fst kv)) (snd kv)) out) l []
  | _ => []
  end.
(** get_all_fields (metadata.py 709-713), on a tree *)
Definition all_fields (tree : json) : list (text * json) := flatten [] tree.
