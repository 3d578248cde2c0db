(** What is seen of an object. *)
From Verif Require Import PyBase PyText CpyModel.
Local Open Scope list_scope.

Inductive seen : Type := Nothing | APlain (p : text) | AnObject (attributes : list (text * text)) | AReference (p : text).
Definition look (h : memory) (v : value) : seen :=
  match v with VNone => Nothing | Plain p => APlain p | Obj l => AnObject (nth l h []) | Uncopyable p _ => AReference p end.
(** The value of an attribute, if there is one *)
Definition read (h : memory) (o : object) (k : text) : option seen := option_map (look h) (dget text_dec k o).
(** Nested objects are in memory *)
Definition in_memory (h : memory) (o : object) : Prop := forall k l, In (k, Obj l) o -> (l < length h)%nat.
Definition copyable (o : object) : Prop := forall k p b, ~ In (k, Uncopyable p b) o.
Definition no_objects (o : object) : Prop := forall k l, ~ In (k, Obj l) o.
(** The attributes that the storage format adds *)
Definition of_storage (k : text) : Prop := k = txt "hdf5_reference" \/ k = txt "mth5_type".
