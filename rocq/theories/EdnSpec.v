(** What the notes of an EDI object should carry. *)
From Verif Require Import PyBase PyText EdnModel.
Local Open Scope list_scope.

Definition mentions (w k : text) : Prop := exists a b, k = a ++ w ++ b.
Definition begins (w k : text) : Prop := exists b, k = w ++ b.
Definition small (k : text) : Prop := forall c, In c k -> is_upper c = false.
(** Values that are written: neither None nor one of the words for nothing, nor the default time *)
Definition nothing : list text :=
  [[]; txt "null"; txt "None"; txt "NONE"; txt "NULL"; txt "Null"; txt "none"; txt "1980-01-01T00:00:00"; txt "1980-01-01T00:00:00+00:00"].
Definition is_given (v : value) : bool := match v with VNone => false | VText s => if in_dec text_dec s nothing then false else true | _ => true end.
Definition given (v : value) : Prop := is_given v = true.
Definition given_fields (fs : list (text * value)) : list (text * value) := filter (fun kv => is_given (snd kv)) fs.

(** A field of the transfer function that is read by its name *)
Definition tf_field (k : text) : Prop :=
  small k /\ forall w, In w [txt "provenance"; txt "transfer_function."; txt "processing_parameters"; txt "remote_references"; txt "runs_processed"] -> ~ mentions w k.
(** Name of a parameter *)
Definition parameter_name (n : text) : Prop := ~ In "."%char n /\ ~ In "="%char n /\ ~ mentions (txt "provenance") (lower n).
Definition as_parameter (nv : text * text) : text := fst nv ++ txt "=" ++ snd nv.
(** A note that says nothing to a station *)
Definition calm (k : text) : Prop :=
  (forall w, In w [txt "provenance"; txt "transfer_function"; txt "processing."; txt "mtft"; txt "emtf"; txt "mtedit"] -> ~ mentions w (lower k)) /\
  (forall w, In w [txt "run."; txt "data_logger"; txt "station."] -> ~ begins w (lower k)) /\
  (forall w, In w [txt "processedby"; txt "processed_by"; txt "runlist"; txt "run_list"; txt "sitename"; txt "signconvention"] -> lower k <> w).
(** The notes of runs and channels: the id of the run, the component and the name of the field, with dots *)
Definition run_note (r : run) (k : text) : Prop :=
  (exists f v, In (f, v) (r_fields r) /\ k = r_id r ++ txt "." ++ f) \/
  (exists c fs f v, In (c, fs) (r_channels r) /\ In (f, v) fs /\ k = r_id r ++ txt "." ++ c ++ txt "." ++ f).

(** What is read: the parameters, the remote references and the other fields of the transfer function *)
Definition the_field (name : text) (fs : list (text * value)) : list text :=
  flat_map (fun kv => if text_dec (fst kv) name then match snd kv with VList l => l | _ => [] end else []) fs.
Definition other_fields (fs : list (text * value)) : list (text * value) :=
  filter (fun kv => if in_dec text_dec (fst kv) [txt "processing_parameters"; txt "remote_references"; txt "runs_processed"] then false else true) (given_fields fs).

Section Readable.
Variable refuse : place -> text -> value -> option exn.
Definition parameters_given (v : value) : Prop :=
  exists ps, v = VList (map as_parameter ps) /\ NoDup (map fst ps) /\ forall n x, In (n, x) ps -> parameter_name n /\ given (VText x).
Definition readable_tf (fs : list (text * value)) : Prop :=
  NoDup (map fst fs) /\
  forall k v, In (k, v) fs -> given v ->
    (k = txt "processing_parameters" /\ parameters_given v) \/ (k = txt "remote_references" /\ exists l, v = VList l) \/ k = txt "runs_processed" \/
    (tf_field k /\ refuse OfTF k v = None).
Definition readable_provenance (fs : list (text * value)) : Prop :=
  NoDup (map fst fs) /\ forall k v, In (k, v) fs -> given v -> small k /\ refuse OfStation (txt "provenance." ++ k) v = None.
End Readable.
(** The name of a parameter in small letters *)
Definition small_name (nv : text * text) : text * text := (lower (fst nv), snd nv).
