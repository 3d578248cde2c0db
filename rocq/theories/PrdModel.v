(** Model of what reading and writing elements of EMTF XML does to what they are given:
    /repo/mt_metadata/transfer_functions/io/emtfxml/metadata/processing_info.py 139-163 [ProcessingInfo.read_dict], site.py 322-362 [Site.to_xml] and
    orientation.py 60-88 [Orientation.to_xml].

    Contents of sections are texts; what the sections make of theirs, validation, and how numbers are written are not modelled. *)
From Coq Require Import ZArith QArith.
From Verif Require Import PyBase PyText.
Local Open Scope list_scope.

Definition contents : Type := list (text * text).
(** The elements of a file *)
Definition root : Type := list (text * contents).
(** processing_info.py 21-120: sections with readers of their own, and the other attributes *)
Record info : Type := mkInfo { remote_ref : option text; remote_info : option text; processing_software : option text; others : contents }.
Definition new_info : info := mkInfo None None None [].
(** [getattr(self, key).read_dict(...)] *)
Definition put (o : info) (key v : text) : info :=
  if text_dec key (txt "remote_ref") then mkInfo (Some v) (remote_info o) (processing_software o) (others o)
  else if text_dec key (txt "remote_info") then mkInfo (remote_ref o) (Some v) (processing_software o) (others o)
  else mkInfo (remote_ref o) (remote_info o) (Some v) (others o).
(** 156-161: [pop] takes the entry out of the dictionary. *)
Definition pop_one (po : contents * info) (key : text) : contents * info :=
  let '(p, o) := po in match dget text_dec key p with Some v => (ddel text_dec key p, put o key v) | None => (p, o) end.
Definition section_keys : list text := [txt "remote_ref"; txt "remote_info"; txt "processing_software"].
(** 163, helpers.py 124-143: what is left *)
Definition read_rest (o : info) (p : contents) : info :=
  mkInfo (remote_ref o) (remote_info o) (processing_software o) (fold_left (fun acc kv => dset text_dec (fst kv) (snd kv) acc) p (others o)).
(** 139-163: the dictionary as it is left, and the object *)
Definition read_dict (d : root) (o : info) : root * info :=
  match dget text_dec (txt "processing_info") d with
  | None => (d, o)
  | Some p =>
      let '(p', o') := fold_left pop_one section_keys (ddel text_dec (txt "field_notes") p, o) in
      (dset text_dec (txt "processing_info") p' d, read_rest o' p')
  end.

(** site.py: the times of a site; 322-362: the site afterwards and the times that are written *)
Record site : Type := mkSite { start : Z; end_ : Z }.
Definition site_to_xml (s : site) : site * (Z * Z) :=
  let s' := if (end_ s <? start s)%Z then mkSite (start s) (start s) else s in (s', (start s', end_ s')).
(** orientation.py 60-88: the orientation afterwards, and the layout and the angle that are written *)
Record orientation : Type := mkOrientation { layout : text; angle : option Q }.
Definition orientation_to_xml (o : orientation) : orientation * (text * option Q) :=
  if text_dec (layout o) (txt "orthogonal")
  then let o' := match angle o with None => mkOrientation (layout o) (Some 0%Q) | Some _ => o end in (o', (layout o', angle o'))
  else (o, (layout o, None)).
