(** Specification for C101: the filters of the channels of a network in StationXML. *)
From Verif Require Import PyBase PyText FnameModel.

(** A stage of a channel of the network. *)
Definition stage_of (chs : list (list fil)) (f : fil) : Prop := exists c, In c chs /\ In f c.
(** All of a filter but its name. *)
Definition same_content (f g : fil) : Prop :=
  fl_type f = fl_type g /\ fl_rate f = fl_rate g /\ fl_size f = fl_size g /\ fl_data f = fl_data g.
Definition types : list text := [txt "zpk"; txt "coefficient"; txt "time delay"; txt "fap"; txt "fir"].
Definition unnamed (f : fil) : Prop := fl_name f = [].
(** Names tell filters apart: with the rate of decimation, in lower case, "per" for a slash. *)
Definition names_tell (chs : list (list fil)) : Prop :=
  forall f g, stage_of chs f -> stage_of chs g -> ~ unnamed f -> ~ unnamed g ->
    key_of (full_name f) = key_of (full_name g) -> same_content f g.
(** Filters without a name are told apart from all others by their type and rounded amplitude. *)
Definition sizes_tell (chs : list (list fil)) : Prop :=
  forall f g, stage_of chs f -> stage_of chs g -> unnamed f ->
    fl_type f = fl_type g -> fl_size f = fl_size g -> same_content f g.
(** They do not decimate. *)
Definition undecimated (chs : list (list fil)) : Prop :=
  forall f, stage_of chs f -> unnamed f -> fl_rate f = None.
(** No name has one of their types in it. *)
Definition names_without_type (chs : list (list fil)) : Prop :=
  forall f g, stage_of chs f -> stage_of chs g -> unnamed f -> ~ unnamed g ->
    contains (fl_type f) (key_of (full_name g)) = false.
(** There are at most a hundred different ones of a type. *)
Definition at_most_hundred (chs : list (list fil)) : Prop :=
  forall t (l : list Z), NoDup l -> (forall z, In z l -> exists f, stage_of chs f /\ unnamed f /\ fl_type f = t /\ fl_size f = z) ->
    (length l <= 100)%nat.
Definition known_types (chs : list (list fil)) : Prop := forall f, stage_of chs f -> In (fl_type f) types.
(** The filter found under a name. *)
Definition finds (d : fdict) (k : text) (f : fil) : Prop := exists g, fget k d = Some g /\ same_content g f.
(** The filters of a channel are pairwise different. *)
Definition all_different (stages : list fil) : Prop := ForallOrdPairs (fun f g => ~ same_content f g) stages.
