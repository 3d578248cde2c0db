(** What a weight specification given as a dictionary should become. *)
From Verif Require Import PyBase PyText WspModel.
Local Open Scope list_scope.

Section Spec.
Variables feature kernel : Type.
Notation pv := (pv feature kernel).
Notation fspec := (fspec feature kernel).
Notation cspec := (cspec feature kernel).
Notation PText := (PText feature kernel). Notation PList := (PList feature kernel). Notation PDict := (PDict feature kernel).
Notation PFeature := (PFeature feature kernel). Notation PKernel := (PKernel feature kernel).
Notation PFspec := (PFspec feature kernel). Notation PCspec := (PCspec feature kernel).
Notation mkFspec := (mkFspec feature kernel). Notation mkCspec := (mkCspec feature kernel).
Variable make_feature : fclass -> list (text * pv) -> result feature.
Variable make_kernel : kclass -> list (text * pv) -> option kernel.
Variable rest_ok : list (text * pv) -> option exn.
Variable show : pv -> text.

(** The value a dictionary holds under a key. *)
Definition entry (k : text) (v : pv) (d : list (text * pv)) : Prop :=
  exists d1 d2, d = d1 ++ (k, v) :: d2 /\ ~ In k (map fst d1).
Definition absent (k : text) (d : list (text * pv)) : Prop := ~ In k (map fst d).

(** [v] is [x] inside any number of dictionaries, each under the key "feature". *)
Inductive wraps : pv -> pv -> Prop :=
| wraps_none x : wraps x x
| wraps_one d y x : entry (txt "feature") y d -> wraps y x -> wraps (PDict d) x.

(** The classes and their names. *)
Inductive feature_named : text -> fclass -> Prop :=
| fn_base : feature_named (txt "base") FBase
| fn_coherence : feature_named (txt "coherence") FCoherence
| fn_fc : feature_named (txt "fc_coherence") FFcCoherence
| fn_striding : feature_named (txt "striding_window_coherence") FStriding.
Inductive kernel_named : text -> kclass -> Prop :=
| kn_monotonic : kernel_named (txt "monotonic") KMonotonic
| kn_taper : kernel_named (txt "taper") KTaper
| kn_activation : kernel_named (txt "activation") KActivation.

(** The class of the feature a dictionary describes: the one its name names; the base class when it names none. *)
Inductive class_for (d : list (text * pv)) : fclass -> Prop :=
| cf_named s c : entry (txt "name") (PText s) d -> feature_named s c -> class_for d c
| cf_unknown s : entry (txt "name") (PText s) d -> (forall c, ~ feature_named s c) -> class_for d FBase
| cf_unnamed : absent (txt "name") d -> class_for d FBase
| cf_other v : entry (txt "name") v d -> (forall s, v <> PText s) -> (forall l, v <> PList l) -> (forall l, v <> PDict l) ->
               class_for d FBase.

(** The feature an entry stands for: itself, or the one made of the dictionary. *)
Inductive feature_means : pv -> feature -> Prop :=
| fm_object f : feature_means (PFeature f) f
| fm_dict v d c f : wraps v (PDict d) -> absent (txt "feature") d -> class_for d c -> make_feature c d = Ok f -> feature_means v f.

(** The text of an entry, empty when there is none. *)
Inductive text_under (k : text) (d : list (text * pv)) : text -> Prop :=
| tu_text s : entry k (PText s) d -> text_under k d s
| tu_shown v : entry k v d -> (forall s, v <> PText s) -> text_under k d (show v)
| tu_absent : absent k d -> text_under k d [].
(** The class of a kernel: the one its style names, else the one its weight type names. *)
Inductive kclass_for (d : list (text * pv)) : kclass -> Prop :=
| kc_style s c : text_under (txt "style") d s -> kernel_named s c -> kclass_for d c
| kc_type s s' c : text_under (txt "style") d s -> (forall c', ~ kernel_named s c') ->
                   text_under (txt "weight_type") d s' -> kernel_named s' c -> kclass_for d c.
(** The dictionary of a kernel, as such or under "weight_kernel". *)
Inductive kernel_dict : pv -> list (text * pv) -> Prop :=
| kd_plain d : absent (txt "weight_kernel") d -> kernel_dict (PDict d) d
| kd_wrapped d d' : entry (txt "weight_kernel") (PDict d') d -> kernel_dict (PDict d) d'.
Inductive kernel_object : pv -> kernel -> Prop :=
| ko_plain k : kernel_object (PKernel k) k
| ko_wrapped d k : entry (txt "weight_kernel") (PKernel k) d -> kernel_object (PDict d) k.
(** The kernels a list stands for; those that cannot be made are left out. *)
Inductive kernels_mean : list pv -> list kernel -> Prop :=
| km_nil : kernels_mean [] []
| km_object v k r ks : kernel_object v k -> kernels_mean r ks -> kernels_mean (v :: r) (k :: ks)
| km_dict v d c k r ks : kernel_dict v d -> kclass_for d c -> make_kernel c d = Some k -> kernels_mean r ks ->
                         kernels_mean (v :: r) (k :: ks)
| km_skip v d r ks : kernel_dict v d -> (forall c, kclass_for d c -> make_kernel c d = None) -> kernels_mean r ks ->
                     kernels_mean (v :: r) ks.

(** A list is its entries; anything else stands for a list of one. *)
Inductive listed : pv -> list pv -> Prop :=
| li_list l : listed (PList l) l
| li_one v : (forall l, v <> PList l) -> listed v [v].

(** The other entries of a dictionary. *)
Inductive remain (fields : list text) : list (text * pv) -> list (text * pv) -> Prop :=
| re_nil : remain fields [] []
| re_skip k v d r : In k fields -> remain fields d r -> remain fields ((k, v) :: d) r
| re_keep k v d r : ~ In k fields -> remain fields d r -> remain fields ((k, v) :: d) ((k, v) :: r).

(** The specification of the weights of a feature that a dictionary stands for. *)
Inductive fspec_means (d : list (text * pv)) : fspec -> Prop :=
| fsm f ks rest :
    ((exists v, entry (txt "feature") v d /\ feature_means v f) \/ (absent (txt "feature") d /\ make_feature FBase [] = Ok f)) ->
    ((exists v l, entry (txt "weight_kernels") v d /\ listed v l /\ kernels_mean l ks) \/ (absent (txt "weight_kernels") d /\ ks = [])) ->
    remain [txt "feature"; txt "weight_kernels"] d rest -> rest_ok rest = None -> fspec_means d (mkFspec f ks rest).
Inductive fspec_item : pv -> fspec -> Prop :=
| fi_object s : fspec_item (PFspec s) s
| fi_dict d s : fspec_means d s -> fspec_item (PDict d) s.
(** The weights of a channel. *)
Inductive cspec_means (d : list (text * pv)) : cspec -> Prop :=
| csm fs rest :
    ((exists v l, entry (txt "feature_weight_specs") v d /\ listed v l /\ Forall2 fspec_item l fs) \/
     (absent (txt "feature_weight_specs") d /\ fs = [])) ->
    remain [txt "feature_weight_specs"] d rest -> rest_ok rest = None -> cspec_means d (mkCspec fs rest).
Inductive cspec_item : pv -> cspec -> Prop :=
| ci_object s : cspec_item (PCspec s) s
| ci_dict d s : cspec_means d s -> cspec_item (PDict d) s.

(** A feature object is not put inside dictionaries. *)
Definition feature_bare (d : list (text * pv)) : Prop :=
  forall v x, entry (txt "feature") v d -> wraps v x -> (exists e, x = PDict e) \/ x = v.
Definition features_bare (d : list (text * pv)) : Prop :=
  forall v l e, entry (txt "feature_weight_specs") v d -> listed v l -> In (PDict e) l -> feature_bare e.
End Spec.
