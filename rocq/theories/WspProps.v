(** C135: weight specifications given as dictionaries. *)
From Verif Require Import PyBase PyText WspModel WspSpec WspProofs.
Local Open Scope list_scope.

Section C135.
Variables feature kernel : Type.
Notation pv := (pv feature kernel).
Notation PText := (PText feature kernel). Notation PList := (PList feature kernel). Notation PDict := (PDict feature kernel).
Notation PFeature := (PFeature feature kernel).
Notation mkFspec := (mkFspec feature kernel). Notation mkCspec := (mkCspec feature kernel).
Variable make_feature : fclass -> list (text * pv) -> result feature.
Variable make_kernel : kclass -> list (text * pv) -> option kernel.
Variable rest_ok : list (text * pv) -> option exn.
Variable show : pv -> text.
Notation make_fspec := (make_fspec feature kernel make_feature make_kernel rest_ok show).
Notation make_cspec := (make_cspec feature kernel make_feature make_kernel rest_ok show).
Notation validate_cspecs := (validate_cspecs feature kernel make_feature make_kernel rest_ok show).

(** A FeatureWeightSpec made of a dictionary has the feature its entry stands for, at any depth of wrapping, of the class its name names,
    and the kernels of its list, in order; and it is made exactly when there is such a specification. *)
Theorem C135_feature : forall d s, feature_bare feature kernel d ->
  (make_fspec d = Ok s <-> fspec_means feature kernel make_feature make_kernel rest_ok show d s).
Proof. intros d s H. now apply fspec_iff. Qed.

(** The same for the features of a ChannelWeightSpec, in their order. *)
Theorem C135_channel : forall d s, features_bare feature kernel d ->
  (make_cspec d = Ok s <-> cspec_means feature kernel make_feature make_kernel rest_ok show d s).
Proof. intros d s H. now apply cspec_iff. Qed.

(** The same for the channels of a DecimationLevel: one specification per entry, in order; anything else is refused. *)
Theorem C135_level : forall v l cs, listed feature kernel v l -> (forall e, In (PDict e) l -> features_bare feature kernel e) ->
  (validate_cspecs v = Ok cs <-> Forall2 (cspec_item feature kernel make_feature make_kernel rest_ok show) l cs).
Proof.
  intros v l cs Hl Hb. apply listed_iff in Hl. subst l.
  assert (K : mapR (validate_cspec feature kernel make_feature make_kernel rest_ok show) (as_list feature kernel v) = Ok cs <->
    Forall2 (cspec_item feature kernel make_feature make_kernel rest_ok show) (as_list feature kernel v) cs).
  { apply mapR_iff. intros x y Hx. apply cspec_item_iff. intros d ->. now apply Hb. }
  rewrite <- K. destruct v; try reflexivity; cbn; split; discriminate.
Qed.

(** What is no specification, list or dictionary raises TypeError. *)
Theorem C135_refused : forall v, (forall l, v <> PList l) -> (forall d, v <> PDict d) ->
  (forall s, v <> PCspec feature kernel s) -> validate_cspecs v = Err TypeError.
Proof. intros v H1 H2 H3. destruct v; try reflexivity; exfalso; [eapply H1|eapply H2|eapply H3]; reflexivity. Qed.

(** A feature object inside a dictionary is lost: a base feature is made of that dictionary. *)
Theorem C135_wrapped_object_refuted : forall f g, rest_ok [] = None -> make_feature FBase [(txt "feature", PFeature f)] = Ok g ->
  make_fspec [(txt "feature", PDict [(txt "feature", PFeature f)])] = Ok (mkFspec g [] []).
Proof. 
  intros f g Hr Hg. transitivity (bindR (make_feature FBase [(txt "feature", PFeature f)]) (fun g =>
    match rest_ok [] with Some e => Err e | None => Ok (mkFspec g [] []) end)); [reflexivity|]. rewrite Hg. cbn. now rewrite Hr.
 Qed.

(** The form that to_dict writes, and that the example file has, each specification under the name of its class, loses all of it. *)
Theorem C135_written_refuted : forall ds : list (list (text * pv)), (forall r, rest_ok r = None) ->
  validate_cspecs (PList (map (fun d => PDict [(txt "channel_weight_spec", PDict d)]) ds)) =
  Ok (map (fun d => mkCspec [] [(txt "channel_weight_spec", PDict d)]) ds).
Proof.
  intros ds Hr. cbn [WspModel.validate_cspecs]. induction ds as [|d ds IH]; [reflexivity|]. cbn [map mapR].
  rewrite IH. unfold validate_cspec, WspModel.make_cspec. cbn. now rewrite Hr.
Qed.
Theorem C135_written_feature_refuted : forall d g, (forall r, rest_ok r = None) -> make_feature FBase [] = Ok g ->
  make_fspec [(txt "feature_weight_spec", PDict d)] = Ok (mkFspec g [] [(txt "feature_weight_spec", PDict d)]).
Proof. intros d g Hr Hg. unfold WspModel.make_fspec. cbn. rewrite Hg. cbn. now rewrite Hr. Qed.
Theorem C135_written_kernels_refuted : forall ds d f, (forall r, rest_ok r = None) -> 
  (forall e, In e ds -> exists n, In n [txt "monotonic_weight_kernel"; txt "taper_monotonic_weight_kernel";
     txt "activation_monotonic_weight_kernel"] /\ exists i, e = PDict [(n, i)]) ->
  d = [(txt "feature", PFeature f); (txt "weight_kernels", PList ds)] -> make_fspec d = Ok (mkFspec f [] []).
Proof.
  intros ds d f Hr H ->.
  assert (K : validate_kernels feature kernel make_kernel show ds = Ok []).
  { induction ds as [|e ds IH]; [reflexivity|]. destruct (H e (or_introl eq_refl)) as [n [Hn [i ->]]].
    destruct Hn as [<-|[<-|[<-|[]]]]; cbn; apply IH; intros e' He'; apply H; now right. }
  unfold WspModel.make_fspec. cbn. rewrite K. cbn. now rewrite Hr.
Qed.

(** A name that is a list or a dictionary raises TypeError. *)
Theorem C135_name_refuted : forall v d n, wraps feature kernel v (PDict d) -> absent feature kernel (txt "feature") d ->
  entry feature kernel (txt "name") n d -> (exists l, n = PList l) \/ (exists l, n = PDict l) ->
  make_fspec [(txt "feature", v)] = Err TypeError.
Proof.
  intros v d n Hw Ha He Hn. unfold WspModel.make_fspec.
  assert (E : kget feature kernel (txt "feature") [(txt "feature", v)] = Some v) by reflexivity.
  rewrite E. unfold pre_process. rewrite (wraps_unwrap _ _ v (PDict d) Hw); [|intros q [= <-]; exact Ha].
  unfold name_of. apply entry_get in He. rewrite He. destruct Hn as [[l ->]|[l ->]]; reflexivity.
Qed.
End C135.

(** Concrete cases.  A feature is its class and the number of its entries; so is a kernel. *)
Definition mf (c : fclass) (d : list (text * pv (fclass * nat) (kclass * nat))) : result (fclass * nat) := Ok (c, length d).
Definition mk (c : kclass) (d : list (text * pv (fclass * nat) (kclass * nat))) : option (kclass * nat) := Some (c, length d).
Definition ro (d : list (text * pv (fclass * nat) (kclass * nat))) : option exn := None.
Definition sh (v : pv (fclass * nat) (kclass * nat)) : text := txt "None".
Definition ex_f : list (text * pv (fclass * nat) (kclass * nat)) :=
  [(txt "feature", PDict _ _ [(txt "feature", PDict _ _ [(txt "name", PText _ _ (txt "fc_coherence")); (txt "channel_1", PText _ _ (txt "ex"))])]);
   (txt "weight_kernels", PList _ _ [PDict _ _ [(txt "weight_kernel", PDict _ _ [(txt "style", PText _ _ (txt "taper"))])];
      PDict _ _ [(txt "style", PText _ _ (txt "none")); (txt "weight_type", PText _ _ (txt "activation"))]; PDict _ _ []]);
   (txt "feature_name", PText _ _ (txt "coherence"))].
Example C135_feature_hyp : feature_bare _ _ ex_f /\
  make_fspec _ _ mf mk ro sh ex_f = Ok (mkFspec _ _ (FFcCoherence, 2) [(KTaper, 1); (KActivation, 2)] [(txt "feature_name", PText _ _ (txt "coherence"))]).
Proof.
  split; [|reflexivity]. intros v x He Hw. apply entry_get in He. injection He as <-.
  left. inversion Hw as [|d y z H1 H2]; subst; [eauto|]. apply entry_get in H1. injection H1 as <-.
  inversion H2 as [|d' y' z' H3 H4]; subst; [eauto|]. apply entry_get in H3. discriminate H3.
Qed.
Example C135_channel_hyp : make_cspec _ _ mf mk ro sh [(txt "feature_weight_specs", PDict _ _ ex_f); (txt "combination_style", PText _ _ (txt "mean"))] =
  Ok (mkCspec _ _ [mkFspec _ _ (FFcCoherence, 2) [(KTaper, 1); (KActivation, 2)] [(txt "feature_name", PText _ _ (txt "coherence"))]]
     [(txt "combination_style", PText _ _ (txt "mean"))]).
Proof. reflexivity. Qed.
Example C135_level_hyp : validate_cspecs _ _ mf mk ro sh (PList _ _ [PDict _ _ [(txt "feature_weight_specs", PList _ _ [PDict _ _ ex_f; PDict _ _ []])];
    PCspec _ _ (mkCspec _ _ [] [])]) =
  Ok [mkCspec _ _ [mkFspec _ _ (FFcCoherence, 2) [(KTaper, 1); (KActivation, 2)] [(txt "feature_name", PText _ _ (txt "coherence"))];
     mkFspec _ _ (FBase, 0) [] []] []; mkCspec _ _ [] []].
Proof. reflexivity. Qed.
Example C135_written_hyp : validate_cspecs _ _ mf mk ro sh (PList _ _ [PDict _ _ [(txt "channel_weight_spec", PDict _ _
    [(txt "feature_weight_specs", PList _ _ [PDict _ _ ex_f])])]]) =
  Ok [mkCspec _ _ [] [(txt "channel_weight_spec", PDict _ _ [(txt "feature_weight_specs", PList _ _ [PDict _ _ ex_f])])]].
Proof. reflexivity. Qed.
Example C135_wrapped_object_hyp : make_fspec _ _ mf mk ro sh [(txt "feature", PDict _ _ [(txt "feature", PFeature _ _ (FCoherence, 5))])] =
  Ok (mkFspec _ _ (FBase, 1) [] []).
Proof. reflexivity. Qed.
Example C135_name_hyp : make_fspec _ _ mf mk ro sh [(txt "feature", PDict _ _ [(txt "name", PList _ _ [])])] = Err TypeError.
Proof. reflexivity. Qed.
Print Assumptions C135_feature. Print Assumptions C135_level. Print Assumptions C135_written_kernels_refuted. Print Assumptions C135_name_refuted.
