(** Proofs about WspModel. *)
From Verif Require Import PyBase PyText WspModel WspSpec.
Local Open Scope list_scope.

Section Proofs.
Variables feature kernel : Type.
Notation pv := (pv feature kernel).
Notation PText := (PText feature kernel). Notation PList := (PList feature kernel). Notation PDict := (PDict feature kernel).
Notation PFeature := (PFeature feature kernel). Notation PKernel := (PKernel feature kernel).
Notation entry := (entry feature kernel). Notation absent := (absent feature kernel).
Notation wraps := (wraps feature kernel).
Notation kget := (kget feature kernel).
Notation unwrap := (unwrap feature kernel). Notation unwrap_dicts := (unwrap_dicts feature kernel).
Variable make_feature : fclass -> list (text * pv) -> result feature.
Variable make_kernel : kclass -> list (text * pv) -> option kernel.
Variable rest_ok : list (text * pv) -> option exn.
Variable show : pv -> text.

Lemma entry_get : forall k v d, entry k v d <-> kget k d = Some v.
Proof.
  intros k v d; unfold WspModel.kget; split.
  - intros (d1 & d2 & -> & H); induction d1 as [|[a x] d1 IH]; cbn in *.
    + destruct (text_dec k k); [reflexivity|congruence].
    + destruct (text_dec k a) as [<-|]; [exfalso; apply H; now left|apply IH; intros K; apply H; now right].
  - induction d as [|[a x] d IH]; cbn; [discriminate|]. destruct (text_dec k a) as [<-|Hn].
    + intros [= ->]. exists [], d. split; [reflexivity|intros []].
    + intros H. destruct (IH H) as (d1 & d2 & -> & Hd). exists ((a, x) :: d1), d2. split; [reflexivity|].
      cbn. intros [K|K]; [now apply Hn|now apply Hd].
Qed.
Lemma absent_get : forall k d, absent k d <-> kget k d = None.
Proof.
  intros k d; unfold WspModel.kget, WspSpec.absent; induction d as [|[a x] d IH]; cbn; [split; [reflexivity|intros _ []]|].
  destruct (text_dec k a) as [<-|Hn]; split; intros H.
  - exfalso; apply H; now left.
  - discriminate.
  - apply IH; intros K; apply H; now right.
  - intros [K|K]; [now apply Hn|]. now apply IH in H.
Qed.
Lemma unwrap_eq : forall d, unwrap (PDict d) = match kget (txt "feature") d with Some x => unwrap x | None => PDict d end.
Proof.
  intros d. unfold WspModel.kget.
  enough (H : forall v l, (fix go (l : list (text * pv)) : pv :=
     match l with [] => v | (k, x) :: r => if text_dec k (txt "feature") then unwrap x else go r end) l =
     match dget text_dec (txt "feature") l with Some x => unwrap x | None => v end) by exact (H (PDict d) d).
  intros v l; induction l as [|[k x] l IH]; [reflexivity|]. cbn [dget].
  destruct (text_dec k (txt "feature")) as [E|E], (text_dec (txt "feature") k) as [E'|E']; congruence.
Qed.
Lemma unwrap_dicts_eq : forall d, unwrap_dicts (PDict d) =
  match kget (txt "feature") d with Some x => if is_dict _ _ x then unwrap_dicts x else PDict d | None => PDict d end.
Proof.
  intros d. unfold WspModel.kget.
  enough (H : forall v l, (fix go (l : list (text * pv)) : pv :=
     match l with [] => v | (k, x) :: r => if text_dec k (txt "feature") then (if is_dict _ _ x then unwrap_dicts x else v) else go r end) l =
     match dget text_dec (txt "feature") l with Some x => if is_dict _ _ x then unwrap_dicts x else v | None => v end) by exact (H (PDict d) d).
  intros v l; induction l as [|[k x] l IH]; [reflexivity|]. cbn [dget].
  destruct (text_dec k (txt "feature")) as [E|E], (text_dec (txt "feature") k) as [E'|E']; congruence.
Qed.
(** What is inside all dictionaries. *)
Definition bare (x : pv) : Prop := forall d, x = PDict d -> absent (txt "feature") d.
Lemma wraps_unwrap : forall v x, wraps v x -> bare x -> unwrap v = x.
Proof.
  intros v x H; induction H as [x|d y x He Hw IH]; intros Hb.
  - destruct x; try reflexivity. rewrite unwrap_eq.
    specialize (Hb d eq_refl). apply absent_get in Hb. now rewrite Hb.
  - rewrite unwrap_eq. apply entry_get in He. rewrite He. now apply IH.
Qed.
Lemma wraps_unwrap_dicts : forall v d, wraps v (PDict d) -> absent (txt "feature") d -> unwrap_dicts v = PDict d.
Proof.
  intros v d H Ha. remember (PDict d) as x eqn:Ex. induction H as [x|e y x He Hw IH]; subst.
  - rewrite unwrap_dicts_eq. apply absent_get in Ha. now rewrite Ha.
  - rewrite unwrap_dicts_eq. apply entry_get in He. rewrite He. rewrite (IH eq_refl).
    inversion Hw; subst; reflexivity.
Qed.
Fixpoint size (v : pv) : nat :=
  match v with
  | WspModel.PDict _ _ d => S ((fix go (l : list (text * pv)) : nat := match l with [] => 0 | p :: r => size (snd p) + go r end) d)
  | _ => 0
  end.
Lemma size_entry : forall d v, kget (txt "feature") d = Some v -> size v < size (PDict d).
Proof.
  unfold WspModel.kget. intros d v H. cbn [size].
  enough (size v <= (fix go (l : list (text * pv)) : nat := match l with [] => 0 | p :: r => size (snd p) + go r end) d) by lia.
  revert H; induction d as [|[k x] d IH]; [discriminate|]. cbn [dget].
  destruct (text_dec (txt "feature") k); [intros [= ->]; cbn; lia|intros H; specialize (IH H); cbn [snd]; lia].
Qed.
Lemma unwrap_wraps : forall n v, size v < n -> wraps v (unwrap v) /\ bare (unwrap v).
Proof.
  induction n as [|n IH]; intros v Hn; [lia|].
  destruct v; try (split; [apply wraps_none|intros e He; discriminate]).
  rewrite unwrap_eq. destruct (kget (txt "feature") d) as [x|] eqn:E.
  - pose proof (size_entry d x E). destruct (IH x) as [H1 H2]; [lia|]. split; [|exact H2].
    eapply wraps_one; [apply entry_get; exact E|exact H1].
  - split; [apply wraps_none|]. intros e [= <-]. now apply absent_get.
Qed.

Lemma feature_named_get : forall s c, feature_named s c <-> dget text_dec s feature_classes = Some c.
Proof.
  intros s c; split; [intros []; reflexivity|]. unfold feature_classes; cbn [dget].
  repeat (match goal with |- context [text_dec s ?t] => destruct (text_dec s t) as [->|] end;
    [intros [= <-]; constructor|]). discriminate.
Qed.
Lemma kernel_named_get : forall s c, kernel_named s c <-> dget text_dec s weight_classes = Some c.
Proof.
  intros s c; split; [intros []; reflexivity|]. unfold weight_classes; cbn [dget].
  repeat (match goal with |- context [text_dec s ?t] => destruct (text_dec s t) as [->|] end;
    [intros [= <-]; constructor|]). discriminate.
Qed.

Notation class_named := (class_named feature kernel). Notation name_of := (name_of feature kernel).
Notation class_for := (class_for feature kernel). Notation hashable := (hashable feature kernel).
Definition class_of_name (d : list (text * pv)) : fclass := match class_named (name_of d) with Some c => c | None => FBase end.
Lemma class_for_iff : forall d c, class_for d c <-> hashable (name_of d) = true /\ class_of_name d = c.
Proof.
  intros d c. unfold class_of_name, WspModel.name_of. split.
  - intros [s c' He Hn|s He Hn|Ha|v He H1 H2 H3].
    + apply entry_get in He. rewrite He. apply feature_named_get in Hn. cbn [WspModel.class_named WspModel.hashable]. now rewrite Hn.
    + apply entry_get in He. rewrite He. split; [reflexivity|]. cbn [WspModel.class_named].
      destruct (dget text_dec s feature_classes) as [c'|] eqn:E; [|reflexivity].
      apply feature_named_get in E. now apply Hn in E.
    + apply absent_get in Ha. rewrite Ha. now split.
    + apply entry_get in He. rewrite He. destruct v; try (now split); exfalso; solve [eapply H1; reflexivity|eapply H2; reflexivity|eapply H3; reflexivity].
  - destruct (kget (txt "name") d) as [v|] eqn:E.
    + destruct v; cbn [WspModel.class_named WspModel.hashable]; intros [Hh <-]; try discriminate;
        try (eapply cf_other; [apply entry_get; exact E|discriminate|discriminate|discriminate]).
      destruct (dget text_dec s feature_classes) as [c|] eqn:E'.
      * eapply cf_named; [apply entry_get; exact E|now apply feature_named_get].
      * eapply cf_unknown; [apply entry_get; exact E|]. intros c Hc. apply feature_named_get in Hc. congruence.
    + cbn. intros [_ <-]. apply cf_unnamed. now apply absent_get.
Qed.

Notation feature_means := (feature_means feature kernel make_feature).
Lemma feature_iff : forall v f, (forall x, wraps v x -> (exists e, x = PDict e) \/ x = v) ->
  bindR (pre_process feature kernel make_feature v) (validate_feature feature kernel make_feature) = Ok f <-> feature_means v f.
Proof.
  intros v f Hb. destruct (unwrap_wraps (S (size v)) v (Nat.lt_succ_diag_r _)) as [Hw Hbare].
  assert (K : (exists d, unwrap v = PDict d) \/ (unwrap v = v /\ forall d, v <> PDict d)).
  { destruct (Hb _ Hw) as [K|K]; [now left|]. destruct v; try (right; split; [exact K|discriminate]). left; eauto. }
  clear Hb. destruct K as [[d Hd]|[Hv Hnd]].
  - rewrite Hd in Hw, Hbare. pose proof (Hbare d eq_refl) as Ha.
    assert (Hud := wraps_unwrap_dicts v d Hw Ha).
    unfold pre_process. rewrite Hd.
    split.
    + destruct (hashable (name_of d)) eqn:Hh; [|discriminate].
      intros H. apply fm_dict with (d := d) (c := class_of_name d); [exact Hw|exact Ha|now apply class_for_iff|].
      unfold class_of_name. destruct (class_named (name_of d)) as [c|] eqn:E.
      * destruct (make_feature c d) as [g|e]; cbn in H; [|discriminate]. exact H.
      * cbn [bindR] in H. unfold validate_feature in H. rewrite Hud, E in H. exact H.
    + intros H. inversion H as [g E1 E2|v' d' c g Hw' Ha' Hc Hm E1]; subst.
      * inversion Hw.
      * assert (d' = d) as ->.
        { assert (K : unwrap v = PDict d') by (apply wraps_unwrap; [exact Hw'|intros q [= <-]; exact Ha']). congruence. }
        apply class_for_iff in Hc. destruct Hc as [-> Hc]. unfold class_of_name in Hc.
        destruct (class_named (name_of d)) as [c'|] eqn:E.
        -- subst c'. rewrite Hm. reflexivity.
        -- subst c. cbn [bindR]. unfold validate_feature. now rewrite Hud, E.
  - destruct v as [s|l|d|g|k|s|s|n]; unfold pre_process; cbn [WspModel.unwrap bindR] in *;
      try (cbn; split; [discriminate|intros H; inversion H as [|v' d' c g' Hw' Ha' Hc Hm E1]; subst; inversion Hw']).
    + now destruct (Hnd d).
    + cbn. split; [intros [= ->]; constructor|]. intros H; inversion H as [g' E1 E2|v' d' c g' Hw' Ha' Hc Hm E1]; subst; [reflexivity|inversion Hw'].
Qed.

Notation str_of := (str_of feature kernel show). Notation text_at := (text_at feature kernel show).
Notation text_under := (text_under feature kernel show). Notation kclass_for := (kclass_for feature kernel show).
Lemma text_under_iff : forall k d s, text_under k d s <-> text_at k d = s.
Proof.
  intros k d s. unfold WspModel.text_at. split.
  - intros [t He|v He Hn|Ha].
    + apply entry_get in He. now rewrite He.
    + apply entry_get in He. rewrite He. destruct v; try reflexivity. exfalso. now eapply Hn.
    + apply absent_get in Ha. now rewrite Ha.
  - destruct (kget k d) as [v|] eqn:E; intros <-.
    + destruct v; try (apply tu_text; now apply entry_get); cbn [WspModel.str_of]; eapply tu_shown; (now apply entry_get) || discriminate.
    + apply tu_absent. now apply absent_get.
Qed.
Lemma kclass_for_iff : forall d c, kclass_for d c <-> kernel_class feature kernel show d = Some c.
Proof.
  intros d c. unfold kernel_class. split.
  - intros [s c' Hs Hn|s s' c' Hs Hn Hs' Hn'].
    + apply text_under_iff in Hs. rewrite Hs. apply kernel_named_get in Hn. now rewrite Hn.
    + apply text_under_iff in Hs. apply text_under_iff in Hs'. rewrite Hs, Hs'.
      destruct (dget text_dec s weight_classes) as [c0|] eqn:E.
      * apply kernel_named_get in E. now apply Hn in E.
      * now apply kernel_named_get.
  - destruct (dget text_dec (text_at (txt "style") d) weight_classes) as [c0|] eqn:E.
    + intros [= <-]. eapply kc_style; [now apply text_under_iff|now apply kernel_named_get].
    + intros H. eapply kc_type; [now apply text_under_iff| |now apply text_under_iff|now apply kernel_named_get].
      intros c' Hc'. apply kernel_named_get in Hc'. congruence.
Qed.
Lemma kernel_dict_iff : forall v d, kernel_dict feature kernel v d <-> kernel_entry feature kernel v = PDict d /\ exists e, v = PDict e.
Proof.
  intros v d. split.
  - intros [e Ha|e e' He]; (split; [|eauto]); cbn [kernel_entry].
    + apply absent_get in Ha. now rewrite Ha.
    + apply entry_get in He. now rewrite He.
  - intros [H [e ->]]. cbn [kernel_entry] in H. destruct (kget (txt "weight_kernel") e) as [x|] eqn:E.
    + subst x. apply kd_wrapped. now apply entry_get.
    + injection H as <-. apply kd_plain. now apply absent_get.
Qed.
Lemma kernel_object_iff : forall v k, kernel_object feature kernel v k <-> kernel_entry feature kernel v = PKernel k.
Proof.
  intros v k. split.
  - intros [k'|d k' He]; cbn [kernel_entry]; [reflexivity|]. apply entry_get in He. now rewrite He.
  - destruct v as [s|l|d|g|k'|s|s|n]; cbn [kernel_entry]; try discriminate.
    + destruct (kget (txt "weight_kernel") d) as [x|] eqn:E; [|discriminate]. intros ->. apply ko_wrapped. now apply entry_get.
    + intros [= ->]. constructor.
Qed.
Lemma entry_dict : forall v d, kernel_entry feature kernel v = PDict d -> exists e, v = PDict e.
Proof. intros v d H. destruct v; try discriminate H. eauto. Qed.

Notation kernels_mean := (kernels_mean feature kernel make_kernel show).
Lemma kernels_iff : forall l ks, validate_kernels feature kernel make_kernel show l = Ok ks <-> kernels_mean l ks.
Proof.
  induction l as [|v l IH]; intros ks.
  - split; [intros [= <-]; constructor|]. intros H; inversion H; reflexivity.
  - cbn [validate_kernels]. split.
    + destruct (kernel_entry feature kernel v) as [s|l0|d|g|k|s|s|n] eqn:E; try discriminate.
      * assert (Hd : kernel_dict feature kernel v d) by (apply kernel_dict_iff; split; [exact E|eapply entry_dict; exact E]).
        destruct (kernel_class feature kernel show d) as [c|] eqn:Ec.
        -- destruct (make_kernel c d) as [k|] eqn:Ek.
           ++ destruct (validate_kernels feature kernel make_kernel show l) as [r|e] eqn:Er; [|discriminate].
              intros [= <-]. eapply km_dict; [exact Hd|apply kclass_for_iff; exact Ec|exact Ek|now apply IH].
           ++ intros H. eapply km_skip; [exact Hd| |now apply IH]. intros c' Hc'. apply kclass_for_iff in Hc'. congruence.
        -- intros H. eapply km_skip; [exact Hd| |now apply IH]. intros c' Hc'. apply kclass_for_iff in Hc'. congruence.
      * destruct (validate_kernels feature kernel make_kernel show l) as [r|e] eqn:Er; [|discriminate].
        intros [= <-]. apply km_object; [now apply kernel_object_iff|now apply IH].
    + intros H. inversion H as [|v' k r ks' Ho Hr|v' d c k r ks' Hd Hc Hk Hr|v' d r ks' Hd Hn Hr]; subst.
      * apply kernel_object_iff in Ho. rewrite Ho. apply IH in Hr. now rewrite Hr.
      * apply kernel_dict_iff in Hd. destruct Hd as [-> _]. apply kclass_for_iff in Hc. rewrite Hc, Hk. apply IH in Hr. now rewrite Hr.
      * apply kernel_dict_iff in Hd. destruct Hd as [-> _].
        destruct (kernel_class feature kernel show d) as [c|] eqn:Ec; [|now apply IH].
        rewrite (Hn c) by (now apply kclass_for_iff). now apply IH.
Qed.
Lemma listed_iff : forall v l, listed feature kernel v l <-> as_list feature kernel v = l.
Proof.
  intros v l. split.
  - intros [l'|v' Hn]; [reflexivity|]. destruct v'; try reflexivity. exfalso. now eapply Hn.
  - intros <-. destruct v; try (apply li_one; discriminate). apply li_list.
Qed.
Lemma remain_iff : forall fields d r, remain feature kernel fields d r <-> others feature kernel fields d = r.
Proof.
  intros fields d. unfold others. induction d as [|[k v] d IH]; intros r.
  - split; [intros H; now inversion H|intros <-; constructor].
  - cbn [filter fst]. destruct (in_dec text_dec k fields) as [Hi|Hi]; split.
    + intros H; inversion H; subst; [now apply IH|contradiction].
    + intros H. apply re_skip; [exact Hi|now apply IH].
    + intros H; inversion H; subst; [contradiction|]. f_equal. now apply IH.
    + intros <-. apply re_keep; [exact Hi|now apply IH].
Qed.

Notation fspec_means := (fspec_means feature kernel make_feature make_kernel rest_ok show).
Notation make_fspec := (make_fspec feature kernel make_feature make_kernel rest_ok show).
Lemma fspec_iff : forall d s, feature_bare feature kernel d -> make_fspec d = Ok s <-> fspec_means d s.
Proof.
  intros d s Hb. unfold WspModel.make_fspec. split.
  - destruct (match kget (txt "feature") d with Some v => _ | None => _ end) as [f|e] eqn:Ef; [|discriminate].
    cbn [bindR].
    destruct (match kget (txt "weight_kernels") d with Some v => _ | None => _ end) as [ks|e] eqn:Ek; [|discriminate].
    cbn [bindR]. destruct (rest_ok _) eqn:Er; [discriminate|]. intros [= <-]. constructor; [| |now apply remain_iff|exact Er].
    + destruct (kget (txt "feature") d) as [v|] eqn:E.
      * left. exists v. split; [now apply entry_get|]. apply feature_iff; [|exact Ef]. intros x. apply Hb. now apply entry_get.
      * right. split; [now apply absent_get|exact Ef].
    + destruct (kget (txt "weight_kernels") d) as [v|] eqn:E.
      * left. exists v, (as_list feature kernel v). split; [now apply entry_get|]. split; [now apply listed_iff|now apply kernels_iff].
      * right. split; [now apply absent_get|]. congruence.
  - intros [f ks rest Hf Hk Hr Ho].
    assert (Ef : match kget (txt "feature") d with
         | Some v => bindR (pre_process feature kernel make_feature v) (validate_feature feature kernel make_feature)
         | None => make_feature FBase [] end = Ok f).
    { destruct Hf as [[v [He Hm]]|[Ha Hm]].
      - apply feature_iff in Hm; [|intros x; now apply Hb]. apply entry_get in He. now rewrite He.
      - apply absent_get in Ha. now rewrite Ha. }
    rewrite Ef. cbn [bindR].
    assert (Ek : match kget (txt "weight_kernels") d with
         | Some v => validate_kernels feature kernel make_kernel show (as_list feature kernel v) | None => Ok [] end = Ok ks).
    { destruct Hk as [[v [l [He [Hl Hm]]]]|[Ha ->]].
      - apply entry_get in He. rewrite He. apply listed_iff in Hl. rewrite Hl. now apply kernels_iff.
      - apply absent_get in Ha. now rewrite Ha. }
    rewrite Ek. cbn [bindR]. apply remain_iff in Hr. rewrite Hr, Ho. reflexivity.
Qed.
Lemma mapR_iff : forall (A B : Type) (g : A -> result B) (P : A -> B -> Prop) l ys,
  (forall x y, In x l -> g x = Ok y <-> P x y) -> mapR g l = Ok ys <-> Forall2 P l ys.
Proof.
  intros A B g P. induction l as [|x l IH]; intros ys H.
  - split; [intros [= <-]; constructor|intros K; now inversion K].
  - cbn [mapR]. split.
    + destruct (g x) as [y|] eqn:E; [|discriminate]. cbn [bindR]. destruct (mapR g l) as [zs|] eqn:E'; [|discriminate].
      intros [= <-]. constructor; [apply H; [now left|exact E]|]. apply IH; [|reflexivity]. intros a b Ha. apply H. now right.
    + intros K; inversion K as [|x' y l' zs Hxy Hr]; subst. apply H in Hxy; [|now left]. rewrite Hxy. cbn [bindR].
      assert (E : mapR g l = Ok zs) by (apply IH; [intros a b Ha; apply H; now right|exact Hr]). now rewrite E.
Qed.
Notation cspec_means := (cspec_means feature kernel make_feature make_kernel rest_ok show).
Notation make_cspec := (make_cspec feature kernel make_feature make_kernel rest_ok show).
Notation fspec_item := (fspec_item feature kernel make_feature make_kernel rest_ok show).
Lemma fspec_item_iff : forall v s, (forall d, v = PDict d -> feature_bare feature kernel d) ->
  check_fspec feature kernel make_feature make_kernel rest_ok show v = Ok s <-> fspec_item v s.
Proof.
  intros v s H. destruct v as [t|l|d|g|k|t|t|n]; cbn [check_fspec]; try (split; [discriminate|intros K; now inversion K]).
  - rewrite fspec_iff by (now apply H). split; [apply fi_dict|intros K; now inversion K].
  - split; [intros [= ->]; constructor|intros K; now inversion K].
Qed.
Lemma cspec_iff : forall d s, features_bare feature kernel d -> make_cspec d = Ok s <-> cspec_means d s.
Proof.
  intros d s Hb. unfold WspModel.make_cspec. 
  assert (Hl : forall v, kget (txt "feature_weight_specs") d = Some v -> forall fs,
    check_fspecs feature kernel make_feature make_kernel rest_ok show v = Ok fs <-> Forall2 fspec_item (as_list feature kernel v) fs).
  { intros v Hv fs. unfold check_fspecs. apply mapR_iff. intros x y Hx. apply fspec_item_iff. intros e ->.
    eapply Hb; [apply entry_get; exact Hv|now apply listed_iff|exact Hx]. }
  split.
  - destruct (match kget (txt "feature_weight_specs") d with Some v => _ | None => _ end) as [fs|e] eqn:Ef; [|discriminate].
    cbn [bindR]. destruct (rest_ok _) eqn:Er; [discriminate|]. intros [= <-]. constructor; [|now apply remain_iff|exact Er].
    destruct (kget (txt "feature_weight_specs") d) as [v|] eqn:E.
    + left. exists v, (as_list feature kernel v). split; [now apply entry_get|]. split; [now apply listed_iff|]. now apply (Hl v).
    + right. split; [now apply absent_get|]. congruence.
  - intros [fs rest Hf Hr Ho].
    assert (Ef : match kget (txt "feature_weight_specs") d with
      | Some v => check_fspecs feature kernel make_feature make_kernel rest_ok show v | None => Ok [] end = Ok fs).
    { destruct Hf as [[v [l [He [Hl' Hm]]]]|[Ha ->]].
      - apply entry_get in He. rewrite He. apply listed_iff in Hl'. subst l. now apply (Hl v).
      - apply absent_get in Ha. now rewrite Ha. }
    rewrite Ef. cbn [bindR]. apply remain_iff in Hr. rewrite Hr, Ho. reflexivity.
Qed.
Notation cspec_item := (cspec_item feature kernel make_feature make_kernel rest_ok show).
Lemma cspec_item_iff : forall v s, (forall d, v = PDict d -> features_bare feature kernel d) ->
  validate_cspec feature kernel make_feature make_kernel rest_ok show v = Ok s <-> cspec_item v s.
Proof.
  intros v s H. destruct v as [t|l|d|g|k|t|t|n]; cbn [validate_cspec]; try (split; [discriminate|intros K; now inversion K]).
  - rewrite cspec_iff by (now apply H). split; [apply ci_dict|intros K; now inversion K].
  - split; [intros [= ->]; constructor|intros K; now inversion K].
Qed.
End Proofs.
