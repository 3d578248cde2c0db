(** C114: an experiment that is written to XML and read. *)
From Verif Require Import PyBase PyFacts PyText TextFacts ValidatorsModel XmlModel XmlSpec XmlProofs XmlProps ExpxModel ExpxSpec ExpxProofs ExpxRead ExpxSurvey.
From Coq Require Import Lia Permutation.
Local Open Scope list_scope.

Lemma filter_split {A} (p q : A -> bool) l : (forall x, p x = true -> q x = false) -> Permutation (filter p l ++ filter q l) (filter (fun x => orb (p x) (q x)) l).
Proof.
  intros D. induction l as [|x l IH]; [constructor|]. cbn [filter]. specialize (D x). destruct (p x); [rewrite (D eq_refl); cbn [orb app]; constructor; exact IH|]. destruct (q x); cbn [orb]; [|exact IH].
  etransitivity; [symmetry; apply Permutation_middle|]. constructor. exact IH.
Qed.
Lemma classes_perm fs cs : NoDup cs -> Permutation (flat_map (fun c => of_class c fs) cs) (filter (fun f => if in_dec filter_class_dec (f_class f) cs then true else false) fs).
Proof.
  induction cs as [|c cs IH]; intros ND.
  - cbn [flat_map]. rewrite filter_nil; [constructor|]. intros x _. destruct (in_dec filter_class_dec (f_class x) []) as [[]|]; reflexivity.
  - inversion ND as [|? ? NI ND']; subst. cbn [flat_map]. etransitivity; [apply Permutation_app_head; apply IH; exact ND'|]. unfold of_class. rewrite filter_split.
    + rewrite (filter_ext _ (fun f => if in_dec filter_class_dec (f_class f) (c :: cs) then true else false)); [reflexivity|]. intros f.
      destruct (filter_class_dec (f_class f) c) as [E|N]; destruct (in_dec filter_class_dec (f_class f) cs) as [I|NI']; destruct (in_dec filter_class_dec (f_class f) (c :: cs)) as [J|NJ]; cbn [orb]; try reflexivity.
      * exfalso. apply NJ. right. exact I.
      * exfalso. apply NJ. left. symmetry. exact E.
      * exfalso. apply NJ. right. exact I.
      * exfalso. destruct J as [J|J]; [congruence|contradiction].
    + intros x X. destruct (filter_class_dec (f_class x) c) as [E|]; [|discriminate X]. destruct (in_dec filter_class_dec (f_class x) cs) as [I|]; [|reflexivity]. exfalso. apply NI. rewrite <- E. exact I.
Qed.
Lemma by_class_perm fs : Permutation (by_class fs) fs.
Proof.
  unfold by_class. rewrite classes_perm by apply NoDup_first_seen. rewrite filter_id; [reflexivity|]. intros f I. destruct (in_dec filter_class_dec (f_class f) (first_seen filter_class_dec (map f_class fs))) as [_|N]; [reflexivity|].
  exfalso. apply N. apply In_first_seen. apply in_map. exact I.
Qed.
Lemma Permutation_filter' {A} (p : A -> bool) l l' : Permutation l l' -> Permutation (filter p l) (filter p l').
Proof.
  induction 1 as [|x l l' _ IH|x y l|l l' l'' _ IH1 _ IH2]; cbn [filter]; [constructor|destruct (p x); [constructor|]; exact IH| |etransitivity; eassumption].
  destruct (p x), (p y); try reflexivity. apply perm_swap.
Qed.
Lemma classes_length fs fs' c : Forall2 filt_back fs fs' -> List.length (of_class c fs) = List.length (of_class c fs').
Proof. induction 1 as [|f f' fs fs' [E _] _ IH]; [reflexivity|]. unfold of_class in *. cbn [filter]. rewrite E. destruct (filter_class_dec (f_class f') c); cbn [List.length]; rewrite IH; reflexivity. Qed.

(** A survey is read with the fields that were written, all its stations, runs and channels, and all its filters but FIR filters under
    their names in small letters, if there is not exactly one filter of a class, every station has a run, and there is a station.  Filters and
    channels are read class by class, stations and runs as they are. *)
Theorem C114_a_survey_is_read : forall v v', survey_back v v' -> has_runs v -> (forall c, List.length (of_class c (v_filters v)) <> 1%nat) ->
  NoDup (map key_of (not_fir (v_filters v'))) ->
  read_survey_element (survey_xml v) = Ok (mkRead (v_fields v') (map (fun f => (key_of f, f)) (not_fir (by_class (v_filters v')))) (map sorted_station (v_stations v'))).
Proof.
  intros v v' SB [NE HR] NO ND. destruct (read_survey_back v v' SB NE) as (vs & -> & C & _).
  assert (H : forall c, not_one (v_filters v') c) by (intros c; unfold not_one; rewrite <- (classes_length _ _ c (proj1 (proj2 SB))); apply NO).
  rewrite give_filters_lists by exact H. cbn [bindR]. rewrite read_filters_value by exact H. cbn [bindR]. rewrite (C HR). cbn [bindR]. unfold filters_read. rewrite put_distinct; [reflexivity|].
  cbn [map app]. eapply Permutation_NoDup; [|exact ND]. apply Permutation_map. apply Permutation_filter'. symmetry. apply by_class_perm.
Qed.
(** No filter but those is lost, and no other is there. *)
Theorem C114_filters_class_by_class : forall fs, Permutation (by_class fs) fs /\ (forall c, of_class c (by_class fs) = of_class c fs).
Proof.
  intros fs. split; [apply by_class_perm|]. intros c. unfold by_class.
  assert (G : forall cs, NoDup cs -> of_class c (flat_map (fun x => of_class x fs) cs) = if in_dec filter_class_dec c cs then of_class c fs else []).
  { induction cs as [|x cs IH]; intros ND; [reflexivity|]. inversion ND as [|? ? NI ND']; subst. cbn [flat_map]. unfold of_class at 1. rewrite filter_app. fold (of_class c (of_class x fs)). fold (of_class c (flat_map (fun x => of_class x fs) cs)).
    rewrite (IH ND'). pose proof (of_class_class x fs) as F. rewrite Forall_forall in F. destruct (filter_class_dec x c) as [->|N].
    - destruct (in_dec filter_class_dec c cs) as [X|_]; [contradiction|]. destruct (in_dec filter_class_dec c (c :: cs)) as [_|X]; [|exfalso; apply X; left; reflexivity]. rewrite app_nil_r. apply filter_id.
      intros y Y. rewrite (F y Y). destruct (filter_class_dec c c); congruence.
    - unfold of_class at 1. rewrite filter_nil. + cbn [app]. destruct (in_dec filter_class_dec c cs) as [I|NI']; destruct (in_dec filter_class_dec c (x :: cs)) as [J|NJ]; try reflexivity.
        * exfalso. apply NJ. right. exact I.
        * exfalso. destruct J; congruence.
      + intros y Y. rewrite (F y Y). destruct (filter_class_dec x c); congruence. }
  rewrite G by apply NoDup_first_seen. destruct (in_dec filter_class_dec c (first_seen filter_class_dec (map f_class fs))) as [_|N]; [reflexivity|]. symmetry. apply filter_nil. intros f I.
  destruct (filter_class_dec (f_class f) c) as [<-|_]; [|reflexivity]. exfalso. apply N. apply In_first_seen. apply in_map. exact I.
Qed.
(** Of filters whose names differ in case only, the last is kept. *)
Theorem C114_the_last_of_a_name : forall v v', survey_back v v' -> has_runs v -> (forall c, List.length (of_class c (v_filters v)) <> 1%nat) ->
  exists q, read_survey_element (survey_xml v) = Ok q /\ forall k, dget text_dec k (q_filters q) = last_with k (not_fir (by_class (v_filters v'))).
Proof.
  intros v v' SB [NE HR] NO. destruct (read_survey_back v v' SB NE) as (vs & -> & C & _).
  assert (H : forall c, not_one (v_filters v') c) by (intros c; unfold not_one; rewrite <- (classes_length _ _ c (proj1 (proj2 SB))); apply NO).
  rewrite give_filters_lists by exact H. cbn [bindR]. rewrite read_filters_value by exact H. cbn [bindR]. rewrite (C HR). cbn [bindR]. eexists. split; [reflexivity|]. intros k. cbn [q_filters]. unfold filters_read. rewrite put_last. reflexivity.
Qed.
(** An experiment is read survey by survey. *)
Theorem C114_an_experiment_is_read : forall vs qs, Forall2 (fun v q => read_survey_element (survey_xml v) = Ok q) vs qs -> read_experiment (experiment_xml vs) = Ok qs.
Proof.
  intros vs qs F. cbn [experiment_xml read_experiment]. apply each_F2. induction F as [|v q vs qs E _ IH]; cbn [map]; constructor; assumption.
Qed.

(** A survey with exactly one filter of a class cannot be read. *)
Theorem C114_one_of_a_class_refuted : forall v v' c, survey_back v v' -> v_stations v <> [] -> List.length (of_class c (v_filters v)) = 1%nat ->
  read_survey_element (survey_xml v) = Err AttributeError.
Proof.
  intros v v' c SB NE L. destruct (read_survey_back v v' SB NE) as (vs & -> & _). destruct SB as (_ & F & _). rewrite (classes_length _ _ c F) in L. destruct (of_class c (v_filters v')) as [|f [|g r]] eqn:E; try discriminate L.
  rewrite (give_filters_one _ c f E); [reflexivity|]. assert (I : In f (v_filters v')) by (assert (X : In f (of_class c (v_filters v'))) by (rewrite E; left; reflexivity); apply filter_In in X; tauto).
  clear - F I. induction F as [|a b l l' [_ O] _ IH]; [destruct I|]. destruct I as [->|I]; [|exact (IH I)]. destruct (own_inv _ _ O) as (N & _ & _ & K & _). intros X. rewrite X in K. destruct (f_fields a); [congruence|discriminate K].
Qed.
(** FIR filters are never read. *)
Lemma no_fir_made c l : forall acc r, c <> FIR -> make_filters c l acc = Ok r -> (forall k f, In (k, f) acc -> f_class f <> FIR) -> forall k f, In (k, f) r -> f_class f <> FIR.
Proof.
  induction l as [|x l IH]; intros acc r N H A k f I; [cbn in H; assert (r = acc) by congruence; subst; exact (A k f I)|]. destruct x; try discriminate H. cbn [make_filters] in H.
  apply (IH _ _ N H) with (k := k); [|exact I]. intros k' f' I'. assert (X : In (k', f') acc \/ f' = mkFilt c d).
  { clear - I'. revert I'. generalize (lower (name_of d)). intros kk. induction acc as [|[a b] acc IHa]; cbn [dset]; [intros [E|[]]; right; congruence|]. destruct (text_dec kk a).
    - intros [E|E]; [right; congruence|left; right; exact E].
    - intros [E|E]; [left; left; exact E|]. destruct (IHa E); [left; right|right]; assumption. }
  destruct X as [X| ->]; [exact (A _ _ X)|exact N].
Qed.
Lemma no_fir_read d : forall acc r, (forall k v, In (k, v) d -> k <> txt "fir_filter") -> read_filters d acc = Ok r -> (forall k f, In (k, f) acc -> f_class f <> FIR) -> forall k f, In (k, f) r -> f_class f <> FIR.
Proof.
  induction d as [|[t v] d IH]; intros acc r ND H A; [cbn in H; assert (r = acc) by congruence; subst; exact A|]. cbn [read_filters] in H. assert (ND' : forall k v, In (k, v) d -> k <> txt "fir_filter") by (intros k w I; apply (ND k w); right; exact I).
  destruct (class_read t) as [c|] eqn:C; [|apply (IH acc r ND' H A)]. destruct v; try discriminate H. destruct (make_filters c l acc) as [acc'|e] eqn:M; [|discriminate H]. cbn [bindR] in H. apply (IH acc' r ND' H).
  apply (no_fir_made c l acc acc'); [|exact M|exact A]. intros ->. specialize (ND t (XList l) (or_introl eq_refl)). unfold class_read in C. repeat (match type of C with (if ?b then _ else _) = _ => destruct b eqn:?; [discriminate C|] end).
  destruct (text_eqb t (txt "fir_filter")) eqn:E; [apply text_eqb_eq in E; contradiction|discriminate C].
Qed.
Theorem C114_fir_refuted : forall v v' q k f, survey_back v v' -> v_stations v <> [] -> read_survey_element (survey_xml v) = Ok q -> In (k, f) (q_filters q) -> f_class f <> FIR.
Proof.
  intros v v' q k f SB NE R I. destruct (read_survey_back v v' SB NE) as (vs & E & _). rewrite E in R. apply bindR_ok in R as ([] & _ & R). apply bindR_ok in R as (fs & M & R). apply bindR_ok in R as (ss & _ & R).
  assert (Q : q_filters q = fs) by (assert (X : q = mkRead (v_fields v') fs ss) by congruence; rewrite X; reflexivity). rewrite Q in I. unfold filters_value in M. destruct (v_filters v') as [|g gs]; [assert (X : fs = []) by congruence; rewrite X in I; destruct I|].
  assert (G := fun d H ND => no_fir_read d [] fs ND H (fun _ _ (X : In _ []) => match X with end)). apply (G _ M) with (k := k); [|exact I]. clear G. intros k0 x X. apply in_map_iff in X. destruct X as (c & E0 & _). assert (k0 = filter_tag c) by congruence. subst k0. rewrite filter_tag_text. destruct c; discriminate.
Qed.
(** Without a station, or with a station without a run, nothing is read. *)
Theorem C114_no_station_refuted : forall v v', survey_back v v' -> v_stations v = [] -> read_survey_element (survey_xml v) = Err KeyError.
Proof.
  intros v v' (O & F & _ & NS & NF) E. destruct (own_inv _ _ O) as (_ & _ & _ & K & _). unfold read_survey_element, survey_xml. rewrite E. cbn [map]. rewrite (element_read _ _ (v_fields v') _ [filters_value (v_filters v')] O).
  - cbn [bindR]. change (tag_of (element _ _ _)) with (txt "survey"). rewrite text_eqb_refl. unfold read_survey. match goal with |- bindR (pop_list ?k (XDict (?d ++ grouped ?kvs))) _ = _ => change (d ++ grouped kvs) with (left_over d kvs [txt "filters"]) end.
    rewrite pop_list_missing; [reflexivity|unfold keys in NS; rewrite <- K; exact NS|]. intros [X|[]]. discriminate X.
  - constructor; [apply read_filters_element; exact F|constructor].
  - intros k I [<-|[]]. exact (NF I).
  - intros [X|[]]. discriminate X.
Qed.
Theorem C114_no_run_refuted : forall v v' s, survey_back v v' -> (forall c, List.length (of_class c (v_filters v)) <> 1%nat) -> In s (v_stations v) -> s_runs s = [] ->
  read_survey_element (survey_xml v) = Err KeyError.
Proof.
  intros v v' s SB NO I E. assert (NE : v_stations v <> []) by (intros X; rewrite X in I; destruct I). destruct (read_survey_back v v' SB NE) as (vs & -> & _ & D).
  assert (H : forall c, not_one (v_filters v') c) by (intros c; unfold not_one; rewrite <- (classes_length _ _ c (proj1 (proj2 SB))); apply NO).
  rewrite give_filters_lists by exact H. cbn [bindR]. rewrite read_filters_value by exact H. cbn [bindR]. rewrite D by eauto. reflexivity.
Qed.

(** Written with all its fields (required=False), a survey has an empty field called filters beside its filters, and cannot be read. *)
Theorem C114_all_fields_refuted : forall d d' fs fs' ss ss', own d d' -> In (txt "filters", XNone) d -> ~ In (txt "station") (keys d) -> Forall2 filt_back fs fs' -> Forall2 station_back ss ss' -> ss <> [] ->
  read_survey_element (survey_xml (mkSurvey d fs ss)) = Err (match fs with [] => TypeError | _ => KeyError end).
Proof.
  intros d d' fs fs' ss ss' O IF NS F G NE. destruct (own_inv _ _ O) as (_ & ND & _ & K & B).
  assert (V : exists vs, Forall is_dict vs /\ Forall2 (fun e x => read e = Ok x) (map station_xml ss) vs).
  { clear - G. induction G as [|s s' l l' SB _ (vs & A & X)]; [exists []; split; constructor|]. destruct (station_value _ _ SB) as (ws & _ & _ & _ & R). eexists (_ :: vs). split; constructor; [eexists; reflexivity|exact A|exact R|exact X]. }
  destruct V as (vs & A & R). destruct (tags_same (txt "station") station_xml ss (fun _ => eq_refl)) as [T1 T2]. set (fv := filters_value fs').
  assert (VN : vs <> []) by (intros ->; inversion R as [X|]; destruct ss; [congruence|discriminate X]).
  destruct (element_child (txt "survey") d d' (Elem (txt "filters") [] None (map filter_xml fs) :: map station_xml ss) (fv :: vs) O) as [E _].
  { constructor; [apply read_filters_element; exact F|exact R]. }
  { cbn [map tag_of]. rewrite T1. intros [J|J]; [discriminate J|]. apply in_map_iff in J. destruct J as (? & J & _). discriminate J. }
  unfold read_survey_element, survey_xml. cbn [v_fields v_filters v_stations]. rewrite E. cbn [bindR]. change (tag_of (element _ _ _)) with (txt "survey"). rewrite text_eqb_refl.
  cbn [map combine tag_of]. rewrite (combine_same _ _ _ R T2). set (kvs := d' ++ (txt "filters", fv) :: map (fun v => (txt "station", v)) vs).
  assert (NF : In (txt "filters", XNone) d').
  { clear - IF K B. revert d' K B. induction d as [|[k v] d IH]; intros [|[k' v'] d'] K B; try discriminate K; [destruct IF|]. cbn [map fst snd] in *. injection K as -> K. inversion B; subst. destruct IF as [X|X]; [|right; apply IH; assumption].
    assert (v = XNone) by congruence. assert (k' = txt "filters") by congruence. subst. left. f_equal. match goal with H : back XNone _ |- _ => inversion H; reflexivity end. }
  assert (VF : vals (txt "filters") kvs = [XNone; fv]). { unfold kvs. rewrite vals_app, (vals_self d'  ltac:(rewrite <- K; exact ND) _ _ NF), vals_filters. reflexivity. }
  assert (VS : vals (txt "station") kvs = vs). { unfold kvs. rewrite vals_app, (vals_none _ d'), vals_station; [reflexivity|]. rewrite <- K. exact NS. }
  assert (KF : In (txt "filters") (first_seen text_dec (map fst kvs))). { apply In_first_seen. unfold kvs. rewrite map_app. apply in_or_app. left. apply (in_map fst) in NF. exact NF. }
  assert (KS : In (txt "station") (first_seen text_dec (map fst kvs))). { apply In_first_seen. unfold kvs. rewrite map_app. apply in_or_app. right. right. destruct vs; [congruence|]. left. reflexivity. }
  unfold read_survey, pop_list, pop. unfold grouped. rewrite (dget_map (fun k => one_or_list (vals k kvs))). destruct (in_dec text_dec (txt "station") (first_seen text_dec (map fst kvs))) as [_|X]; [|contradiction]. cbn [bindR fst snd].
  rewrite (ddel_map (fun k => one_or_list (vals k kvs))) by apply NoDup_first_seen. rewrite (dget_map (fun k => one_or_list (vals k kvs))).
  destruct (in_dec text_dec (txt "filters") (filter (fun y => if text_dec y (txt "station") then false else true) (first_seen text_dec (map fst kvs)))) as [_|X]; [|exfalso; apply X; apply filter_In; split; [exact KF|reflexivity]].
  rewrite VF. cbn [one_or_list give_filters each_given one_given bindR orb]. unfold fv, filters_value. destruct fs as [|f fs]; [inversion F; reflexivity|]. destruct fs' as [|f' fs']; [inversion F|]. cbn [one_given].
  match goal with |- context [dget text_dec (txt "type") (map ?g ?l)] => assert (TY : dget text_dec (txt "type") (map g l) = None) end.
  { generalize (classes (f' :: fs')). intros cs. induction cs as [|c cs IH]; [reflexivity|]. cbn [map dget]. destruct (text_dec (txt "type") (filter_tag c)) as [X|_]; [|exact IH]. rewrite filter_tag_text in X. destruct c; discriminate X. }
  rewrite TY. reflexivity.
Qed.

(** ** A concrete survey *)
Local Open Scope string_scope.
Local Open Scope list_scope.
Definition named (c : filter_class) (n : string) : filt := mkFilt c [(txt "name", XText (txt n)); (txt "gain", XNum (txt "2.0"))].
Definition named' (c : filter_class) (n : string) : filt := mkFilt c [(txt "name", XText (txt n)); (txt "gain", XText (txt "2.0"))].
Definition ch (c : channel_class) (n : string) : chan := mkChan c [(txt "component", XText (txt n))].
Definition run1 : run := mkRun [(txt "id", XText (txt "a"))] [ch Magnetic "hx"; ch Electric "ex"; ch Magnetic "hy"].
Definition run2 : run := mkRun [(txt "id", XText (txt "b"))] [].
Definition here : station := mkStation [(txt "id", XText (txt "mt01"))] [run1; run2].
Definition surv (fs : list filt) : survey := mkSurvey [(txt "id", XText (txt "test")); (txt "name", XText [])] fs [here].
Definition surv' (fs : list filt) : survey := mkSurvey [(txt "id", XText (txt "test")); (txt "name", XNone)] fs [here].
Definition some_filters (f : filter_class -> string -> filt) : list filt := [f Coefficient "A"; f PoleZero "b"; f Coefficient "c"; f FIR "d"; f PoleZero "e"; f FIR "f"].
Lemma text_back s : s <> [] -> strip s = s -> back (XText s) (XText s).
Proof. intros N S. rewrite <- S at 2. apply back_text. exact N. Qed.
Lemma single_back k s : k <> txt "item" -> s <> [] -> strip s = s -> own [(k, XText s)] [(k, XText s)].
Proof. intros K N S. apply back_dict; try reflexivity; [discriminate|repeat constructor; intros []|intros [X|[]]; exact (K X)|]. cbn [map snd]. constructor; [apply text_back; assumption|constructor]. Qed.
Lemma pair_back k1 k2 v1 v2 w1 w2 : k1 <> k2 -> k1 <> txt "item" -> k2 <> txt "item" -> back v1 w1 -> back v2 w2 -> own [(k1, v1); (k2, v2)] [(k1, w1); (k2, w2)].
Proof.
  intros D K1 K2 B1 B2. apply back_dict; try reflexivity; [discriminate| |intros [X|[X|[]]]; [exact (K1 X)|exact (K2 X)]|cbn [map snd]; repeat (constructor; [assumption|]); constructor].
  constructor; [intros [X|[]]; cbn in X; apply D; symmetry; exact X|]. repeat constructor. intros [].
Qed.
Lemma surv_back fs fs' : Forall2 filt_back fs fs' -> survey_back (surv fs) (surv' fs').
Proof.
  intros F. split; [|split; [exact F|split; [|split; cbn; intuition discriminate]]].
  - apply pair_back; try discriminate; [apply text_back; [discriminate|reflexivity]|constructor].
  - constructor; [|constructor]. split; [apply single_back; try discriminate; reflexivity|split; [|cbn; intuition discriminate]].
    constructor; [|constructor; [|constructor]].
    + split; [apply single_back; try discriminate; reflexivity|split].
      * repeat (constructor; [split; [reflexivity|apply single_back; try discriminate; reflexivity]|]). constructor.
      * intros k [<-|[]]. cbn. intuition discriminate.
    + split; [apply single_back; try discriminate; reflexivity|split; [constructor|]]. intros k [<-|[]]. cbn. intuition discriminate.
Qed.
Lemma named_back c n : txt n <> [] -> strip (txt n) = txt n -> filt_back (named c n) (named' c n).
Proof. intros N S. split; [reflexivity|]. apply pair_back; try discriminate; [apply text_back; assumption|]. apply (back_num (txt "2.0")). discriminate. Qed.
Example C114_hyp : survey_back (surv (some_filters named)) (surv' (some_filters named')) /\ has_runs (surv (some_filters named)) /\ (forall c, List.length (of_class c (some_filters named)) <> 1%nat) /\
  NoDup (map key_of (not_fir (some_filters named'))) /\
  map fst (map (fun f => (key_of f, f)) (not_fir (by_class (some_filters named')))) = [txt "a"; txt "c"; txt "b"; txt "e"].
Proof.
  split; [apply surv_back; repeat (constructor; [apply named_back; [discriminate|reflexivity]|]); constructor|]. split; [split; [discriminate|]; intros s [<-|[]]; discriminate|]. split; [intros c; destruct c; discriminate|].
  split; [|reflexivity]. vm_compute. repeat (constructor; [cbn; intuition discriminate|]). constructor.
Qed.
Example C114_hyp_one : survey_back (surv [named PoleZero "b"]) (surv' [named' PoleZero "b"]) /\ List.length (of_class PoleZero [named PoleZero "b"]) = 1%nat /\ read_survey_element (survey_xml (surv [named PoleZero "b"])) = Err AttributeError.
Proof. split; [apply surv_back; constructor; [apply named_back; [discriminate|reflexivity]|constructor]|]. split; [reflexivity|]. vm_compute. reflexivity. Qed.
Example C114_hyp_all : own [(txt "filters", XNone); (txt "id", XText (txt "test"))] [(txt "filters", XNone); (txt "id", XText (txt "test"))] /\
  read_survey_element (survey_xml (mkSurvey [(txt "filters", XNone); (txt "id", XText (txt "test"))] (some_filters named) [here])) = Err KeyError.
Proof.
  split; [|vm_compute; reflexivity]. apply pair_back; try discriminate; [constructor|apply text_back; [discriminate|reflexivity]].
Qed.

Print Assumptions C114_a_survey_is_read.
Print Assumptions C114_filters_class_by_class.
Print Assumptions C114_the_last_of_a_name.
Print Assumptions C114_an_experiment_is_read.
Print Assumptions C114_one_of_a_class_refuted.
Print Assumptions C114_fir_refuted.
Print Assumptions C114_no_station_refuted.
Print Assumptions C114_no_run_refuted.
Print Assumptions C114_all_fields_refuted.
