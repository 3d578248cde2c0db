(** Proofs for C114: the filters, and surveys. *)
From Verif Require Import PyBase PyFacts PyText TextFacts ValidatorsModel XmlModel XmlSpec XmlProofs XmlProps ExpxModel ExpxSpec ExpxProofs ExpxRead.
From Coq Require Import Lia.
Local Open Scope list_scope.

Definition filt_kvs (fs : list filt) : list (text * xval) := map (fun f => (filter_tag (f_class f), XDict (f_fields f))) fs.
Lemma filt_vals c fs : vals (filter_tag c) (filt_kvs fs) = map (fun x => XDict (f_fields x)) (of_class c fs).
Proof.
  unfold vals, filt_kvs, of_class. induction fs as [|x fs IH]; [reflexivity|]. cbn [map filter fst]. destruct (filter_class_dec (f_class x) c) as [->|N].
  - rewrite text_eqb_refl. cbn [map snd]. rewrite IH. reflexivity.
  - destruct (text_eqb (filter_tag (f_class x)) (filter_tag c)) eqn:E; [apply text_eqb_eq in E; apply filter_tag_inj in E; contradiction|]. exact IH.
Qed.
(** The element of the filters is read as a dictionary of its classes. *)
Definition classes (fs : list filt) : list filter_class := first_seen filter_class_dec (map f_class fs).
Definition filters_value (fs : list filt) : xval :=
  match fs with [] => XNone | _ => XDict (map (fun c => (filter_tag c, one_or_list (map (fun x => XDict (f_fields x)) (of_class c fs)))) (classes fs)) end.
Lemma F2_nil {A B} (R : A -> B -> Prop) l l' : Forall2 R l l' -> l = [] <-> l' = [].
Proof. intros H. inversion H; split; congruence. Qed.
Lemma read_filters_element fs fs' : Forall2 filt_back fs fs' -> read (Elem (txt "filters") [] None (map filter_xml fs)) = Ok (filters_value fs').
Proof.
  intros F. destruct fs as [|f fs]; [inversion F; reflexivity|].
  assert (T : map tag_of (map filter_xml (f :: fs)) = map (fun c => filter_tag (f_class c)) fs').
  { rewrite map_map. apply (F2_map filt_back _ _ _ _ F). intros a b [E _]. unfold filter_xml. rewrite element_tag, E. reflexivity. }
  rewrite (read_node (txt "filters") None _ (map (fun c => XDict (f_fields c)) fs')).
  - rewrite T, combine_map. fold (filt_kvs fs'). rewrite child_value_grouped.
    + unfold filters_value. destruct fs' as [|f' fs']; [inversion F|]. do 2 f_equal. unfold grouped. set (l := f' :: fs').
      replace (map fst (filt_kvs l)) with (map filter_tag (map f_class l)) by (unfold filt_kvs; rewrite !map_map; reflexivity).
      rewrite (first_seen_map filter_class_dec text_dec filter_tag _ filter_tag_inj), map_map. apply map_ext. intros c. rewrite filt_vals. reflexivity.
    + unfold filt_kvs. rewrite map_map. cbn [fst]. intros I. apply in_map_iff in I. destruct I as (x & E & _). rewrite filter_tag_text in E. destruct (f_class x); discriminate E.
  - discriminate.
  - apply (F2_imp filt_back _ _ _ _ _ F). intros a b. apply read_filter.
  - intros s X. discriminate X.
Qed.

Definition put_key (acc : list (text * filt)) (f : filt) : list (text * filt) := dset text_dec (key_of f) f acc.
Lemma make_filters_spec c l : forall acc, Forall (fun f => f_class f = c) l -> make_filters c (map (fun x => XDict (f_fields x)) l) acc = Ok (fold_left put_key l acc).
Proof.
  induction l as [|f l IH]; intros acc F; [reflexivity|]. inversion F as [|? ? E F']; subst. cbn [map make_filters fold_left]. rewrite IH by exact F'. unfold put_key at 2, key_of. destruct f as [k d]. reflexivity.
Qed.
Lemma of_class_class c fs : Forall (fun x => f_class x = c) (of_class c fs).
Proof. apply Forall_forall. intros x X. apply filter_In in X as [_ X]. destruct (filter_class_dec (f_class x) c); [assumption|discriminate X]. Qed.
Definition not_one (fs : list filt) (c : filter_class) : Prop := List.length (of_class c fs) <> 1%nat.
Lemma one_or_list_two l : List.length l <> 1%nat -> one_or_list l = XList l.
Proof. destruct l as [|x [|y l]]; intros H; [reflexivity|cbn in H; congruence|reflexivity]. Qed.
Lemma not_fir_of_class c fs : not_fir (of_class c fs) = if filter_class_dec c FIR then [] else of_class c fs.
Proof.
  unfold not_fir. pose proof (of_class_class c fs) as F. destruct (filter_class_dec c FIR) as [->|N].
  - apply filter_nil. intros x X. rewrite Forall_forall in F. rewrite (F x X). reflexivity.
  - apply filter_id. intros x X. rewrite Forall_forall in F. rewrite (F x X). destruct (filter_class_dec c FIR); [contradiction|reflexivity].
Qed.
Lemma read_filters_spec fs cs : forall acc, (forall c, In c cs -> not_one fs c) ->
  read_filters (map (fun c => (filter_tag c, one_or_list (map (fun x => XDict (f_fields x)) (of_class c fs)))) cs) acc = Ok (fold_left put_key (not_fir (flat_map (fun c => of_class c fs) cs)) acc).
Proof.
  induction cs as [|c cs IH]; intros acc H; [reflexivity|]. cbn [map read_filters flat_map]. rewrite class_read_tag. unfold not_fir. rewrite filter_app. fold (not_fir (of_class c fs)). fold (not_fir (flat_map (fun c0 => of_class c0 fs) cs)).
  rewrite not_fir_of_class. destruct (filter_class_dec c FIR) as [->|N]; [apply IH; intros x X; apply H; right; exact X|].
  rewrite one_or_list_two by (rewrite map_length; apply H; left; reflexivity). rewrite make_filters_spec by apply of_class_class. cbn [bindR]. rewrite fold_left_app. apply IH. intros x X. apply H. right. exact X.
Qed.
Lemma give_filters_lists fs : (forall c, not_one fs c) -> give_filters (filters_value fs) = Ok tt.
Proof.
  intros H. unfold filters_value. destruct fs as [|f fs]; [reflexivity|]. set (l := f :: fs) in *. cbn [give_filters].
  match goal with |- (if existsb ?g ?d then _ else _) = _ => assert (E : existsb g d = false) end.
  { induction (classes l) as [|c cs IH]; [reflexivity|]. cbn [map existsb snd]. rewrite one_or_list_two by (rewrite map_length; apply H). exact IH. }
  rewrite E. reflexivity.
Qed.
Lemma give_filters_one fs c f : of_class c fs = [f] -> f_fields f <> [] -> give_filters (filters_value fs) = Err AttributeError.
Proof.
  intros O N. assert (I : In f fs) by (assert (X : In f (of_class c fs)) by (rewrite O; left; reflexivity); apply filter_In in X; tauto).
  assert (C : f_class f = c) by (pose proof (of_class_class c fs) as F; rewrite O in F; inversion F; assumption).
  unfold filters_value. destruct fs as [|g fs]; [destruct I|]. set (l := g :: fs) in *. cbn [give_filters].
  match goal with |- (if existsb ?g ?d then _ else _) = _ => assert (E : existsb g d = true) end.
  { apply existsb_exists. exists (filter_tag c, XDict (f_fields f)). split.
    - apply in_map_iff. exists c. split; [rewrite O; reflexivity|]. apply In_first_seen. rewrite <- C. apply in_map. exact I.
    - cbn [snd]. destruct (f_fields f); [congruence|reflexivity]. }
  rewrite E. reflexivity.
Qed.
Lemma by_class_classes fs : by_class fs = flat_map (fun c => of_class c fs) (classes fs).
Proof. reflexivity. Qed.
Definition filters_read (fs : list filt) : list (text * filt) := fold_left put_key (not_fir (by_class fs)) [].
Lemma read_filters_value fs : (forall c, not_one fs c) -> match filters_value fs with XNone => Ok [] | XDict d => read_filters d [] | _ => Err AttributeError end = Ok (filters_read fs).
Proof.
  intros H. unfold filters_value, filters_read. destruct fs as [|f fs]; [reflexivity|]. rewrite read_filters_spec by (intros c _; apply H). reflexivity.
Qed.

(** ** Surveys *)
Lemma survey_value v v' : survey_back v v' -> v_stations v <> [] -> exists vs, Forall is_dict vs /\ Forall2 (fun e x => read e = Ok x) (map station_xml (v_stations v)) vs /\
  read (survey_xml v) = Ok (XDict (left_over (v_fields v') ((txt "filters", filters_value (v_filters v')) :: map (fun x => (txt "station", x)) vs) [txt "filters"; txt "station"])) /\
  ((forall s, In s (v_stations v) -> s_runs s <> []) -> each read_station vs = Ok (map sorted_station (v_stations v'))) /\
  ((exists s, In s (v_stations v) /\ s_runs s = []) -> each read_station vs = Err KeyError).
Proof.
  intros (O & F & G & NS & NF) NE. destruct (own_inv _ _ O) as (_ & _ & _ & K & _).
  assert (V : exists vs, Forall is_dict vs /\ Forall2 (fun e x => read e = Ok x) (map station_xml (v_stations v)) vs /\
     ((forall s, In s (v_stations v) -> s_runs s <> []) -> each read_station vs = Ok (map sorted_station (v_stations v'))) /\
     ((exists s, In s (v_stations v) /\ s_runs s = []) -> each read_station vs = Err KeyError)).
  { clear - G. induction G as [|s s' l l' SB _ (vs & A & B & C & D)]; [exists []; repeat split; try constructor; intros (? & [] & _)|].
    assert (E : s_runs s = [] \/ s_runs s <> []) by (destruct (s_runs s); [left; reflexivity|right; discriminate]). destruct E as [E|E].
    - destruct (read_station_without _ _ SB E) as (x & X1 & X2 & X3). exists (x :: vs). split; [constructor; assumption|]. split; [constructor; assumption|]. cbn [each]. rewrite X3. split; [|reflexivity].
      intros H. exfalso. apply (H s (or_introl eq_refl) E).
    - destruct (read_station_value _ _ SB E) as (x & X1 & X2 & X3). exists (x :: vs). split; [constructor; assumption|]. split; [constructor; assumption|]. cbn [each map]. rewrite X3. cbn [bindR]. split.
      + intros H. rewrite C; [reflexivity|]. intros y Y. apply H. right. exact Y.
      + intros (y & [<-|Y] & Z); [contradiction|]. rewrite D by eauto. reflexivity. }
  destruct V as (vs & A & B & C & D). exists vs. split; [exact A|]. split; [exact B|]. split; [|split; assumption].
  destruct (tags_same (txt "station") station_xml (v_stations v) (fun _ => eq_refl)) as [T1 T2].
  assert (VN : vs <> []) by (intros ->; inversion B as [X|]; destruct (v_stations v); [congruence|discriminate X]).
  unfold survey_xml. rewrite (element_read _ _ (v_fields v') _ (filters_value (v_filters v') :: vs) O).
  - cbn [map combine tag_of]. rewrite (combine_same _ _ _ B T2). unfold left_over, grouped. cbn [map fst]. rewrite map_map. cbn [fst first_seen]. rewrite first_seen_same by exact VN. reflexivity.
  - constructor; [apply read_filters_element; exact F|exact B].
  - intros k I J. cbn [map tag_of] in J. rewrite T1 in J. destruct J as [<-|J]; [exact (NF I)|]. apply in_map_iff in J. destruct J as (? & <- & _). exact (NS I).
  - cbn [map tag_of]. rewrite T1. intros [J|J]; [discriminate J|]. apply in_map_iff in J. destruct J as (? & J & _). discriminate J.
Qed.
Lemma vals_station (x : xval) (vs : list xval) : vals (txt "station") ((txt "filters", x) :: map (fun x => (txt "station", x)) vs) = vs.
Proof. change ((txt "filters", x) :: map (fun x => (txt "station", x)) vs) with ([(txt "filters", x)] ++ map (fun x => (txt "station", x)) vs). rewrite vals_app, vals_same. reflexivity. Qed.
Lemma vals_filters (x : xval) (vs : list xval) : vals (txt "filters") ((txt "filters", x) :: map (fun x => (txt "station", x)) vs) = [x].
Proof.
  change ((txt "filters", x) :: map (fun x => (txt "station", x)) vs) with ([(txt "filters", x)] ++ map (fun x => (txt "station", x)) vs). rewrite vals_app, (vals_none (txt "filters") (map _ vs)); [reflexivity|].
  rewrite map_map. cbn [fst]. intros I. apply in_map_iff in I. destruct I as (? & I & _). discriminate I.
Qed.
(** What is read of the survey, in terms of the two parts *)
Lemma read_survey_value d vs x : ~ In (txt "station") (map fst d) -> ~ In (txt "filters") (map fst d) -> Forall is_dict vs -> vs <> [] ->
  read_survey (XDict (left_over d ((txt "filters", x) :: map (fun y => (txt "station", y)) vs) [txt "filters"; txt "station"])) =
  bindR (give_filters x) (fun _ => bindR (match x with XNone => Ok [] | XDict d => read_filters d [] | _ => Err AttributeError end) (fun fs => bindR (each read_station vs) (fun ss => Ok (mkRead d fs ss)))).
Proof.
  intros NS NF A VN. unfold read_survey.
  assert (P : pop_list (txt "station") (XDict (left_over d ((txt "filters", x) :: map (fun y => (txt "station", y)) vs) [txt "filters"; txt "station"])) = Ok (vs, XDict (d ++ [(txt "filters", x)]))).
  { unfold pop_list, pop, left_over. rewrite dget_app_r by exact NS. cbn [map]. rewrite vals_station, vals_filters. cbn [one_or_list].
    change (dget text_dec (txt "station") [(txt "filters", x); (txt "station", one_or_list vs)]) with (Some (one_or_list vs)). cbn [bindR fst snd]. rewrite (unlist vs A VN). rewrite ddel_app_r by exact NS. reflexivity. }
  rewrite P. cbn [bindR fst snd]. rewrite dget_app_r by exact NF. change (dget text_dec (txt "filters") [(txt "filters", x)]) with (Some x). cbn [pop]. rewrite dget_app_r by exact NF.
  change (dget text_dec (txt "filters") [(txt "filters", x)]) with (Some x). cbn [bindR fst snd]. rewrite ddel_app_r by exact NF. change (ddel text_dec (txt "filters") [(txt "filters", x)]) with (@nil (text * xval)). rewrite app_nil_r.
  destruct (give_filters x) as [[]|e]; [|reflexivity]. cbn [bindR fields_of]. reflexivity.
Qed.
Lemma read_survey_back v v' : survey_back v v' -> v_stations v <> [] -> exists vs,
  read_survey_element (survey_xml v) = bindR (give_filters (filters_value (v_filters v'))) (fun _ =>
    bindR (match filters_value (v_filters v') with XNone => Ok [] | XDict d => read_filters d [] | _ => Err AttributeError end) (fun fs => bindR (each read_station vs) (fun ss => Ok (mkRead (v_fields v') fs ss)))) /\
  ((forall s, In s (v_stations v) -> s_runs s <> []) -> each read_station vs = Ok (map sorted_station (v_stations v'))) /\
  ((exists s, In s (v_stations v) /\ s_runs s = []) -> each read_station vs = Err KeyError).
Proof.
  intros SB NE. destruct (survey_value v v' SB NE) as (vs & A & B & R & C & D). exists vs. split; [|split; assumption].
  destruct SB as (O & F & G & NS & NF). destruct (own_inv _ _ O) as (_ & _ & _ & K & _). unfold keys in *. rewrite K in NS, NF.
  unfold read_survey_element. rewrite R. cbn [bindR]. change (tag_of (survey_xml v)) with (txt "survey"). rewrite text_eqb_refl. apply read_survey_value; try assumption.
  intros ->. inversion B as [X|]. destruct (v_stations v); [congruence|discriminate X].
Qed.

(** ** Keys *)
Lemma put_distinct l : forall acc, NoDup (map fst acc ++ map key_of l) -> fold_left put_key l acc = acc ++ map (fun f => (key_of f, f)) l.
Proof.
  induction l as [|f l IH]; intros acc ND; [rewrite app_nil_r; reflexivity|]. cbn [fold_left map]. unfold put_key at 2. rewrite dset_fresh.
  - rewrite IH; [rewrite <- app_assoc; reflexivity|]. rewrite map_app. cbn [map fst]. rewrite <- app_assoc. exact ND.
  - intros I. cbn [map] in ND. apply NoDup_remove_2 in ND. apply ND. apply in_or_app. left. exact I.
Qed.
Lemma put_last l : forall acc k, dget text_dec k (fold_left put_key l acc) = fold_left (fun a f => if text_dec k (key_of f) then Some f else a) l (dget text_dec k acc).
Proof.
  induction l as [|f l IH]; intros acc k; [reflexivity|]. cbn [fold_left]. rewrite IH. f_equal. unfold put_key. destruct (text_dec k (key_of f)) as [->|N]; [apply dget_dset_eq|apply dget_dset_neq; exact N].
Qed.
Lemma In_by_class fs f : In f (by_class fs) <-> In f fs.
Proof.
  unfold by_class. rewrite in_flat_map. split.
  - intros (c & _ & I). apply filter_In in I. tauto.
  - intros I. exists (f_class f). split; [apply In_first_seen; apply in_map; exact I|]. apply filter_In. split; [exact I|]. destruct (filter_class_dec (f_class f) (f_class f)); congruence.
Qed.
