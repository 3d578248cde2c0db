(** C115: an experiment that is written as a dictionary and read, and the filters of a survey.  C116: the class of a channel. *)
From Verif Require Import PyBase PyFacts PyText TextFacts XmlModel ExpxModel ExpdModel ExpdSpec ExpdProofs.
From Coq Require Import Lia.
Local Open Scope list_scope.

(** An experiment without frequency tables comes back: all surveys, stations, runs and channels with their classes and fields in their
    order, and all filters under their names, if no two filters of a survey have one name. *)
Theorem C115_an_experiment_is_read : forall vs, Forall survey_ok vs ->
  (forall v f, In v vs -> In f (v_filters v) -> f_class f <> ResponseTable) -> (forall v, In v vs -> NoDup (map the_name (v_filters v))) ->
  from_dict (to_dict vs) = Ok (map (fun v => mkRead (v_fields v) (map (fun f => (the_name f, f)) (v_filters v)) (v_stations v)) vs).
Proof.
  intros vs OK NT ND. apply each_map. rewrite Forall_forall in OK |- *. intros v I. specialize (OK v I). rewrite (survey_parts v OK). rewrite filters_back; [|apply OK|intros f; apply NT; exact I].
  cbn [bindR]. rewrite put_named_distinct by (apply ND; exact I). reflexivity.
Qed.
(** Otherwise the last filter of a name is kept. *)
Theorem C115_the_last_of_a_name : forall v, survey_ok v -> (forall f, In f (v_filters v) -> f_class f <> ResponseTable) ->
  exists q, survey_of (survey_dict v) = Ok q /\ forall k, dget text_dec k (q_filters q) = last_such (fun f => same k (the_name f)) (v_filters v).
Proof.
  intros v OK NT. rewrite (survey_parts v OK). rewrite filters_back; [|apply OK|exact NT]. cbn [bindR]. eexists. split; [reflexivity|]. intros k. cbn [q_filters]. unfold put_named. rewrite (fill_get the_name (fun f => f)).
  destruct (last_such (fun x => same k (the_name x)) (v_filters v)); reflexivity.
Qed.
Lemma bad_typed fs : Forall typed_filter fs -> forall last acc, last <> None -> filters_in_list (map (fun f => GDict (f_fields f)) fs) last acc true = Err TypeError.
Proof.
  induction 1 as [|f fs T _ IH]; intros last acc L; [reflexivity|]. cbn [map filters_in_list]. rewrite T. destruct (class_of_type (filter_type (f_class f))); [apply IH; discriminate|]. destruct last; [|congruence]. apply IH. exact L.
Qed.
(** A survey with a frequency table cannot be read: the type that a table writes is not one that is read. *)
Theorem C115_tables_refuted : forall v, survey_ok v -> (exists f, In f (v_filters v) /\ f_class f = ResponseTable) ->
  survey_of (survey_dict v) = Err (match v_filters v with f :: _ => if match f_class f with ResponseTable => true | _ => false end then UnboundLocalError else TypeError | [] => TypeError end).
Proof.
  intros v OK (t & I & T). rewrite (survey_parts v OK). cbn [set_filters]. destruct OK as [OK _]. destruct v as [d fs ss]. cbn [v_filters v_fields v_stations] in *.
  assert (G : forall last acc, last <> None -> filters_in_list (map (fun f => GDict (f_fields f)) fs) last acc false = Err TypeError).
  { clear d ss. induction OK as [|f fs Tf Fs IH]; [destruct I|]. intros last acc L. cbn [map filters_in_list]. rewrite Tf. destruct (f_class f) eqn:C; cbn [filter_type].
    4: { change (class_of_type (txt "fap")) with (@None filter_class). cbv iota beta. destruct last as [l|]; [|congruence]. apply bad_typed; [exact Fs|exact L]. }
    all: match goal with |- context [class_of_type ?x] => let y := eval vm_compute in (class_of_type x) in change (class_of_type x) with y end; cbv iota beta; apply IH; [destruct I as [->|I]; [congruence|exact I]|discriminate]. }
  destruct fs as [|f fs]; [destruct I|]. cbn [map filters_in_list]. inversion OK as [|? ? Tf Fs]; subst. cbn [map filters_in_list] in G. rewrite Tf in G |- *.
  destruct (class_of_type (filter_type (f_class f))) as [c|] eqn:C.
  - specialize (G (Some c) []). rewrite G by discriminate. destruct (f_class f); try reflexivity. discriminate C.
  - destruct (f_class f); try discriminate C. reflexivity.
Qed.

(** A list is taken exactly if everything in it is a filter or a dictionary with one of five types, in any case. *)
Definition read_types : list text := [txt "zpk"; txt "coefficient"; txt "time delay"; txt "fir"; txt "frequency response table"].
Definition taken (g : given) : Prop :=
  match g with GFilter _ => True | GDict d => exists t, dget text_dec (txt "type") d = Some (XText t) /\ In (lower t) read_types | GOther => False end.
Lemma class_taken t : (exists c, class_of_type t = Some c) <-> In (lower t) read_types.
Proof.
  unfold class_of_type. split.
  - intros [c H]. repeat match goal with H : (if text_eqb ?a ?b then _ else _) = _ |- _ => let E := fresh in destruct (text_eqb a b) eqn:E; [apply text_eqb_eq in E; rewrite E; unfold read_types; cbn [In]; tauto|clear E] end. discriminate H.
  - unfold read_types. cbn [In]. intros [H|[H|[H|[H|[H|[]]]]]]; rewrite <- H; eexists; reflexivity.
Qed.
Theorem C115_a_list_is_taken : forall l, (exists fs, set_filters (VList l) = Ok fs) <-> Forall taken l.
Proof.
  intros l. cbn [set_filters].
  assert (B : forall l last acc, filters_in_list l last acc true <> Ok [] /\ forall fs, filters_in_list l last acc true <> Ok fs).
  { clear l. induction l as [|g l IH]; intros last acc; [split; [|intros fs]; discriminate|]. destruct g as [d|f|]; cbn [filters_in_list]; try apply IH.
    destruct (dget text_dec (txt "type") d) as [[]|]; try (split; [|intros fs]; discriminate). destruct (class_of_type s); [apply IH|]. destruct last; [apply IH|split; [|intros fs]; discriminate]. }
  assert (G : forall l last acc, (exists fs, filters_in_list l last acc false = Ok fs) <-> Forall taken l).
  { clear l. induction l as [|g l IH]; intros last acc; [split; intros _; [constructor|eexists; reflexivity]|]. destruct g as [d|f|]; cbn [filters_in_list].
    - split.
      + intros [fs H]. destruct (dget text_dec (txt "type") d) as [[|t| | |]|] eqn:D; try discriminate H. destruct (class_of_type t) as [c|] eqn:C.
        * constructor; [exists t; split; [exact D|apply class_taken; exists c; exact C]|]. eapply IH. exists fs. exact H.
        * destruct last; [exfalso; exact (proj2 (B _ _ _) fs H)|discriminate H].
      + intros F. inversion F as [|? ? T0 F']; subst. destruct T0 as (t & D & T). rewrite D. apply class_taken in T. destruct T as [c C]. rewrite C. apply IH. exact F'.
    - split; [intros H; constructor; [exact I|apply IH in H; exact H]|intros F; inversion F; subst; apply IH; assumption].
    - split; [intros [fs H]; exfalso; exact (proj2 (B _ _ _) fs H)|intros F; inversion F; subst; contradiction]. }
  apply G.
Qed.
(** Filters in a list are found under their names. *)
Theorem C115_filters_in_a_list : forall fs, exists F, set_filters (VList (map GFilter fs)) = Ok F /\ forall k, dget text_dec k F = last_such (fun f => same k (the_name f)) fs.
Proof.
  intros fs. assert (G : forall last acc, filters_in_list (map GFilter fs) last acc false = Ok (put_named acc fs)) by (induction fs as [|f fs IH]; intros last acc; [reflexivity|]; cbn [map filters_in_list]; rewrite IH; reflexivity).
  cbn [set_filters]. rewrite G. eexists. split; [reflexivity|]. intros k. unfold put_named. rewrite (fill_get the_name (fun f => f)). destruct (last_such (fun x => same k (the_name x)) fs); reflexivity.
Qed.
(** Filters in a dictionary are found under their keys in small letters, whatever their names; anything that is no filter is refused. *)
Theorem C115_filters_in_a_dictionary : forall d, exists F, set_filters (VDict (map (fun kf => (fst kf, GFilter (snd kf))) d)) = Ok F /\
  forall k, dget text_dec k F = option_map snd (last_such (fun kf => same k (lower (fst kf))) d).
Proof.
  intros d. set (put := fold_left (fun a (kf : text * filt) => dset text_dec (lower (fst kf)) (snd kf) a)).
  assert (G : forall acc, filters_in_dict (map (fun kf => (fst kf, GFilter (snd kf))) d) acc false = Ok (put d acc)) by (induction d as [|[k f] d IH]; intros acc; [reflexivity|]; cbn [map filters_in_dict fst snd]; rewrite IH; reflexivity).
  cbn [set_filters]. rewrite G. eexists. split; [reflexivity|]. intros k. unfold put. rewrite (fill_get (fun kf : text * filt => lower (fst kf)) snd). destruct (last_such (fun x => same k (lower (fst x))) d); reflexivity.
Qed.
Theorem C115_only_filters : forall d, (exists F, set_filters (VDict d) = Ok F) <-> Forall (fun kg => match snd kg with GFilter _ => True | _ => False end) d.
Proof.
  intros d. cbn [set_filters]. assert (B : forall d acc F, filters_in_dict d acc true <> Ok F) by (clear d; induction d as [|[k []] d IH]; intros acc F; cbn [filters_in_dict]; [discriminate|apply IH|apply IH|apply IH]).
  assert (G : forall d acc, (exists F, filters_in_dict d acc false = Ok F) <-> Forall (fun kg => match snd kg with GFilter _ => True | _ => False end) d); [|apply G].
  clear d. induction d as [|[k g] d IH]; intros acc; [split; intros _; [constructor|eexists; reflexivity]|]. destruct g as [x|f|]; cbn [filters_in_dict].
  - split; [intros [F H]; exfalso; exact (B _ _ _ H)|intros H; inversion H as [|? ? X]; contradiction].
  - split; [intros H; constructor; [exact I|apply (proj1 (IH _) H)]|intros H; inversion H; subst; apply IH; assumption].
  - split; [intros [F H]; exfalso; exact (B _ _ _ H)|intros H; inversion H as [|? ? X]; contradiction].
Qed.
Lemma lower_twice s : lower (lower s) = lower s.
Proof.
  unfold lower. rewrite map_map. apply map_ext. intros c. apply Ascii.eqb_eq. revert c. apply ascii_forall. vm_compute. reflexivity.
Qed.
(** So giving a survey the filters it has loses every key with a capital letter: a filter that was read from a dictionary under its name is not
    there any more under that name. *)
Theorem C115_given_again_refuted : forall d k, lower k <> k -> exists F, set_filters (VDict (map (fun kf => (fst kf, GFilter (snd kf))) d)) = Ok F /\ dget text_dec k F = None.
Proof.
  intros d k N. destruct (C115_filters_in_a_dictionary d) as (F & E & G). exists F. split; [exact E|]. rewrite G. unfold last_such. assert (H : forall o, fold_left (fun acc x => if same k (lower (fst x)) then Some x else acc) d o = o).
  { clear F E G. induction d as [|kf d IH]; intros o; [reflexivity|]. cbn [fold_left]. unfold same at 2. destruct (text_dec k (lower (fst kf))) as [->|_]; [rewrite lower_twice in N; congruence|apply IH]. }
  rewrite H. reflexivity.
Qed.

(** ** C116 *)
(** The class that the first letter of a name says, in any case *)
Definition class_of_letter (x : ascii) : channel_class :=
  if Ascii.eqb x "e" then Electric else if Ascii.eqb x "h" then Magnetic else if Ascii.eqb x "b" then Magnetic else Auxiliary.
Definition class_of_name (s : text) : channel_class :=
  match lower s with [] => Auxiliary | x :: _ => if same (lower s) (txt "magnetic") then Magnetic else class_of_letter x end.
(** A name is a channel of the class that its first letter says, if the name may be a component of that class, and is refused otherwise. *)
Theorem C116_a_name_is_a_channel : forall s, let d := [(txt "component", XText s)] in
  (named_for (class_of_name s) (lower s) -> channel_of (XText s) = Ok (mkChan (class_of_name s) d)) /\
  (~ named_for (class_of_name s) (lower s) -> channel_of (XText s) = Err ValueError).
Proof.
  intros s d. assert (E : channel_of (XText s) = make_channel (class_of_name s) d).
  { cbn [channel_of]. unfold channel_of_name. fold d. f_equal. unfold class_of_name, class_of_letter, starts, same. destruct (lower s) as [|x r] eqn:L.
    - reflexivity.
    - destruct (text_dec (x :: r) (txt "magnetic")) as [M|M].
      + injection M as -> ->. reflexivity.
      + replace (text_eqb (x :: r) (txt "magnetic")) with false by (symmetry; apply not_true_iff_false; intros H; apply text_eqb_eq in H; contradiction). rewrite orb_false_r. destruct (Ascii.eqb x "e"), (Ascii.eqb x "h"), (Ascii.eqb x "b"); reflexivity. }
  rewrite E. unfold make_channel. change (dget text_dec (txt "component") d) with (Some (XText s)). cbv iota beta. split.
  - intros N. apply fits_named in N. rewrite N. reflexivity.
  - intros N. destruct (component_fits (class_of_name s) (lower s)) eqn:F; [exfalso; apply N; apply fits_named; exact F|reflexivity].
Qed.
(** What a channel writes is read as a channel of its class. *)
Theorem C116_a_channel_comes_back : forall c, typed_channel c -> channel_of (XDict (c_fields c)) = Ok c.
Proof. exact channel_back. Qed.
(** Without a type the first letter of the component counts, but not for an h: that is an auxiliary channel, while the name alone is a magnetic channel. *)
Theorem C116_h_without_type_refuted : forall r d, Forall tail_char r ->
  dget text_dec (txt "type") d = Some XNone -> dget text_dec (txt "component") d = Some (XText ("h"%char :: r)) ->
  channel_of (XDict d) = Ok (mkChan Auxiliary d) /\ exists d', channel_of (XText ("h"%char :: r)) = Ok (mkChan Magnetic d').
Proof.
  intros r d T D C. split.
  - cbn [channel_of]. unfold channel_of_dict, type_of. rewrite D, C. cbn [bindR]. unfold make_channel. rewrite C. change (starts "e" (txt "h")) with false. cbn [component_fits lower map existsb]. reflexivity.
  - eexists. apply (C116_a_name_is_a_channel ("h"%char :: r)). unfold class_of_name. cbn [lower map]. change (to_lower "h") with "h"%char. fold (lower r). rewrite (tails_lower r T).
    assert (E : same ("h"%char :: r) (txt "magnetic") = false) by (unfold same; destruct (text_dec ("h"%char :: r) (txt "magnetic")) as [X|_]; [discriminate X|reflexivity]). rewrite E. exists "h"%char, r. repeat split; [auto|exact T].
Qed.
(** Any type that begins with e or b counts as electric or magnetic: a battery is no auxiliary channel, and is refused unless its component is
    one of a magnetic channel. *)
Theorem C116_words_of_types_refuted : forall x t d s c, dget text_dec (txt "type") d = Some (XText (x :: t)) -> dget text_dec (txt "component") d = Some (XText s) ->
  (c = Magnetic /\ (x = "b" \/ x = "B")%char \/ c = Electric /\ (x = "e" \/ x = "E")%char) ->
  (named_for c (lower s) -> channel_of (XDict d) = Ok (mkChan c d)) /\ (~ named_for c (lower s) -> channel_of (XDict d) = Err ValueError).
Proof.
  intros x t d s c T C S. assert (E : channel_of (XDict d) = if component_fits c (lower s) then Ok (mkChan c d) else Err ValueError).
  { cbn [channel_of]. unfold channel_of_dict, type_of. rewrite T. cbn [bindR]. unfold make_channel. rewrite C. destruct S as [[-> [-> | ->]]|[-> [-> | ->]]]; reflexivity. }
  rewrite E. split; intros N; [apply fits_named in N; rewrite N; reflexivity|]. destruct (component_fits c (lower s)) eqn:F; [exfalso; apply N; apply fits_named; exact F|reflexivity].
Qed.
(** A magnetic channel may be called r..., but such a name is an auxiliary channel. *)
Theorem C116_r_refuted : forall r, Forall tail_char r -> named_for Magnetic ("r"%char :: r) /\ exists d, channel_of (XText ("r"%char :: r)) = Ok (mkChan Auxiliary d).
Proof.
  intros r T. split; [exists "r"%char, r; auto|]. eexists. apply (C116_a_name_is_a_channel ("r"%char :: r)). unfold class_of_name. cbn [lower map]. change (to_lower "r") with "r"%char. fold (lower r). rewrite (tails_lower r T).
  assert (E : same ("r"%char :: r) (txt "magnetic") = false) by (unfold same; destruct (text_dec ("r"%char :: r) (txt "magnetic")) as [X|_]; [discriminate X|reflexivity]). rewrite E.
  exists [], "r"%char, r. split; [reflexivity|]. left. unfold small_letter. cbn. lia.
Qed.
(** A dictionary without a type is refused, and so is the list that it is in. *)
Theorem C116_a_type_is_needed : forall d l1 l2, dget text_dec (txt "type") d = None -> (forall v, In v (l1 ++ l2) -> exists c, channel_of v = Ok c) ->
  channel_of (XDict d) = Err KeyError /\ run_of (XDict [(txt "id", XText (txt "a")); (txt "channels", XList (l1 ++ XDict d :: l2))]) = Err TypeError.
Proof.
  intros d l1 l2 D A. assert (E : channel_of (XDict d) = Err KeyError) by (cbn [channel_of]; unfold channel_of_dict, type_of; rewrite D; reflexivity). split; [exact E|].
  cbn [run_of unwrap]. change (parts (txt "channels") channel_of _) with (collect channel_of (l1 ++ XDict d :: l2) false).
  assert (B : forall l, (forall v, In v l -> exists c, channel_of v = Ok c) -> collect channel_of l true = Err TypeError).
  { induction l as [|v l IH]; intros H; [reflexivity|]. cbn [collect]. destruct (H v (or_introl eq_refl)) as [c ->]. rewrite IH by (intros w I; apply H; right; exact I). reflexivity. }
  assert (G : collect channel_of (l1 ++ XDict d :: l2) false = Err TypeError); [|rewrite G; reflexivity].
  induction l1 as [|v l1 IH].
  - cbn [app collect]. rewrite E. apply B. exact A.
  - cbn [app collect]. destruct (A v (or_introl eq_refl)) as [c ->]. rewrite IH by (intros w I; apply A; right; exact I). reflexivity.
Qed.

(** ** Cases *)
Definition ex_ch (c : channel_class) (n : string) : chan := mkChan c [(txt "type", XText (channel_type c)); (txt "component", XText (txt n))].
Definition ex_f (c : filter_class) (n : string) : filt := mkFilt c [(txt "name", XText (txt n)); (txt "type", XText (filter_type c)); (txt "gain", XNum (txt "2.0"))].
Definition ex_v (fs : list filt) : survey :=
  mkSurvey [(txt "id", XText (txt "S"))] fs [mkStation [(txt "id", XText (txt "MT1"))] [mkRun [(txt "id", XText (txt "a"))] [ex_ch Electric "ex"; ex_ch Magnetic "hy"; ex_ch Auxiliary "temperature"; ex_ch Magnetic "rrx"]; mkRun [(txt "id", XText (txt "b"))] []]; mkStation [(txt "id", XText (txt "MT2"))] []].
Lemma ex_ok fs : Forall typed_filter fs -> survey_ok (ex_v fs).
Proof.
  intros T. split; [exact T|]. split; [|split; cbn; intros [X|[]]; discriminate X]. constructor; [|constructor; [|constructor]]; (split; [|cbn; intros [X|[]]; discriminate X]); cbn [s_runs]; [|constructor].
  constructor; [|constructor; [|constructor]]; (split; [|cbn; intros [X|[]]; discriminate X]); cbn [r_channels]; [|constructor].
  assert (K : forall c n, named_for c (txt n) -> typed_channel (ex_ch c n)) by (intros c n N; split; [reflexivity|exists (txt n); split; [reflexivity|exact N]]).
  assert (S : forall c, (97 <=? nat_of_ascii c)%nat = true -> (nat_of_ascii c <=? 122)%nat = true -> tail_char c) by (intros c A B; left; apply Nat.leb_le in A, B; split; assumption).
  constructor; [|constructor; [|constructor; [|constructor; [|constructor]]]]; apply K.
  - exists (txt "x"). split; [reflexivity|]. constructor; [apply S; reflexivity|constructor].
  - exists "h"%char, (txt "y"). split; [reflexivity|]. split; [auto|]. constructor; [apply S; reflexivity|constructor].
  - exists [], "t"%char, (txt "emperature"). split; [reflexivity|apply S; reflexivity].
  - exists "r"%char, (txt "rx"). split; [reflexivity|]. split; [auto|]. constructor; [apply S; reflexivity|constructor; [apply S; reflexivity|constructor]].
Qed.
Example C115_hyp : let fs := [ex_f PoleZero "Low_pass"; ex_f FIR "fir"; ex_f Coefficient "v_to_mv"; ex_f TimeDelay "delay"] in
  Forall survey_ok [ex_v fs] /\ (forall f, In f fs -> f_class f <> ResponseTable) /\ NoDup (map the_name fs).
Proof.
  cbv zeta. split; [constructor; [|constructor]; apply ex_ok; repeat constructor|]. split; [intros f I; cbn [In] in I; repeat (destruct I as [<-|I]; [discriminate|]); destruct I|].
  repeat constructor; cbn; intros H; repeat (destruct H as [H|H]; [discriminate H|]); exact H.
Qed.
Example C115_hyp_table : survey_ok (ex_v [ex_f Coefficient "a"; ex_f ResponseTable "b"]) /\ survey_of (survey_dict (ex_v [ex_f Coefficient "a"; ex_f ResponseTable "b"])) = Err TypeError /\
  survey_of (survey_dict (ex_v [ex_f ResponseTable "b"])) = Err UnboundLocalError.
Proof. split; [apply ex_ok; repeat constructor|]. split; vm_compute; reflexivity. Qed.
(** The filter that was found under its name before *)
Example C115_hyp_again : let f := ex_f PoleZero "Low_pass" in
  set_filters (VList [GFilter f]) = Ok [(txt "Low_pass", f)] /\ set_filters (VDict [(txt "Low_pass", GFilter f)]) = Ok [(txt "low_pass", f)].
Proof. split; vm_compute; reflexivity. Qed.
Example C115_hyp_taken : taken (GDict [(txt "type", XText (txt "Time Delay"))]) /\ ~ taken (GDict [(txt "type", XText (txt "time_delay"))]) /\ ~ taken (GDict [(txt "type", XText (txt "fap"))]).
Proof. split; [exists (txt "Time Delay"); split; [reflexivity|cbn; auto]|]. split; intros (t & E & I); vm_compute in E; injection E as <-; cbn in I; repeat (destruct I as [I|I]; [discriminate I|]); exact I. Qed.
Example C116_hyp : let d := [(txt "type", XNone); (txt "component", XText (txt "hx"))] in
  channel_of (XDict d) = Ok (mkChan Auxiliary d) /\ class_of_name (txt "Hx") = Magnetic /\ class_of_name (txt "EX") = Electric /\ class_of_name (txt "magnetic") = Magnetic /\
  channel_of (XText (txt "e-x")) = Err ValueError.
Proof. repeat split; vm_compute; reflexivity. Qed.
Example C116_hyp_battery : let d := [(txt "type", XText (txt "battery")); (txt "component", XText (txt "voltage"))] in channel_of (XDict d) = Err ValueError.
Proof. vm_compute. reflexivity. Qed.

Print Assumptions C115_an_experiment_is_read.
Print Assumptions C115_the_last_of_a_name.
Print Assumptions C115_tables_refuted.
Print Assumptions C115_a_list_is_taken.
Print Assumptions C115_filters_in_a_list.
Print Assumptions C115_filters_in_a_dictionary.
Print Assumptions C115_only_filters.
Print Assumptions C115_given_again_refuted.
Print Assumptions C116_a_name_is_a_channel.
Print Assumptions C116_a_channel_comes_back.
Print Assumptions C116_h_without_type_refuted.
Print Assumptions C116_words_of_types_refuted.
Print Assumptions C116_r_refuted.
Print Assumptions C116_a_type_is_needed.
