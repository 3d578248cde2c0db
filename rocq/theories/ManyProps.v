(** C121: the XML files of a directory sorted into stations, runs and channels. *)
From Coq Require Import Permutation Sorted.
From Verif Require Import PyBase PyFacts PyText TextFacts JfileModel ManyModel ManySpec ManyProofs.
From Coq Require Import Lia.
Local Open Scope list_scope.

(** Every file is exactly one of the five: filters, survey, station, run, channel. *)
Theorem C121_kinds f :
  (is_filter f = true <-> filter_file f) /\ (is_survey f = true <-> survey_file f) /\ (is_station f = true <-> exists s, station_file s f)
  /\ (is_run f = true <-> exists s r, run_file s r f) /\ (is_channel f = true <-> exists s r, channel_file s r f).
Proof.
  split; [apply is_filter_spec|]. split; [apply is_survey_spec|]. split; [|split; [apply is_run_spec|apply is_channel_spec]].
  rewrite is_station_spec. split; [intros H; exists (f_stem f); exact H|]. intros (s & E & N & R). rewrite E. split; [exact E|]. split; assumption.
Qed.
Theorem C121_one_kind f : List.length (filter (fun b : bool => b) [is_filter f; is_survey f; is_station f; is_run f; is_channel f]) = 1%nat.
Proof.
  assert (R : forall s, In s [txt "filters"; txt "_filters"; txt "survey"; txt "_survey"] -> f_stem f = s -> List.length (filter (fun b : bool => b) [is_filter f; is_survey f; is_station f; is_run f; is_channel f]) = 1%nat).
  { intros s I E. unfold is_filter, is_survey, is_station, is_run, is_channel. rewrite E. destruct I as [<-|[<-|[<-|[<-|[]]]]]; reflexivity. }
  destruct (existsb (text_eqb (f_stem f)) [txt "filters"; txt "_filters"; txt "survey"; txt "_survey"]) eqn:E.
  - apply in_names in E. exact (R _ E eq_refl).
  - cbn [existsb] in E. rewrite orb_false_r in E. apply orb_false_iff in E as [E1 E]. apply orb_false_iff in E as [E2 E]. apply orb_false_iff in E as [E3 E4].
    unfold is_filter, is_survey, is_station, is_run, is_channel. cbn [existsb]. rewrite E1, E2, E3, E4. cbn [orb]. destruct (dots (f_stem f)) as [|[|n]]; reflexivity.
Qed.

(** The files can be sorted exactly if there are a survey, filters and every station that is wanted. *)
Lemma mapR_Ok {A B} (g : A -> result B) l : (forall x, In x l -> exists y, g x = Ok y) -> exists m, mapR g l = Ok m.
Proof.
  induction l as [|x l IH]; intros H; [exists []; reflexivity|]. destruct (H x (or_introl eq_refl)) as (y & E). destruct IH as (m & M); [intros z I; apply H; right; exact I|].
  exists (y :: m). cbn [mapR]. rewrite E. cbn [bindR]. rewrite M. reflexivity.
Qed.
Lemma mapR_In {A B} (g : A -> result B) l : forall m, mapR g l = Ok m -> Forall2 (fun x y => g x = Ok y) l m.
Proof.
  induction l as [|x l IH]; intros m M; cbn [mapR] in M; [injection M as <-; constructor|]. destruct (g x) as [y|] eqn:E; [|discriminate M]. cbn [bindR] in M.
  destruct (mapR g l) as [m'|]; [|discriminate M]. cbn [bindR] in M. injection M as <-. constructor; [exact E|]. apply IH. reflexivity.
Qed.
Lemma first_of files P (Q : file -> Prop) : (forall f, P (make_row f) = true <-> Q f) -> (exists f, In f files /\ Q f) <-> exists f, first_fn (filter P (make_df files)) = Ok f.
Proof.
  intros H. unfold make_df. rewrite filter_map. match goal with |- context [map make_row ?l] => remember l as m eqn:E end. split.
  - intros (f & I & T). assert (J : In f m) by (rewrite E; apply filter_In; split; [exact I|apply H; exact T]). destruct m as [|g m]; [destruct J|]. exists g. reflexivity.
  - intros (f & X). destruct m as [|g m]; [discriminate X|]. exists g. assert (J : In g (g :: m)) by (left; reflexivity). rewrite E in J. apply filter_In in J as [I T]. split; [exact I|apply H; exact T].
Qed.
Theorem C121_sortable files wanted :
  (exists d, sort_by_station files wanted = Ok d)
  <-> (exists f, In f files /\ survey_file f) /\ (exists f, In f files /\ filter_file f) /\ forall s, In s wanted -> exists f, In f files /\ station_file s f.
Proof.
  rewrite (first_of files w_is_survey survey_file) by (intros f; apply is_survey_spec). rewrite (first_of files w_is_filters filter_file) by (intros f; apply is_filter_spec).
  unfold sort_by_station. cbv zeta. unfold survey, filters. split.
  - intros (d & E). destruct (first_fn (filter w_is_survey (make_df files))) as [a|]; [|discriminate E]. cbn [bindR] in E. destruct (first_fn (filter w_is_filters (make_df files))) as [b|]; [|discriminate E]. cbn [bindR] in E.
    split; [eexists; reflexivity|]. split; [eexists; reflexivity|]. intros s I.
    destruct (mapR (station_entry (make_df files)) match wanted with [] => stations (make_df files) | _ :: _ => wanted end) as [m|] eqn:M; [|discriminate E].
    apply mapR_In in M. assert (I2 : In s match wanted with [] => stations (make_df files) | _ :: _ => wanted end) by (destruct wanted; [destruct I|exact I]).
    destruct (Forall2_In_l _ _ _ _ M I2) as (y & _ & Y). unfold station_entry in Y. pose proof (first_station files s) as FS.
    destruct (first_fn (filter (fun r => text_eqb (w_station r) s && w_is_station r) (make_df files))) as [f|]; [exists f; exact FS|discriminate Y].
  - intros ((a & ->) & (b & ->) & H). cbn [bindR].
    destruct (mapR_Ok (station_entry (make_df files)) match wanted with [] => stations (make_df files) | _ :: _ => wanted end) as (m & M).
    + intros s I. assert (X : exists f, In f files /\ station_file s f) by (destruct wanted as [|w l]; [apply stations_In; exact I|apply H; exact I]).
      unfold station_entry. pose proof (first_station files s) as FS. destruct (first_fn (filter (fun r => text_eqb (w_station r) s && w_is_station r) (make_df files))) as [f|]; [eexists; reflexivity|].
      exfalso. destruct X as (f & I2 & S0). exact (proj2 FS f I2 S0).
    + rewrite M. eexists. reflexivity.
Qed.

(** The stations are those wanted, in that order, each with its own file; without a wish they are those of the directory. *)
Theorem C121_stations files wanted d : sort_by_station files wanted = Ok d ->
  survey_file (d_survey d) /\ In (d_survey d) files /\ filter_file (d_filters d) /\ In (d_filters d) files
  /\ exists names, Forall2 (fun s e => In (fst e) files /\ station_file s (fst e)) names (d_stations d)
     /\ (wanted <> [] -> names = wanted) /\ (wanted = [] -> exists l, names = map f_stem l /\ picked l files /\ forall f, In f l <-> In f files /\ exists s, station_file s f).
Proof.
  unfold sort_by_station. cbv zeta. intros E. destruct (survey (make_df files)) as [a|] eqn:EA; [|discriminate E]. cbn [bindR] in E. destruct (filters (make_df files)) as [b|] eqn:EB; [|discriminate E]. cbn [bindR] in E.
  destruct (mapR (station_entry (make_df files)) match wanted with [] => stations (make_df files) | _ :: _ => wanted end) as [m|] eqn:M; [|discriminate E]. cbn [bindR] in E. injection E as <-. cbn [d_survey d_filters d_stations].
  assert (FF : forall P (Q : file -> Prop) x, (forall f, P (make_row f) = true <-> Q f) -> first_fn (filter P (make_df files)) = Ok x -> Q x /\ In x files).
  { intros P Q x H X. unfold make_df in X. rewrite filter_map in X. match type of X with context [map make_row ?l] => remember l as n eqn:EN end. destruct n as [|g n]; [discriminate X|]. injection X as <-.
    assert (J : In g (g :: n)) by (left; reflexivity). rewrite EN in J. apply filter_In in J as [I T]. split; [apply H; exact T|exact I]. }
  destruct (FF w_is_survey survey_file a (fun f => is_survey_spec f) EA) as [A1 A2]. destruct (FF w_is_filters filter_file b (fun f => is_filter_spec f) EB) as [B1 B2].
  split; [exact A1|]. split; [exact A2|]. split; [exact B1|]. split; [exact B2|]. exists (match wanted with [] => stations (make_df files) | _ :: _ => wanted end). split; [|split].
  - apply mapR_In in M. revert M. generalize (match wanted with [] => stations (make_df files) | _ :: _ => wanted end). intros names M. induction M as [|s e names m X M IH]; constructor; [|exact IH].
    unfold station_entry in X. pose proof (first_station files s) as FS. destruct (first_fn (filter (fun r => text_eqb (w_station r) s && w_is_station r) (make_df files))) as [f|]; [|discriminate X]. cbn [bindR] in X. injection X as <-. exact FS.
  - destruct wanted; [congruence|reflexivity].
  - intros ->. exists (List.filter is_station files). split; [|split].
    + unfold stations, make_df. rewrite filter_map, map_map. cbn [make_row w_is_station w_station]. apply map_ext_in. intros f I. apply filter_In in I as [_ T]. apply is_station_spec in T as (_ & N & _). apply part_none, N.
    + clear. induction files as [|f l IH]; [constructor|]. cbn [List.filter]. destruct (is_station f); constructor; exact IH.
    + intros f. rewrite filter_In. destruct (C121_kinds f) as (_ & _ & K & _). rewrite K. reflexivity.
Qed.

(** The runs of a station are all its run files, in the order of their names. *)
Theorem C121_runs files wanted d e s : sort_by_station files wanted = Ok d -> In e (d_stations d) -> station_file s (fst e) ->
  (forall f, In f (map fst (snd e)) <-> In f files /\ exists r, run_file s r f)
  /\ (NoDup files -> NoDup (map fst (snd e)))
  /\ Sorted (fun f g => forall r q, run_file s r f -> run_file s q g -> earlier r q) (map fst (snd e)).
Proof.
  intros E I S0. assert (SE : snd e = map (run_entry (make_df files) s) (get_runs (make_df files) s)).
  { unfold sort_by_station in E. cbv zeta in E. destruct (survey (make_df files)); [|discriminate E]. cbn [bindR] in E. destruct (filters (make_df files)); [|discriminate E]. cbn [bindR] in E.
    destruct (mapR _ _) as [m|] eqn:M in E; [|discriminate E]. cbn [bindR] in E. injection E as <-. cbn [d_stations] in I. apply mapR_In in M. clear - I S0 M.
    induction M as [|x y l m X M IH]; [destruct I|]. destruct I as [<-|I]; [|exact (IH I)]. unfold station_entry in X. pose proof (first_station files x) as FS.
    destruct (first_fn (filter (fun r => text_eqb (w_station r) x && w_is_station r) (make_df files))) as [f|]; [|discriminate X]. cbn [bindR] in X. injection X as <-. cbn [fst snd] in *.
    destruct FS as (_ & F1 & _). destruct S0 as (F2 & _). assert (x = s) as -> by congruence. reflexivity. }
  rewrite SE, map_map. cbn [run_entry fst]. split; [|split].
  - intros f. rewrite in_map_iff. split; [intros (x & <- & J); apply get_runs_In in J as (g & -> & K); exact K|]. intros K. exists (make_row f). split; [reflexivity|]. apply get_runs_In. exists f. split; [reflexivity|exact K].
  - apply get_runs_nodup.
  - pose proof (sort_runs_sorted (filter (fun r => text_eqb (w_station r) s && w_is_run r) (make_df files))) as ST. fold (get_runs (make_df files) s) in ST.
    assert (AR : forall x, In x (get_runs (make_df files) s) -> exists f, x = make_row f) by (intros x J; apply get_runs_In in J as (f & -> & _); exists f; reflexivity).
    clear - ST AR. revert ST AR. generalize (get_runs (make_df files) s). intros l0 ST AR. induction ST as [|x l ST IH H]; [constructor|]. cbn [map]. constructor; [apply IH; intros y J; apply AR; right; exact J|]. destruct H as [|y l H]; [constructor|]. cbn [map]. constructor. intros r q R Q.
    destruct (AR x (or_introl eq_refl)) as (f & ->). destruct (AR y (or_intror (or_introl eq_refl))) as (g & ->). cbn [make_row w_fn] in R, Q. unfold run_leb in H. rewrite (run_of s r f R), (run_of s q g Q) in H. apply text_leb_earlier. exact H.
Qed.

(** Every channel stands under its own station and run, whatever the directory. *)
Lemma run_channels files wanted d e s x : sort_by_station files wanted = Ok d -> In e (d_stations d) -> station_file s (fst e) -> In x (snd e) ->
  exists r, In (fst x) files /\ run_file s r (fst x) /\ snd x = get_channels (make_df files) s r.
Proof.
  intros E I S0 J. assert (SE : snd e = map (run_entry (make_df files) s) (get_runs (make_df files) s)).
  { unfold sort_by_station in E. cbv zeta in E. destruct (survey (make_df files)); [|discriminate E]. cbn [bindR] in E. destruct (filters (make_df files)); [|discriminate E]. cbn [bindR] in E.
    destruct (mapR _ _) as [m|] eqn:M in E; [|discriminate E]. cbn [bindR] in E. injection E as <-. cbn [d_stations] in I. apply mapR_In in M. clear - I S0 M.
    induction M as [|x y l m X M IH]; [destruct I|]. destruct I as [<-|I]; [|exact (IH I)]. unfold station_entry in X. pose proof (first_station files x) as FS.
    destruct (first_fn (filter (fun r => text_eqb (w_station r) x && w_is_station r) (make_df files))) as [f|]; [|discriminate X]. cbn [bindR] in X. injection X as <-. cbn [fst snd] in *.
    destruct FS as (_ & F1 & _). destruct S0 as (F2 & _). assert (x = s) as -> by congruence. reflexivity. }
  rewrite SE in J. apply in_map_iff in J as (w & <- & J). apply get_runs_In in J as (f & -> & IF & r & R). exists r. cbn [run_entry fst snd]. split; [exact IF|]. split; [exact R|].
  change (w_fn (make_row f)) with f. rewrite (run_of s r f R). reflexivity.
Qed.
Lemma run_file_one s r q f : run_file s r f -> run_file s q f -> r = q.
Proof. intros R Q. apply run_of in R. apply run_of in Q. congruence. Qed.
Theorem C121_channels_own files wanted d e s x r f : sort_by_station files wanted = Ok d -> In e (d_stations d) -> station_file s (fst e) -> In x (snd e) -> run_file s r (fst x) ->
  In f (snd x) -> In f files /\ channel_file s r f.
Proof.
  intros E I S0 J R K. destruct (run_channels files wanted d e s x E I S0 J) as (q & _ & Q & SX). rewrite (run_file_one s r q _ R Q). rewrite SX in K. exact (get_channels_In _ _ _ _ K).
Qed.
(** And all its channels are there, once each and in the order hx, hy, hz, ex, ey, if their names are station.run.kind.component. *)
Theorem C121_channels files wanted d e s x r : sort_by_station files wanted = Ok d -> In e (d_stations d) -> station_file s (fst e) -> In x (snd e) -> run_file s r (fst x) -> clean_run files s r ->
  (forall f, In f (snd x) <-> In f files /\ channel_file s r f)
  /\ exists cs, picked cs [txt "hx"; txt "hy"; txt "hz"; txt "ex"; txt "ey"] /\ Forall2 (component_file s r) cs (snd x).
Proof.
  intros E I S0 J R CL. destruct (run_channels files wanted d e s x E I S0 J) as (q & _ & Q & SX). rewrite <- (run_file_one s r q _ R Q) in SX.
  destruct (channels_clean files s r components CL (incl_refl _)) as (ds & P & F & A). unfold get_channels in SX. cbv zeta in SX. fold (of_run files s r) in SX. change order with components in SX. rewrite <- SX in F. split.
  - intros f. split; [intros K; eapply C121_channels_own; eassumption|]. intros (IF & CF). destruct (proj1 CL f IF CF) as (c & C). assert (IC : In c ds).
    { apply A; [destruct C as (? & ? & _ & _ & _ & _ & _ & _ & X); exact X|exists f; split; [exact IF|exact C]]. }
    destruct (Forall2_In_l _ _ _ _ F IC) as (g & K & G). assert (IG : In g files).
    { eapply C121_channels_own; eassumption. }
    rewrite (proj2 CL f g c IF IG C G). exact K.
  - exists ds. split; [exact P|exact F].
Qed.

Definition file_of (s : string) : file := mkFile (txt "/data") (list_ascii_of_string s).
Definition demo_files : list file :=
  map file_of ["survey"%string; "filters"%string; "mt1.b"%string; "mt1.a"%string; "mt1"%string; "mt1.a.electric.ey"%string; "mt1.a.magnetic.Hx"%string; "mt1.b.electric.ex"%string; "mt2"%string].
Example C121_channels_hyp : exists d, sort_by_station demo_files [] = Ok d
  /\ d_stations d = [(file_of "mt1", [(file_of "mt1.a", [file_of "mt1.a.magnetic.Hx"; file_of "mt1.a.electric.ey"]); (file_of "mt1.b", [file_of "mt1.b.electric.ex"])]); (file_of "mt2", [])].
Proof. eexists. split; [vm_compute; reflexivity|reflexivity]. Qed.
Ltac no_in := repeat match goal with |- ~ In _ _ => let H := fresh in intros H; repeat (destruct H as [H|H]; [discriminate H|]); destruct H end.
Example C121_component_hyp : component_file (txt "mt1") (txt "a") (txt "hx") (file_of "mt1.a.magnetic.Hx").
Proof.
  exists (txt "magnetic"), (txt "Hx"). split; [reflexivity|]. split; [unfold no_dot; no_in|]. split; [unfold no_dot; no_in|].
  split; [intros c [<-|[<-|[<-|[<-|[<-|[]]]]]]; reflexivity|]. split; [intros c [<-|[<-|[<-|[<-|[<-|[]]]]]]; reflexivity|]. split; [reflexivity|left; reflexivity].
Qed.

(** Other channels are left out. *)
Theorem C121_other_refuted : exists files d e x f, sort_by_station files [] = Ok d /\ In e (d_stations d) /\ In x (snd e) /\ fst x = file_of "mt1.a" /\ In f files /\ channel_file (txt "mt1") (txt "a") f /\ ~ In f (snd x).
Proof.
  exists (map file_of ["survey"%string; "filters"%string; "mt1"%string; "mt1.a"%string; "mt1.a.auxiliary.temperature"%string]). eexists. eexists. eexists. exists (file_of "mt1.a.auxiliary.temperature").
  split; [vm_compute; reflexivity|]. split; [left; reflexivity|]. split; [left; reflexivity|]. split; [reflexivity|]. split; [cbn; tauto|].
  split; [exists (txt "auxiliary.temperature"); split; [reflexivity|]; split; unfold no_dot; no_in|]. intros [].
Qed.
(** If the name of a run contains the name of a channel, a channel is taken twice and another is left out. *)
Theorem C121_run_name_refuted : exists files d e x, sort_by_station files [] = Ok d /\ In e (d_stations d) /\ In x (snd e)
  /\ files = map file_of ["survey"%string; "filters"%string; "mt1"%string; "mt1.ex1"%string; "mt1.ex1.electric.ey"%string; "mt1.ex1.electric.ex"%string]
  /\ snd x = [file_of "mt1.ex1.electric.ey"; file_of "mt1.ex1.electric.ey"].
Proof.
  eexists. eexists. eexists. eexists. split; [|split; [|split; [|split; [reflexivity|]]]]; [vm_compute; reflexivity|left; reflexivity|left; reflexivity|reflexivity].
Qed.
(** A channel without the file of its run, and a run without the file of its station, are left out. *)
Theorem C121_orphan_refuted : exists files d, sort_by_station files [] = Ok d /\ d_stations d = [(file_of "mt1", [])] /\ In (file_of "mt1.a.electric.ex") files /\ In (file_of "mt2.a") files.
Proof.
  exists (map file_of ["survey"%string; "filters"%string; "mt1"%string; "mt1.a.electric.ex"%string; "mt2.a"%string]). eexists. split; [vm_compute; reflexivity|]. split; [reflexivity|]. cbn. tauto.
Qed.
(** Of two files of stations with the same name the first is taken twice. *)
Theorem C121_same_name_refuted : exists a b d, a <> b /\ sort_by_station [file_of "survey"; file_of "filters"; a; b] [] = Ok d /\ map fst (d_stations d) = [a; a].
Proof.
  exists (mkFile (txt "/x") (txt "mt1")), (mkFile (txt "/y") (txt "mt1")). eexists. split; [discriminate|]. split; [vm_compute; reflexivity|reflexivity].
Qed.

Print Assumptions C121_channels.
Print Assumptions C121_sortable.
