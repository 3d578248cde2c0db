(** C113: the survey, station and run of a transfer function. *)
From Verif Require Import PyBase PyFacts PyText ContainerModel ContainerSpec ContainerProofs TmetaModel TmetaSpec TmetaProofs TmetaSteps.
From Coq Require Import Lia.
Local Open Scope string_scope.
Local Open Scope list_scope.

(** Whatever is assigned to a transfer function, it has a station. *)
Theorem C113_a_station_is_always_there : forall h l h' d', acts l (fst (new_tf h)) (snd (new_tf h)) = Ok (h', d') ->
  exists s n, station_of d' = Ok s /\ look h' s = Ok n.
Proof.
  intros h l h' d' H. assert (I : inhabited h' d').
  { apply (acts_inhabited _ _ _ _ _ H). split; [discriminate|]. intros i x [X|[]]. injection X as <- <-. eexists. apply look_new. }
  destruct I as [N I]. destruct d' as [|[i s] d']; [congruence|]. destruct (I i s (or_introl eq_refl)) as (n & L). exists s, n. split; [reflexivity|exact L].
Qed.

(** A new transfer function given a survey has the stations of the survey, the very objects, in their order. *)
Theorem C113_a_survey_brings_its_stations : forall h ls ids, ls <> [] ->
  Forall2 (fun l i => exists n, look h l = Ok n /\ n_id n = i) ls ids -> NoDup ids -> ~ In "0" ids ->
  exists h', set_survey (fst (new_tf h)) (snd (new_tf h)) (SSurvey ls) = Ok (h', combine ids ls) /\ same_but_periods (fst (new_tf h)) h'.
Proof.
  intros h ls ids NE F N Z. set (h0 := fst (new_tf h)).
  assert (K : keyed_by_id h0 (snd (new_tf h))).
  { split; [repeat constructor; intros []|]. intros i l [X|[]]. injection X as <- <-. exists first_node. split; [apply look_new|reflexivity]. }
  assert (F0 : Forall2 (fun l i => exists n, look h0 l = Ok n /\ n_id n = i) ls ids).
  { clear -F. induction F as [|x i xs is (n & L & E) _ IH]; constructor; [|exact IH]. exists n. split; [apply look_app; exact L|exact E]. }
  destruct (add_fresh ls h0 _ ids K F0 N) as (h' & A & B & C).
  { intros i I [X|[]]. cbn in X. subst i. exact (Z I). }
  exists h'. split; [|exact B]. cbn [set_survey]. rewrite A. cbn [bindR fst snd new_tf app]. do 2 f_equal. unfold drop_placeholder.
  destruct F as [|l i ls ids X F]; [congruence|]. cbn [combine dkeys map fst List.length Nat.ltb Nat.leb andb].
  assert (M : smem "0" ("0" :: i :: map fst (combine ids ls)) = true) by (apply smem_In; left; reflexivity). rewrite M. reflexivity.
Qed.

(** One that has a station keeps it as its station: the stations of the survey are put behind it. *)
Theorem C113_a_further_survey_is_added : forall h d ls ids, keyed_by_id h d -> ~ In "0" (dkeys d) ->
  Forall2 (fun l i => exists n, look h l = Ok n /\ n_id n = i) ls ids -> NoDup ids -> ~ In "0" ids -> (forall i, In i ids -> ~ In i (dkeys d)) ->
  exists h', set_survey h d (SSurvey ls) = Ok (h', d ++ combine ids ls) /\ same_but_periods h h'.
Proof.
  intros h d ls ids K Z F N ZI D. destruct (add_fresh ls h d ids K F N D) as (h' & A & B & C). exists h'. split; [|exact B].
  cbn [set_survey]. rewrite A. cbn [bindR fst snd]. do 2 f_equal. unfold drop_placeholder.
  assert (M : smem "0" (dkeys (d ++ combine ids ls)) = false).
  { apply smem_nIn. unfold dkeys. rewrite map_app. intros X. apply in_app_or in X. destruct X as [X|X]; [exact (Z X)|]. apply ZI.
    apply in_map_iff in X. destruct X as ([i l] & E & X). cbn in E. subst i. apply in_combine_l in X. exact X. }
  rewrite M, Bool.andb_false_r. reflexivity.
Qed.

(** A station that is given becomes the only station. Its runs are those it has, behind a copy of the run that the transfer
    function had, unless that is the run of a new transfer function. The object that was given is changed; no other is. *)
Theorem C113_a_given_station : forall h d l n cur h' d', look h l = Ok n -> station_fine (n_body n) -> run_of h d = Ok cur ->
  set_station h d (GStation l) = Ok (h', d') ->
  d' = [(n_id n, l)] /\ runs_at h' l (with_current (r_id cur) (dkeys (s_runs (n_body n)))) /\ (forall l', l' <> l -> look h' l' = look h l').
Proof.
  intros h d l n cur h' d' L F C H. cbn [set_station] in H. rewrite L in H. cbn [bindR] in H. destruct (n_tf n); [|discriminate H].
  destruct (take_keys _ _ _ _ _ _ _ H C L F) as (A & (n' & L' & _ & _ & _ & K) & B). split; [exact A|]. split; [exists n'; auto|exact B].
Qed.

(** Giving it once more changes nothing of that. *)
Theorem C113_given_again : forall h d l n h1 d1 h2 d2, look h l = Ok n -> station_fine (n_body n) ->
  set_station h d (GStation l) = Ok (h1, d1) -> set_station h1 d1 (GStation l) = Ok (h2, d2) ->
  d2 = d1 /\ forall ids, runs_at h1 l ids -> runs_at h2 l ids.
Proof.
  intros h d l n h1 d1 h2 d2 L F H1 H2. cbn [set_station] in H1, H2. rewrite L in H1. cbn [bindR] in H1. destruct (n_tf n) eqn:T; [|discriminate H1].
  destruct (take_spec _ _ _ _ _ H1) as (cur & _ & _ & C & _). destruct (take_keys _ _ _ _ _ _ _ H1 C L F) as (A & (n' & L' & I' & T' & F' & K) & _).
  rewrite L' in H2. cbn [bindR] in H2. rewrite T', T in H2. destruct (take_spec _ _ _ _ _ H2) as (cur2 & _ & _ & C2 & _).
  destruct (take_keys _ _ _ _ _ _ _ H2 C2 L' F') as (A2 & (n2 & L2 & _ & _ & _ & K2) & _). split; [rewrite A, A2, I'; reflexivity|].
  intros ids (m & M & E). assert (m = n') by congruence. subst m. exists n2. split; [exact L2|]. rewrite K2, E.
  rewrite A in C2. rewrite (run_first h1 [(n_id n, l)] l n' eq_refl L') in C2. unfold first_run in C2.
  destruct (s_runs (n_body n')) as [|[k r] rest] eqn:R; [discriminate C2|]. assert (r = cur2) by congruence. subst r.
  destruct F' as [[ND ID] _]. rewrite R in ND, ID. assert (r_id cur2 = k) by (apply (ID k cur2); left; reflexivity). rewrite H.
  rewrite <- E. cbn [dkeys map fst] in *. unfold with_current. destruct (string_dec k "0"); [reflexivity|]. f_equal. cbn [filter].
  destruct (string_dec k k) as [_|X]; [|congruence]. inversion ND as [|? ? NI _]; subst.
  assert (G : forall x : list string, ~ In (r_id cur2) x -> filter (fun i => if string_dec i (r_id cur2) then false else true) x = x).
  { induction x as [|y x IH]; intros Y; [reflexivity|]. cbn [filter]. destruct (string_dec y (r_id cur2)) as [->|_]; [exfalso; apply Y; left; reflexivity|]. rewrite IH; [reflexivity|].
    intros Z. apply Y. right. exact Z. }
  apply G. exact NI.
Qed.

(** Once a transfer function has a run of its own, that stays its run, however many stations and names it is given. *)
Theorem C113_the_first_run_stays : forall l h d h' d' cur, Forall own_act l -> heap_ids h -> run_of h d = Ok cur -> r_id cur <> "0" ->
  acts l h d = Ok (h', d') -> exists cur', run_of h' d' = Ok cur' /\ r_id cur' = r_id cur.
Proof. intros l h d h' d' cur. apply first_run_stays. Qed.

(** ** Concrete stations *)
Definition run_with (i : string) : run := add_channels (new_run i).
Definition node_with (i : string) (ids : list string) : node :=
  mkNode i true (mkStation (map (fun r => (r, run_with r)) ids) ids (match ids with [] => [] | _ => ["ex"; "ey"; "hx"; "hy"; "hz"] end) default_period).
Definition two : heap := [node_with "mt01" ["a"; "b"]; node_with "mt02" ["c"]].
Definition tf0 : heap * stations := new_tf two.

(** The runs of a station are not as given: here mt02 gets a run of mt01. *)
Theorem C113_runs_refuted : exists h1 d1 h2 d2, set_station (fst tf0) (snd tf0) (GStation 0) = Ok (h1, d1) /\ runs_at h1 0 ["a"; "b"] /\
  set_station h1 d1 (GStation 1) = Ok (h2, d2) /\ runs_at h2 1 ["a"; "c"] /\ exists r, run_of h2 d2 = Ok r /\ r_id r = "a".
Proof.
  do 4 eexists. split; [vm_compute; reflexivity|]. split; [eexists; split; vm_compute; reflexivity|]. split; [vm_compute; reflexivity|].
  split; [eexists; split; vm_compute; reflexivity|]. eexists. split; vm_compute; reflexivity.
Qed.

Lemma underscores_id s : underscores s = id_of_name s.
Proof.
  induction s as [|c s IH]; [reflexivity|]. transitivity (String (if Ascii.eqb c " " then "_"%char else c) (underscores s)); [|cbn [id_of_name]; rewrite IH; reflexivity].
  unfold underscores, replace_char. cbn [list_ascii_of_string flat_map]. destruct (Ascii.eqb c " "); reflexivity.
Qed.
(** Two transfer functions given one station share it: a name given to the second is that of the first too. *)
Theorem C113_stations_are_shared : forall h d d2 l h1 e1 h2 e2 name h3 e3, set_station h d (GStation l) = Ok (h1, e1) -> set_station h1 d2 (GStation l) = Ok (h2, e2) ->
  set_name h2 e2 (Some name) = Ok (h3, e3) -> exists n, station_of e1 = Ok l /\ look h3 l = Ok n /\ n_id n = id_of_name name.
Proof.
  setoid_rewrite <- underscores_id. intros h d d2 l h1 e1 h2 e2 name h3 e3 H1 H2 H3.
  assert (G : forall h d l h' d', set_station h d (GStation l) = Ok (h', d') -> station_of d' = Ok l).
  { intros ha da la hb db H. cbn [set_station] in H. apply bindR_Ok in H as (n & N & H). destruct (n_tf n); [|discriminate H].
    destruct (take_spec _ _ _ _ _ H) as (? & ? & ? & _ & _ & _ & _ & ->). reflexivity. }
  destruct (name_spec _ _ _ _ _ H3) as (l' & n & b & S & N & B & _ & ->). rewrite (G _ _ _ _ _ H2) in S. assert (l' = l) by congruence. subst l'.
  eexists. split; [exact (G _ _ _ _ _ H1)|]. split; [apply (look_put_eq _ _ _ _ N)|reflexivity].
Qed.

(** A new name does not become the key of the station, so that a survey's station of this name replaces it instead of updating it. *)
Theorem C113_a_new_name_is_not_a_key : forall h l n name h1 d1, look h l = Ok n -> n_id n = id_of_name name -> id_of_name name <> "0" ->
  set_name (fst (new_tf h)) (snd (new_tf h)) (Some name) = Ok (h1, d1) ->
  d1 = [("0", List.length h)] /\ exists h2, set_survey h1 d1 (SSurvey [l]) = Ok (h2, [(id_of_name name, l)]).
Proof.
  setoid_rewrite <- underscores_id.
  intros h l n name h1 d1 L E NZ H. destruct (name_spec _ _ _ _ _ H) as (x & m & b & S & N & B & -> & ->). cbn [new_tf snd fst station_of] in *.
  assert (x = List.length h) by congruence. subst x. clear S. split; [reflexivity|]. set (m' := mkNode (underscores name) (n_tf m) b).
  assert (LT : (l < List.length h)%nat) by apply (look_lt _ _ _ L).
  set (h0 := put (h ++ [first_node]) (List.length h) m').
  assert (L0 : look h0 l = Ok n) by (unfold h0; rewrite look_put_neq by lia; apply look_app; exact L).
  assert (N0 : look h0 (List.length h) = Ok m') by (apply (look_put_eq _ _ _ _ N)).
  set (n1 := with_body (station_update_period (n_body n)) n). set (h2 := put h0 l n1).
  assert (L2 : look h2 l = Ok n1) by (apply (look_put_eq _ _ _ _ L0)).
  assert (N2 : look h2 (List.length h) = Ok m') by (unfold h2; rewrite look_put_neq by lia; exact N0).
  exists h2. cbn [set_survey add_stations]. rewrite L0. cbn [bindR]. fold n1. fold h2. unfold add_station. rewrite L2. cbn [bindR].
  assert (I1 : n_id n1 = underscores name) by exact E. rewrite I1. cbn [dget]. destruct (string_dec (underscores name) "0") as [X|_]; [contradiction|].
  cbn [dset]. destruct (string_dec (underscores name) "0") as [X|_]; [contradiction|]. unfold rekey. cbn [rekey_onto]. rewrite N2. cbn [bindR]. change (n_id m') with (underscores name). cbn [dset].
  rewrite L2. cbn [bindR]. rewrite I1. cbn [dset]. destruct (string_dec (underscores name) (underscores name)) as [_|X]; [|congruence]. reflexivity.
Qed.

(** A survey whose station has no run leaves a transfer function that takes no station any more. *)
Theorem C113_no_run_no_station : forall h l n, look h l = Ok n -> n_id n <> "0" -> s_runs (n_body n) = [] ->
  exists h1 d1, set_survey (fst (new_tf h)) (snd (new_tf h)) (SSurvey [l]) = Ok (h1, d1) /\ run_of h1 d1 = Err KeyError /\
    forall l2 n2, look h1 l2 = Ok n2 -> n_tf n2 = true -> set_station h1 d1 (GStation l2) = Err KeyError.
Proof.
  intros h l n L Z R. destruct (C113_a_survey_brings_its_stations h [l] [n_id n]) as (h1 & A & LEN & B).
  - discriminate.
  - constructor; [exists n; auto|constructor].
  - repeat constructor. intros [].
  - intros [X|[]]. exact (Z X).
  - exists h1, [(n_id n, l)]. split; [exact A|]. assert (RO : run_of h1 [(n_id n, l)] = Err KeyError).
    { assert (LL : exists n1, look h1 l = Ok n1).
      { unfold look. destruct (nth_error h1 l) eqn:E; [eauto|]. apply nth_error_None in E. pose proof (look_lt _ _ _ L). rewrite <- LEN in E. cbn [new_tf fst] in E. rewrite app_length in E. lia. }
      destruct LL as (n1 & L1). destruct (B l n1 L1) as (n0 & p & L0 & ->). cbn [new_tf fst] in L0. rewrite (look_app _ _ _ _ L) in L0. assert (n0 = n) by congruence. subst n0.
      rewrite (run_first h1 [(n_id n, l)] l _ eq_refl L1). unfold first_run. cbn [with_body n_body s_runs]. rewrite R. reflexivity. }
    split; [exact RO|]. intros l2 n2 L2 T. cbn [set_station]. rewrite L2. cbn [bindR]. rewrite T. unfold take_station. rewrite RO. reflexivity.
Qed.

(** The stations that a survey makes of dictionaries are not those of transfer functions: the transfer function then has no id and
    refuses its own station. *)
Theorem C113_a_plain_station : forall h l n, look h l = Ok n -> n_id n <> "0" -> n_tf n = false ->
  exists h1 d1, set_survey (fst (new_tf h)) (snd (new_tf h)) (SSurvey [l]) = Ok (h1, d1) /\ station_of d1 = Ok l /\
    has_tf_id h1 d1 = Err AttributeError /\ set_station h1 d1 (GStation l) = Err TypeError.
Proof.
  intros h l n L Z T. destruct (C113_a_survey_brings_its_stations h [l] [n_id n]) as (h1 & A & LEN & B).
  - discriminate.
  - constructor; [exists n; auto|constructor].
  - repeat constructor. intros [].
  - intros [X|[]]. exact (Z X).
  - exists h1, [(n_id n, l)]. split; [exact A|]. split; [reflexivity|].
    assert (LL : exists n1, look h1 l = Ok n1).
    { unfold look. destruct (nth_error h1 l) eqn:E; [eauto|]. apply nth_error_None in E. pose proof (look_lt _ _ _ L). rewrite <- LEN in E. cbn [new_tf fst] in E. rewrite app_length in E. lia. }
    destruct LL as (n1 & L1). destruct (B l n1 L1) as (n0 & p & L0 & ->). cbn [new_tf fst] in L0. rewrite (look_app _ _ _ _ L) in L0. assert (n0 = n) by congruence. subst n0.
    unfold has_tf_id. cbn [station_of set_station bindR]. rewrite L1. cbn [bindR with_body n_tf]. rewrite T. split; reflexivity.
Qed.

(** No run can be given. *)
Theorem C113_runs_cannot_be_set_refuted : forall r l h d h1 d1, acts l h d = Ok (h1, d1) -> acts (l ++ [SetRun (Some r)]) h d = Err AttributeError.
Proof.
  intros r l. induction l as [|a l IH]; intros h d h1 d1 H; [reflexivity|]. cbn [app acts] in *. apply bindR_Ok in H as ([h2 d2] & H2 & H). rewrite H2. cbn [bindR]. apply (IH _ _ _ _ H).
Qed.

Lemma node_fine i ids : NoDup ids -> station_fine (n_body (node_with i ids)).
Proof.
  intros N. assert (K : dkeys (map (fun r => (r, run_with r)) ids) = ids) by (unfold dkeys; rewrite map_map; apply map_id).
  split; [split|].
  - cbn [node_with n_body s_runs]. rewrite K. exact N.
  - intros k r H. cbn [node_with n_body s_runs] in H. apply in_map_iff in H. destruct H as (x & X & _). assert (r = run_with x /\ k = x) as [-> ->] by (split; congruence). apply add_channels_id.
  - cbn [node_with n_body s_runs s_run_list]. rewrite K. apply le_n.
Qed.
Example C113_hyp : look (fst tf0) 1 = Ok (node_with "mt02" ["c"]) /\ station_fine (n_body (node_with "mt02" ["c"])) /\
  (exists cur, run_of (fst tf0) (snd tf0) = Ok cur /\ r_id cur = "0") /\
  (exists h1 d1, set_station (fst tf0) (snd tf0) (GStation 1) = Ok (h1, d1) /\ runs_at h1 1 ["c"] /\
    exists h2 d2, acts [SetStation (GStation 0); SetName (Some "mt 03"); SetStation GNone] h1 d1 = Ok (h2, d2) /\ runs_at h2 0 ["c"; "a"; "b"]).
Proof.
  split; [reflexivity|]. split; [apply node_fine; repeat constructor; intros []|]. split; [eexists; split; vm_compute; reflexivity|].
  do 2 eexists. split; [vm_compute; reflexivity|]. split; [eexists; split; vm_compute; reflexivity|].
  do 2 eexists. split; [vm_compute; reflexivity|]. eexists. split; vm_compute; reflexivity.
Qed.
Example C113_survey_hyp : exists h', set_survey (fst tf0) (snd tf0) (SSurvey [0; 1]%nat) = Ok (h', [("mt01", 0%nat); ("mt02", 1%nat)]).
Proof. eexists. vm_compute. reflexivity. Qed.

Example C113_first_run_hyp : heap_ids (fst tf0) /\ Forall own_act [SetStation (GStation 0); SetName (Some "mt 03"); SetStation GNone].
Proof.
  split; [|repeat constructor]. intros l n L. destruct l as [|[|[|l]]]; vm_compute in L; try discriminate L.
  - assert (n = node_with "mt01" ["a"; "b"]) by (vm_compute; congruence). subst n. apply node_fine. repeat constructor; cbn; intuition discriminate.
  - assert (n = node_with "mt02" ["c"]) by (vm_compute; congruence). subst n. apply node_fine. repeat constructor; intros [].
  - assert (n = first_node) by (vm_compute; congruence). subst n. split; [repeat constructor; intros []|]. intros i r [X|[]].
    assert (i = "0" /\ r = add_channels (new_run "0")) as [-> ->] by (split; congruence). apply add_channels_id.
  - destruct l; discriminate L.
Qed.

Print Assumptions C113_a_station_is_always_there.
Print Assumptions C113_a_survey_brings_its_stations.
Print Assumptions C113_a_further_survey_is_added.
Print Assumptions C113_a_given_station.
Print Assumptions C113_given_again.
Print Assumptions C113_the_first_run_stays.
Print Assumptions C113_runs_refuted.
Print Assumptions C113_stations_are_shared.
Print Assumptions C113_a_new_name_is_not_a_key.
Print Assumptions C113_no_run_no_station.
Print Assumptions C113_a_plain_station.
Print Assumptions C113_runs_cannot_be_set_refuted.
