(** C152: a processing configuration made to fit a dataset. *)
From Verif Require Import PyBase PyNum PyFacts MTimeModel DatasetModel DatasetSpec DatasetProofs DatasetProps VprModel VprSpec.
From Coq Require Import Lia.
Local Open Scope list_scope.

Lemma switched l : single_station l (map switch l).
Proof.
  split; [apply map_length|]. intros i. rewrite nth_error_map. split; [intros ->; reflexivity|]. intros e N ->. destruct e; [congruence|reflexivity|reflexivity].
Qed.
Lemma switch_again l : map switch (map switch l) = map switch l.
Proof. rewrite map_map. apply map_ext. intros []; reflexivity. Qed.
Lemma switch_none l : ~ In RME_RR (map switch l).
Proof. rewrite in_map_iff. intros (e & E & _). destruct e; discriminate E. Qed.

(** Without a remote station in the configuration every engine for a remote reference is replaced by that for one station, and no other; with one all stay. *)
Theorem C152_engines rows c :
  (z_remote (the_stations c) = [] -> single_station (engines c) (fst (validate_processing rows c)) /\ ~ In RME_RR (fst (validate_processing rows c))) /\
  (z_remote (the_stations c) <> [] -> fst (validate_processing rows c) = engines c) /\
  (forall c', snd (validate_processing rows c) = Ok c' -> engines c' = fst (validate_processing rows c)).
Proof.
  unfold validate_processing. cbn [fst snd]. unfold without_remote. split; [|split].
  - intros ->. split; [apply switched|apply switch_none].
  - intros N. destruct (z_remote (the_stations c)); [congruence|reflexivity].
  - intros c' E. destruct (String.eqb _ _); [destruct (stations_from_dataframe rows (the_stations c)); [|discriminate E]; cbn [bindR] in E|]; injection E as <-; reflexivity.
Qed.
(** A configuration that has its local station keeps its stations and always succeeds; one that has not gets those of the dataset, behind the remote ones it has. *)
Theorem C152_stations rows c z : 
  (s_id (z_local (the_stations c)) <> ""%string -> exists c', snd (validate_processing rows c) = Ok c' /\ the_stations c' = the_stations c) /\
  (s_id (z_local (the_stations c)) = ""%string -> tabular_stations z -> rows = stations_to_dataframe z ->
     exists c', snd (validate_processing rows c) = Ok c' /\ z_local (the_stations c') = z_local z /\ z_remote (the_stations c') = z_remote (the_stations c) ++ z_remote z).
Proof.
  unfold validate_processing. cbn [snd]. split.
  - intros N. apply String.eqb_neq in N. rewrite N. eexists. split; reflexivity.
  - intros E T ->. rewrite E. cbn [String.eqb]. rewrite (C43_stations_round_trip z (the_stations c) T). cbn [bindR]. eexists. split; [reflexivity|]. split; reflexivity.
Qed.
(** A dataset of remote stations only raises an IndexError if there is no local station; without a remote station in the configuration its engines are switched all the same. *)
Theorem C152_only_remote rows c : no_stations c -> rows <> [] -> (forall w, In w rows -> w_remote w = true) ->
  snd (validate_processing rows c) = Err IndexError /\ single_station (engines c) (fst (validate_processing rows c)).
Proof.
  intros [R L] N A. split; [|apply (C152_engines rows c); exact R]. unfold validate_processing. cbn [snd]. rewrite L. cbn [String.eqb]. rewrite (C43_only_remote_raises rows (the_stations c) N A). reflexivity.
Qed.
(** Done a second time, with whatever dataset, it changes nothing more, if there is a local station now. *)
Theorem C152_again rows rows' c c' : snd (validate_processing rows c) = Ok c' -> s_id (z_local (the_stations c')) <> ""%string ->
  snd (validate_processing rows' c') = Ok c'.
Proof.
  intros E N. pose proof (proj2 (proj2 (C152_engines rows c)) c' E) as G. unfold validate_processing. cbn [snd]. apply String.eqb_neq in N. rewrite N. f_equal. destruct c' as [es z]. cbn [the_stations engines] in *. f_equal.
  unfold without_remote. cbn [the_stations engines]. destruct (z_remote z) as [|r l] eqn:R; [|reflexivity]. rewrite G. unfold validate_processing in *. cbn [fst snd] in *. unfold without_remote in *.
  destruct (z_remote (the_stations c)) as [|r l] eqn:R0; [apply switch_again|]. exfalso.
  destruct (String.eqb (s_id (z_local (the_stations c))) ""); [|injection E as _ E; rewrite <- E in R; congruence].
  destruct (stations_from_dataframe rows (the_stations c)) as [z0|] eqn:D; [|discriminate E]. cbn [bindR] in E. injection E as _ E. subst z0.
  unfold stations_from_dataframe in D. destruct rows as [|w ws]; [injection D as <-; congruence|]. destruct (unique _) as [|i ?] in D; [discriminate D|].
  destruct (from_dataframe (rows_of i (w :: ws)) (z_local (the_stations c))) as [loc|]; [|discriminate D]. cbn [bindR] in D. revert D.
  assert (K : forall l z1 z2, z_remote z1 <> [] -> fold_left (fun acc j => bindR acc (fun z' => bindR (from_dataframe (rows_of j (w :: ws)) blank_station) (fun rr => Ok (add_remote rr z')))) l (Ok z1) = Ok z2 -> z_remote z2 <> []).
  { intros js. induction js as [|j js IH]; intros z1 z2 N1 F; [cbn [fold_left] in F; injection F as <-; exact N1|]. cbn [fold_left bindR] in F. destruct (from_dataframe (rows_of j (w :: ws)) blank_station) as [rr|e].
    - cbn [bindR] in F. apply (IH _ _) in F; [exact F|]. unfold add_remote. cbn [z_remote]. destruct (z_remote z1); discriminate.
    - exfalso. cbn [bindR] in F. clear -F. induction js as [|k js IH]; [cbn [fold_left] in F; discriminate F|]. cbn [fold_left bindR] in F. exact (IH F). }
  intros D. apply K in D; [congruence|]. cbn [z_remote]. rewrite R0. discriminate.
Qed.
(** Not so: that engines are replaced only if there is no remote station: those of the dataset are looked at after the engines were switched. *)
Theorem C152_remote_refuted : ~ (forall z c c', tabular_stations z -> no_stations c -> snd (validate_processing (stations_to_dataframe z) c) = Ok c' -> z_remote (the_stations c') <> [] -> engines c' = engines c).
Proof.
  intros A. specialize (A both (mkConfig [RME_RR] (mkStations [] blank_station)) (mkConfig [RME] both)). destruct C43_hyp as (_ & T & E & _).
  assert (X : [RME] = [RME_RR]); [|discriminate X]. apply A; [exact T|split; reflexivity| |discriminate].
  unfold validate_processing. cbn [snd the_stations]. change (String.eqb (s_id (z_local (mkStations [] blank_station))) "") with true. cbv iota. rewrite E. reflexivity.
Qed.
(** For every dataset with remote stations it is so: the engines for remote references are lost. *)
Theorem C152_remote_lost z c : tabular_stations z -> z_remote z <> [] -> no_stations c -> 
  exists c', snd (validate_processing (stations_to_dataframe z) c) = Ok c' /\ z_remote (the_stations c') = z_remote z /\ ~ In RME_RR (engines c').
Proof.
  intros T N [R L]. destruct (proj2 (C152_stations (stations_to_dataframe z) c z) L T eq_refl) as (c' & E & _ & Z). exists c'. split; [exact E|]. split; [rewrite Z, R; reflexivity|].
  rewrite (proj2 (proj2 (C152_engines (stations_to_dataframe z) c)) c' E). apply (proj1 (C152_engines (stations_to_dataframe z) c) R).
Qed.
Example C152_hyp : tabular_stations both /\ z_remote both <> [] /\ no_stations (mkConfig [RME_RR; Other] (mkStations [] blank_station)) /\ fst (validate_processing [] (mkConfig [RME_RR; Other] (mkStations [] blank_station))) = [RME; Other].
Proof. destruct C43_hyp as (_ & T & _). split; [exact T|]. split; [discriminate|]. split; [split; reflexivity|reflexivity]. Qed.

Print Assumptions C152_engines.
Print Assumptions C152_again.
Print Assumptions C152_remote_lost.
