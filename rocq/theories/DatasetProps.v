From Coq Require Import Permutation.
From Verif Require Import PyBase PyNum PyFacts MTimeModel MTimeSpec MTimeProofs DatasetModel DatasetSpec DatasetProofs.
Open Scope string_scope.

(** C43.  A station written as a table and read from it is the same station: name, path, remote flag, runs,
    periods, rates, channels and scale factors, in order.  It does not matter what the reading object held. *)
Theorem C43_station_round_trip : forall s t, tabular s -> from_dataframe (to_dataframe s) t = Ok s.
Proof. exact station_round_trip. Qed.

(** The stations of a configuration come back, each with its rows; remote stations already in the reading
    object stay in front. *)
Theorem C43_stations_round_trip : forall z old, tabular_stations z ->
  stations_from_dataframe (stations_to_dataframe z) old =
  Ok (mkStations (z_remote old ++ z_remote z)%list (z_local z)).
Proof.
  intros [rem loc] [orem oloc] (T & RL & F & ND). cbn [z_local z_remote] in *.
  pose (all := loc :: rem).
  assert (E : stations_to_dataframe (mkStations rem loc) = flat_map to_dataframe all) by reflexivity.
  rewrite E. unfold stations_from_dataframe.
  destruct (to_dataframe_head loc T) as (w & ws & H).
  assert (NE : exists w ws, flat_map to_dataframe all = w :: ws).
  { unfold all. cbn [flat_map]. rewrite H. eexists _, _. reflexivity. }
  destruct NE as (w0 & ws0 & NE). rewrite NE. rewrite <- NE.
  assert (FR : Forall tabular rem) by (eapply Forall_impl; [|exact F]; intros x [X _]; exact X).
  assert (R1 : filter w_remote (flat_map to_dataframe all) = flat_map to_dataframe rem).
  { unfold all. cbn [flat_map]. rewrite filter_app, filter_none, filter_all; [reflexivity| |].
    - intros x I. apply in_flat_map in I. destruct I as (s & Is & I). apply to_dataframe_all in I. destruct I as (_ & _ & ->).
      rewrite Forall_forall in F. apply F. exact Is.
    - intros x I. apply to_dataframe_all in I. destruct I as (_ & _ & ->). exact RL. }
  assert (R2 : filter (fun w => negb (w_remote w)) (flat_map to_dataframe all) = to_dataframe loc).
  { unfold all. cbn [flat_map]. rewrite filter_app, filter_all, filter_none; [apply app_nil_r| |].
    - intros x I. apply in_flat_map in I. destruct I as (s & Is & I). apply to_dataframe_all in I. destruct I as (_ & _ & ->).
      rewrite Forall_forall in F. destruct (F s Is) as [_ ->]. reflexivity.
    - intros x I. apply to_dataframe_all in I. destruct I as (_ & _ & ->). rewrite RL. reflexivity. }
  rewrite R1, R2.
  assert (U : unique (map w_station (to_dataframe loc)) = [s_id loc]).
  { pose proof (unique_stations [loc]) as U. cbn [flat_map map] in U. rewrite app_nil_r in U. apply U.
    - constructor; [exact T|constructor].
    - repeat constructor. intros []. }
  rewrite U. rewrite (rows_of_own all loc ND (or_introl eq_refl)). rewrite station_round_trip by exact T. cbn [bindR].
  inversion ND as [|? ? N ND']; subst.
  rewrite (unique_stations rem FR ND').
  assert (G : forall l acc, incl l rem ->
     fold_left (fun acc j => bindR acc (fun z' =>
        bindR (from_dataframe (rows_of j (flat_map to_dataframe all)) blank_station) (fun rr => Ok (add_remote rr z'))))
       (map s_id l) (Ok (mkStations acc loc)) = Ok (mkStations (acc ++ l)%list loc)).
  { induction l as [|s l IH]; intros acc I; [rewrite app_nil_r; reflexivity|]. cbn [map fold_left bindR].
    assert (Is : In s rem) by (apply I; left; reflexivity).
    rewrite (rows_of_own all s ND (or_intror Is)).
    rewrite Forall_forall in F. destruct (F s Is) as [Ts Rs].
    rewrite station_round_trip by exact Ts. cbn [bindR]. unfold add_remote. cbn [z_remote z_local].
    replace (set_remote s) with s by (destruct s; cbn in Rs; subst; reflexivity).
    rewrite IH; [rewrite <- app_assoc; reflexivity|]. intros x Ix. apply I. right. exact Ix. }
  exact (G rem orem (incl_refl _)).
Qed.

(** Whatever table of one station is read, no recorded interval is lost or invented, and the runs are those
    of the table, once each, in the order of their first row. *)
Theorem C43_any_table : forall rows t s, from_dataframe rows t = Ok s ->
  (forall w, In w rows -> made_time (w_start w) /\ made_time (w_end w)) ->
  Permutation (station_intervals s) (row_intervals rows) /\ firsts (map w_run rows) (map r_id (s_runs s)).
Proof.
  intros rows t s H M. unfold from_dataframe in H. destruct rows as [|w rows].
  - injection H as <-. split; [constructor|constructor].
  - destruct (read_rows (w :: rows)) as [runs|] eqn:R; [|discriminate]. injection H as <-.
    exact (read_keeps _ _ R M).
Qed.
(** Reading a table whose times were written from periods never fails. *)
Theorem C43_reading_succeeds : forall rows t, (forall w, In w rows -> made_time (w_start w) /\ made_time (w_end w)) ->
  exists s, from_dataframe rows t = Ok s.
Proof.
  intros rows t M. unfold from_dataframe. destruct rows as [|w0 r0]; [eexists; reflexivity|].
  assert (G : forall rows acc, (forall w, In w rows -> made_time (w_start w) /\ made_time (w_end w)) ->
     exists runs, read_from (Ok acc) rows = Ok runs).
  { clear. induction rows as [|w rows IH]; intros acc M; [eexists; reflexivity|].
    change (read_from (Ok acc) (w :: rows)) with (read_from (read_row acc w) rows).
    destruct (M w (or_introl eq_refl)) as [Mb Me].
    unfold read_row, read_period. rewrite (made_fixed _ Mb), (made_fixed _ Me). cbn [bindR].
    destruct (find_run (w_run w) acc); apply IH; intros x I; apply M; right; exact I. }
  destruct (G _ [] M) as [runs E]. change (read_rows (w0 :: r0)) with (read_from (Ok []) (w0 :: r0)). rewrite E.
  eexists. reflexivity.
Qed.

(** A station of the configuration is found by its name. *)
Theorem C43_get_station : forall z s, NoDup (s_id (z_local z) :: map s_id (z_remote z)) ->
  s = z_local z \/ In s (z_remote z) -> get_station (s_id s) z = Ok s.
Proof.
  intros z s ND H. inversion ND as [|? ? N ND']; subst. unfold get_station. destruct H as [->|I]; [rewrite String.eqb_refl; reflexivity|].
  destruct (String.eqb_spec (s_id (z_local z)) (s_id s)) as [E|_].
  - exfalso. apply N. rewrite E. apply in_map. exact I.
  - rewrite <- map_rev. rewrite (In_dget string_dec (s_id s) s); [reflexivity| |].
    + unfold dkeys. rewrite map_map. cbn [fst]. rewrite map_rev. eapply Permutation_NoDup; [apply Permutation_rev|exact ND'].
    + apply in_map_iff. exists s. split; [reflexivity|]. apply in_rev in I. exact I.
Qed.

Definition ch (i : string) (x : Q) : chan := mkChan i x.
Definition run1 : prun := mkRun "001" [ch "hx" 1; ch "hy" 2] [ch "ex" 3] [(0, 1000000000)%Z; (5000000000, 6000000500)%Z] 8.
Definition run2 : prun := mkRun "002" [ch "hx" 1] [ch "ey" (1#2)] [(7000000000, 8000000000)%Z] 4.
Definition sta : stn := mkStn "mt01" "a.h5" false [run1; run2].
Definition rem1 : stn := mkStn "rr01" "b.h5" true [run2].
Definition both : stations := mkStations [rem1] sta.

Lemma made_small : forall t, stored t -> made_time t.
Proof. intros t H. exists t. apply parse_stamp_fixed. exact H. Qed.
Lemma run1_tabular : tabular_run run1.
Proof.
  split; [discriminate|]. split.
  - repeat constructor; cbn [In]; intros F; repeat (destruct F as [F|F]; [discriminate F|]); exact F.
  - intros b e [H|[H|[]]]; injection H as <- <-; split; apply made_small; unfold stored, TMIN, TMAX; cbn; intuition lia.
Qed.
Lemma run2_tabular : tabular_run run2.
Proof.
  split; [discriminate|]. split.
  - repeat constructor; cbn [In]; intros F; repeat (destruct F as [F|F]; [discriminate F|]); exact F.
  - intros b e [H|[]]; injection H as <- <-; split; apply made_small; unfold stored, TMIN, TMAX; cbn; intuition lia.
Qed.
Example C43_hyp : tabular sta /\ tabular_stations both /\
  stations_from_dataframe (stations_to_dataframe both) (mkStations [] blank_station) = Ok both /\
  List.length (stations_to_dataframe both) = 4%nat.
Proof.
  assert (A : tabular sta).
  { split; [discriminate|]. split; [|constructor; [exact run1_tabular|constructor; [exact run2_tabular|constructor]]].
    repeat constructor; cbn [In]; intros F; repeat (destruct F as [F|F]; [discriminate F|]); exact F. }
  assert (B : tabular_stations both).
  { split; [exact A|]. split; [reflexivity|]. split.
    - constructor; [|constructor]. split; [|reflexivity]. split; [discriminate|]. split; [repeat constructor; intros []|].
      constructor; [exact run2_tabular|constructor].
    - repeat constructor; cbn [In]; intros F; repeat (destruct F as [F|F]; [discriminate F|]); exact F. }
  split; [exact A|]. split; [exact B|]. split; [exact (C43_stations_round_trip both _ B)|reflexivity].
Qed.

(** Not so without the conditions.  A run without periods is lost. *)
Theorem C43_run_without_period_refuted :
  ~ (forall s t s', NoDup (map r_id (s_runs s)) -> from_dataframe (to_dataframe s) t = Ok s' ->
       map r_id (s_runs s') = map r_id (s_runs s)).
Proof.
  intros H. specialize (H (mkStn "a" "p" false [run1; mkRun "002" [] [] [] 1]) blank_station _
    ltac:(repeat constructor; cbn [In]; intros F; repeat (destruct F as [F|F]; [discriminate F|]); exact F) eq_refl).
  vm_compute in H. discriminate H.
Qed.
(** Two runs of the same name are merged: the channels of the second are lost. *)
Theorem C43_repeated_run_refuted :
  ~ (forall s t s', Forall tabular_run (s_runs s) -> from_dataframe (to_dataframe s) t = Ok s' -> s_runs s' = s_runs s).
Proof.
  intros H. pose (r2 := mkRun "001" (r_input run2) (r_output run2) (r_periods run2) (r_rate run2)).
  specialize (H (mkStn "a" "p" false [run1; r2]) blank_station _
    ltac:(constructor; [exact run1_tabular|constructor; [exact run2_tabular|constructor]]) eq_refl).
  vm_compute in H. discriminate H.
Qed.
(** A channel that is both input and output has one scale factor in the table. *)
Theorem C43_shared_channel_refuted :
  ~ (forall s t s', s_runs s <> [] -> NoDup (map r_id (s_runs s)) ->
       (forall r, In r (s_runs s) -> r_periods r <> [] /\ NoDup (map ch_id (r_input r)) /\ NoDup (map ch_id (r_output r))) ->
       from_dataframe (to_dataframe s) t = Ok s' -> s_runs s' = s_runs s).
Proof.
  intros H. pose (r := mkRun "001" [ch "hx" 2] [ch "hx" 3] [(0, 0)%Z] 1).
  specialize (H (mkStn "a" "p" false [r]) blank_station (mkStn "a" "p" false [mkRun "001" [ch "hx" 3] [ch "hx" 3] [(0, 0)%Z] 1]) ltac:(discriminate) ltac:(repeat constructor; intros []) ).
  assert (X : s_runs (mkStn "a" "p" false [mkRun "001" [ch "hx" 3] [ch "hx" 3] [(0, 0)%Z] 1]) = [r]).
  { apply H; [|reflexivity]. intros r' [<-|[]]. split; [discriminate|]. split; repeat constructor; intros []. }
  discriminate X.
Qed.
(** A station without rows is not read: the reading station keeps its old name. *)
Theorem C43_empty_station_refuted :
  ~ (forall s t s', from_dataframe (to_dataframe s) t = Ok s' -> s_id s' = s_id s).
Proof. intros H. specialize (H (mkStn "a" "p" false []) blank_station _ eq_refl). discriminate H. Qed.
(** Reading the same table twice doubles the remote stations. *)
Theorem C43_read_twice_refuted :
  ~ (forall z z1 z2, tabular_stations z ->
       stations_from_dataframe (stations_to_dataframe z) (mkStations [] blank_station) = Ok z1 ->
       stations_from_dataframe (stations_to_dataframe z) z1 = Ok z2 -> z2 = z).
Proof.
  intros H. destruct C43_hyp as (_ & B & _).
  pose proof (H both _ _ B (C43_stations_round_trip both _ B) (C43_stations_round_trip both _ B)) as X.
  vm_compute in X. discriminate X.
Qed.
(** A remote station that was put in the list without its flag is lost. *)
Theorem C43_unflagged_remote_refuted :
  ~ (forall z z', Forall tabular (z_local z :: z_remote z) -> s_remote (z_local z) = false ->
       NoDup (s_id (z_local z) :: map s_id (z_remote z)) ->
       stations_from_dataframe (stations_to_dataframe z) (mkStations [] blank_station) = Ok z' ->
       List.length (z_remote z') = List.length (z_remote z)).
Proof.
  intros H. pose (s2 := mkStn "rr01" "b.h5" false [run2]).
  specialize (H (mkStations [s2] sta) (mkStations [] sta)).
  assert (X : 0%nat = 1%nat); [|discriminate X].
  apply H; try reflexivity.
  - destruct C43_hyp as (A & _). constructor; [exact A|]. constructor; [|constructor].
    split; [discriminate|]. split; [repeat constructor; intros []|]. constructor; [exact run2_tabular|constructor].
  - repeat constructor; cbn [In]; intros F; repeat (destruct F as [F|F]; [discriminate F|]); exact F.
Qed.
(** Without a row of a local station reading raises IndexError. *)
Theorem C43_only_remote_raises : forall rows z, rows <> [] -> (forall w, In w rows -> w_remote w = true) ->
  stations_from_dataframe rows z = Err IndexError.
Proof.
  intros rows z NE H. unfold stations_from_dataframe. destruct rows as [|w0 r0]; [contradiction (NE eq_refl)|].
  rewrite filter_none; [reflexivity|]. intros w I. rewrite (H w I). reflexivity.
Qed.

Print Assumptions C43_station_round_trip.
Print Assumptions C43_stations_round_trip.
Print Assumptions C43_any_table.
Print Assumptions C43_get_station.
Print Assumptions C43_repeated_run_refuted.
Print Assumptions C43_unflagged_remote_refuted.
