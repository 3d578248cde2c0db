(** C23 for surveys, C26 and C27: dates and bounding box of a survey, merging experiments. *)
From Coq Require Import Permutation Lqa.
From Verif Require Import PyBase PyFacts PyNum ContainerModel ContainerProofs SurveyModel SurveySpec SurveyProofs.
Open Scope string_scope.

Definition at_day (n : Z) : Z := (n * day + 43200000000000)%Z.
Definition alpha : site := mkSite "A" (Some 40%Q) (Some (-120)%Q) (mkPeriod (at_day 18000) (at_day 18010)).
Definition beta : site := mkSite "B" (Some (81#2)%Q) (Some (-121)%Q) (mkPeriod (at_day 17990) (at_day 18005)).
Definition gamma : site := mkSite "C" None None default_period.

(* ================================================================ C26 *)

(** After any call that changes the stations with an update, the box is the tight one around the
    stations now in the survey (for latitude, and for longitude, as soon as one of them is known). *)
Theorem C26_every_call :
  forall (s : survey) (o : survey_op),
  (match o with RemoveStation i => In i (dkeys (sv_stations s)) | _ => True end) ->
  (forall q, some_lat (sv_stations (survey_step s o)) q ->
             tight_lat (sv_stations (survey_step s o)) (sv_box (survey_step s o)))
  /\ (forall q, some_lon (sv_stations (survey_step s o)) q ->
                tight_lon (sv_stations (survey_step s o)) (sv_box (survey_step s o))).
Proof.
  intros s o H.
  assert (G : match o with RemoveStation i => has_station s i = true | _ => True end).
  { destruct o; try exact I. unfold has_station. now apply smem_In. }
  split; intros q Hq; [exact (step_lat _ _ _ G Hq)|exact (step_lon _ _ _ G Hq)].
Qed.

(** The same at every point of a history that starts with an empty survey. *)
Theorem C26_history :
  forall (ops : list survey_op),
  let s := survey_steps new_survey ops in
  (forall q, some_lat (sv_stations s) q -> tight_lat (sv_stations s) (sv_box s))
  /\ (forall q, some_lon (sv_stations s) q -> tight_lon (sv_stations s) (sv_box s)).
Proof. intros ops. cbv zeta. exact (boxed_steps ops _ boxed_new). Qed.
Definition some_history : list survey_op :=
  [AddStation alpha; AddStation gamma; AddStation beta; RemoveStation "A"; AddStation alpha].
Example C26_history_hyp :
  some_lat (sv_stations (survey_steps new_survey some_history)) 40%Q
  /\ length (sv_stations (survey_steps new_survey some_history)) = 3%nat
  /\ same_box (sv_box (survey_steps new_survey some_history)) (mkCorners 40 (-120) (81#2) (-121)).
Proof.
  split; [|split].
  - exists "A", alpha. split; [|reflexivity]. vm_compute. tauto.
  - reflexivity.
  - vm_compute. repeat split; reflexivity.
Qed.

(** A new station with a position is in the survey, so the box covers it. *)
Theorem C26_added_station_in_box :
  forall (s : survey) (x : site) (a o : Q),
  ~ In (st_id x) (dkeys (sv_stations s)) -> st_lat x = Some a -> st_lon x = Some o ->
  let b := sv_box (add_station s x true) in
  (se_lat b <= a <= nw_lat b)%Q /\ (nw_lon b <= o <= se_lon b)%Q.
Proof.
  intros s x a o N EA EO. cbv zeta.
  assert (IN : In (st_id x, x) (sv_stations (survey_step s (AddStation x)))).
  { cbn [survey_step]. unfold add_station. rewrite update_dates_stations, update_box_stations.
    cbn [with_stations sv_stations]. rewrite (proj2 (dget_None string_dec _ _)) by assumption.
    apply In_sset_same. }
  assert (LA : some_lat (sv_stations (survey_step s (AddStation x))) a) by now exists (st_id x), x.
  assert (LO : some_lon (sv_stations (survey_step s (AddStation x))) o) by now exists (st_id x), x.
  pose proof (step_lat _ (AddStation x) _ I LA) as (T & _). pose proof (step_lon _ (AddStation x) _ I LO) as (U & _).
  split; [exact (T _ LA)|exact (U _ LO)].
Qed.
Example C26_added_station_in_box_hyp :
  ~ In (st_id beta) (dkeys (sv_stations (add_station new_survey alpha true)))
  /\ st_lat beta = Some (81#2)%Q /\ st_lon beta = Some (-121)%Q.
Proof. split; [|split; reflexivity]. cbn. intros [E|[]]. discriminate. Qed.

(** Two surveys with the same stations, reached by whatever histories, have the same box. *)
Theorem C26_box_is_determined :
  forall (ops1 ops2 : list survey_op),
  let s1 := survey_steps new_survey ops1 in
  let s2 := survey_steps new_survey ops2 in
  (forall k x, In (k, x) (sv_stations s1) <-> In (k, x) (sv_stations s2)) ->
  (exists q, some_lat (sv_stations s1) q) -> (exists q, some_lon (sv_stations s1) q) ->
  same_box (sv_box s1) (sv_box s2).
Proof.
  intros ops1 ops2 s1 s2 E (a & Ha) (o & Ho).
  destruct (C26_history ops1) as (A1 & O1). destruct (C26_history ops2) as (A2 & O2).
  fold s1 in A1, O1. fold s2 in A2, O2.
  assert (EA : forall q, some_lat (sv_stations s1) q <-> some_lat (sv_stations s2) q).
  { intros q; unfold some_lat. split; intros (k & x & H & K); exists k, x; (split; [apply E; exact H|exact K]). }
  assert (EO : forall q, some_lon (sv_stations s1) q <-> some_lon (sv_stations s2) q).
  { intros q; unfold some_lon. split; intros (k & x & H & K); exists k, x; (split; [apply E; exact H|exact K]). }
  pose proof (range_unique _ _ _ _ _ _ EA (A1 _ Ha) (A2 _ (proj1 (EA _) Ha))) as (U1 & U2).
  pose proof (range_unique _ _ _ _ _ _ EO (O1 _ Ho) (O2 _ (proj1 (EO _) Ho))) as (U3 & U4).
  repeat split; assumption.
Qed.

(** The order in which distinct stations are added does not matter. *)
Theorem C26_order_irrelevant :
  forall (l l' : list site),
  NoDup (map st_id l) -> Permutation l l' ->
  (exists x q, In x l /\ st_lat x = Some q) -> (exists x q, In x l /\ st_lon x = Some q) ->
  same_box (sv_box (survey_steps new_survey (map AddStation l)))
           (sv_box (survey_steps new_survey (map AddStation l'))).
Proof.
  intros l l' ND P (xa & a & Ha & Ea) (xo & o & Ho & Eo).
  assert (ND' : NoDup (map st_id l')) by (apply (Permutation_NoDup (Permutation_map st_id P)); assumption).
  assert (S : forall m, NoDup (map st_id m) ->
              sv_stations (survey_steps new_survey (map AddStation m)) = map (fun x => (st_id x, x)) m).
  { intros m N. rewrite add_stations_fresh; [reflexivity|assumption|]. intros x _ []. }
  apply C26_box_is_determined; rewrite ?(S l ND), ?(S l' ND').
  - intros k x. rewrite !in_map_iff. split; intros (y & E & H); exists y; (split; [exact E|]).
    + now apply (Permutation_in _ P).
    + now apply (Permutation_in _ (Permutation_sym P)).
  - exists a, (st_id xa), xa. split; [|assumption]. apply in_map_iff. now exists xa.
  - exists o, (st_id xo), xo. split; [|assumption]. apply in_map_iff. now exists xo.
Qed.
Example C26_order_irrelevant_hyp :
  NoDup (map st_id [alpha; beta; gamma]) /\ Permutation [alpha; beta; gamma] [gamma; alpha; beta]
  /\ (exists x q, In x [alpha; beta; gamma] /\ st_lat x = Some q)
  /\ (exists x q, In x [alpha; beta; gamma] /\ st_lon x = Some q).
Proof.
  split; [|split; [|split]].
  - repeat constructor; cbn; intuition discriminate.
  - apply Permutation_sym. apply (Permutation_cons_append [alpha; beta] gamma).
  - exists alpha, 40%Q. cbn. auto.
  - exists alpha, (-120)%Q. cbn. auto.
Qed.

(** Stations without a position leave the corners alone. *)
Theorem C26_unknown_positions_ignored :
  forall (s : survey) (x : site),
  st_lat x = None -> st_lon x = None -> ~ In (st_id x) (dkeys (sv_stations s)) ->
  (forall q, some_lat (sv_stations s) q -> tight_lat (sv_stations s) (sv_box s)) ->
  (forall q, some_lon (sv_stations s) q -> tight_lon (sv_stations s) (sv_box s)) ->
  same_box (sv_box (add_station s x true)) (sv_box s).
Proof.
  intros s x EA EO N TA TO.
  assert (ES : sv_stations (add_station s x true) = (sv_stations s ++ [(st_id x, x)])%list).
  { unfold add_station. rewrite update_dates_stations, update_box_stations. cbn [with_stations sv_stations].
    rewrite (proj2 (dget_None string_dec _ _)) by assumption. now apply dset_notin. }
  assert (A : forall q, some_lat (sv_stations (add_station s x true)) q <-> some_lat (sv_stations s) q).
  { intros q. rewrite ES. split; intros (k & y & H & E); exists k, y; (split; [|exact E]).
    - apply in_app_or in H as [H|[H|[]]]; [assumption|]. injection H as <- <-. congruence.
    - apply in_or_app. now left. }
  assert (O : forall q, some_lon (sv_stations (add_station s x true)) q <-> some_lon (sv_stations s) q).
  { intros q. rewrite ES. split; intros (k & y & H & E); exists k, y; (split; [|exact E]).
    - apply in_app_or in H as [H|[H|[]]]; [assumption|]. injection H as <- <-. congruence.
    - apply in_or_app. now left. }
  assert (SB : sv_box (add_station s x true)
               = sv_box (update_box (with_stations s (sv_stations (add_station s x true))))).
  { unfold add_station at 1. rewrite update_dates_box. do 3 f_equal.
    unfold add_station. rewrite update_dates_stations, update_box_stations. reflexivity. }
  set (s' := with_stations s (sv_stations (add_station s x true))) in *.
  assert (EQ : sv_stations s' = sv_stations (add_station s x true)) by reflexivity.
  assert (DA : (exists q, some_lat (sv_stations s) q) \/ ~ (exists q, some_lat (sv_stations s) q)).
  { destruct (known (map st_lat (dvals (sv_stations s)))) as [|q r] eqn:E.
    - right. intros (q & H). apply In_known_dvals in H. rewrite E in H. destruct H.
    - left. exists q. apply In_known_dvals. rewrite E. now left. }
  assert (DO : (exists q, some_lon (sv_stations s) q) \/ ~ (exists q, some_lon (sv_stations s) q)).
  { destruct (known (map st_lon (dvals (sv_stations s)))) as [|q r] eqn:E.
    - right. intros (q & H). apply In_known_dvals in H. rewrite E in H. destruct H.
    - left. exists q. apply In_known_dvals. rewrite E. now left. }
  rewrite SB.
  assert (LA : (se_lat (sv_box (update_box s')) == se_lat (sv_box s))%Q
               /\ (nw_lat (sv_box (update_box s')) == nw_lat (sv_box s))%Q).
  { destruct DA as [(q & Hq)|NA].
    - pose proof (update_box_lat s' q (proj2 (A q) Hq)) as T. rewrite EQ in T.
      exact (range_unique _ _ _ _ _ _ A T (TA _ Hq)).
    - destruct (update_box_keeps_lat s') as (-> & ->); [|split; reflexivity].
      intros (q & Hq). apply NA. exists q. now apply A. }
  assert (LO : (nw_lon (sv_box (update_box s')) == nw_lon (sv_box s))%Q
               /\ (se_lon (sv_box (update_box s')) == se_lon (sv_box s))%Q).
  { destruct DO as [(q & Hq)|NA].
    - pose proof (update_box_lon s' q (proj2 (O q) Hq)) as T. rewrite EQ in T.
      exact (range_unique _ _ _ _ _ _ O T (TO _ Hq)).
    - destruct (update_box_keeps_lon s') as (-> & ->); [|split; reflexivity].
      intros (q & Hq). apply NA. exists q. now apply O. }
  unfold same_box. tauto.
Qed.
Example C26_unknown_positions_ignored_hyp :
  let s := survey_steps new_survey [AddStation alpha; AddStation beta] in
  st_lat gamma = None /\ st_lon gamma = None /\ ~ In (st_id gamma) (dkeys (sv_stations s))
  /\ (forall q, some_lat (sv_stations s) q -> tight_lat (sv_stations s) (sv_box s)).
Proof.
  cbv zeta. split; [reflexivity|]. split; [reflexivity|]. split.
  - cbn. intros [E|[E|[]]]; discriminate.
  - exact (proj1 (C26_history [AddStation alpha; AddStation beta])).
Qed.

(** Not so: a station whose position was never set counts as one at latitude 0, longitude 0. *)
Theorem C26_position_never_set_refuted :
  ~ (forall (s : survey) (i : string), ~ In i (dkeys (sv_stations s)) ->
     same_box (sv_box (add_station s (new_site i) true)) (sv_box s)).
Proof.
  intros H. specialize (H (add_station new_survey alpha true) "Z").
  assert (N : ~ In "Z" (dkeys (sv_stations (add_station new_survey alpha true)))).
  { cbn. intros [E|[]]. discriminate. }
  apply H in N. destruct N as (E & _). vm_compute in E. discriminate.
Qed.
(** Not so: when the last station goes, the box stays where it was. *)
Theorem C26_last_station_removed_refuted :
  ~ (forall (s : survey) (i : string), sv_stations (remove_station s i true) = [] ->
     same_box (sv_box (remove_station s i true)) (sv_box new_survey)).
Proof.
  intros H. specialize (H (add_station new_survey alpha true) "A" eq_refl).
  destruct H as (E & _). vm_compute in E. discriminate.
Qed.
(** Not so: a station that moves onto the equator keeps its old latitude when it is added again. *)
Theorem C26_moved_to_zero_refuted :
  ~ (forall (s : survey) (x : site) (a : Q), st_lat x = Some a ->
     exists k y, In (k, y) (sv_stations (add_station s x true)) /\ k = st_id x /\ st_lat y = Some a).
Proof.
  intros H. specialize (H (add_station new_survey alpha true) (mkSite "A" (Some 0%Q) (Some 1%Q) default_period) 0%Q eq_refl).
  destruct H as (k & y & I & _ & E). vm_compute in I. destruct I as [I|[]]. injection I as <- <-. discriminate.
Qed.

(* ================================================================ C23, surveys *)

(** The dates of a survey enclose the set times of its stations after an update, do not shrink once
    set, and are always either the previous date or the day of a station. *)
Theorem C23_survey :
  forall (s : survey),
  let s' := update_dates s in
  dates_enclose (sv_stations s) (sv_start s') (sv_end s')
  /\ (sv_start s <> default_day -> sv_start s' <= sv_start s)%Z
  /\ (sv_end s <> default_day -> sv_end s <= sv_end s')%Z
  /\ (sv_start s' = sv_start s \/ exists t, set_start (sv_stations s) t /\ (sv_start s' * day <= t < (sv_start s' + 1) * day)%Z)
  /\ (sv_end s' = sv_end s \/ exists t, set_end (sv_stations s) t /\ (sv_end s' * day <= t < (sv_end s' + 1) * day)%Z).
Proof.
  intros s. cbv zeta. destruct (update_dates_start s) as (A1 & A2 & A3). destruct (update_dates_end s) as (B1 & B2 & B3).
  split; [split; assumption|]. split; [assumption|]. split; [assumption|]. split.
  - destruct A3 as [A3|(t & S & E)]; [now left|right]. exists t. split; [assumption|]. rewrite E.
    split; [apply date_of_le|apply date_of_lt].
  - destruct B3 as [B3|(t & S & E)]; [now left|right]. exists t. split; [assumption|]. rewrite E.
    split; [apply date_of_le|apply date_of_lt].
Qed.
Example C23_survey_hyp :
  let s := with_stations new_survey [("A", alpha); ("B", beta); ("C", gamma)] in
  set_start (sv_stations s) (at_day 17990)
  /\ sv_start (update_dates s) = 17990%Z /\ sv_end (update_dates s) = 18010%Z.
Proof. split; [|split; reflexivity]. exists "B", beta. cbn. repeat split; auto. discriminate. Qed.

(** And at every point of a history that starts with an empty survey. *)
Theorem C23_survey_history :
  forall (ops : list survey_op),
  let s := survey_steps new_survey ops in
  dates_enclose (sv_stations s) (sv_start s) (sv_end s).
Proof.
  intros ops. cbv zeta.
  assert (ST : forall s o, dates_enclose (sv_stations s) (sv_start s) (sv_end s) ->
    dates_enclose (sv_stations (survey_step s o)) (sv_start (survey_step s o)) (sv_end (survey_step s o))).
  { intros s o H.
    assert (U : forall s, dates_enclose (sv_stations (update_dates s)) (sv_start (update_dates s)) (sv_end (update_dates s))).
    { intros s0. rewrite update_dates_stations. split; [apply update_dates_start|apply update_dates_end]. }
    destruct o as [x|i|other]; cbn [survey_step].
    - unfold add_station. apply U.
    - unfold remove_station. destruct (has_station s i); [apply U|exact H].
    - unfold merge_survey, survey_update_all. rewrite update_box_stations.
      destruct (update_box_dates (update_dates (with_stations s (dupdate string_dec (sv_stations s) (sv_stations other)))))
        as (-> & ->). apply U. }
  unfold survey_steps.
  assert (G : forall s, dates_enclose (sv_stations s) (sv_start s) (sv_end s) ->
    dates_enclose (sv_stations (fold_left survey_step ops s)) (sv_start (fold_left survey_step ops s))
                  (sv_end (fold_left survey_step ops s))).
  { induction ops as [|o ops IH]; intros s H; cbn [fold_left]; [assumption|]. apply IH. now apply ST. }
  apply G. split; intros t (k & x & [] & _).
Qed.
Example C23_survey_history_hyp :
  let s := survey_steps new_survey some_history in
  sv_start s = 17990%Z /\ sv_end s = 18010%Z /\ set_start (sv_stations s) (at_day 18000).
Proof. cbv zeta. split; [reflexivity|]. split; [reflexivity|]. exists "A", alpha. cbn. repeat split; auto. discriminate. Qed.

(* ================================================================ C27 *)

(** The ids of a merged experiment: those of the first in order, then the new ones of the second. *)
Theorem C27_merge_ids :
  forall (e other : experiment), NoDup (dkeys e) -> NoDup (dkeys other) ->
  dkeys (merge_experiment e other) = union_ids (dkeys e) (dkeys other)
  /\ NoDup (dkeys (merge_experiment e other)).
Proof.
  intros e other N M. split; [now apply dkeys_merge|now apply NoDup_dupdate].
Qed.
(** Every survey of the second is there; every survey of the first whose id the second lacks too. *)
Theorem C27_merge_get :
  forall (e other : experiment) (i : string) (s : survey), NoDup (dkeys e) -> NoDup (dkeys other) ->
  (sget i other = Some s -> sget i (merge_experiment e other) = Some s)
  /\ (sget i e = Some s -> ~ In i (dkeys other) -> sget i (merge_experiment e other) = Some s)
  /\ (sget i (merge_experiment e other) = Some s -> sget i e = Some s \/ sget i other = Some s).
Proof.
  intros e other i s N M. unfold merge_experiment. rewrite dget_merge by assumption. split; [|split].
  - now intros ->.
  - intros E K. now rewrite (proj2 (dget_None string_dec _ _)) by assumption.
  - destruct (sget i other); auto.
Qed.
Theorem C27_merge_disjoint :
  forall (e other : experiment), NoDup (dkeys other) ->
  (forall i, In i (dkeys e) -> ~ In i (dkeys other)) ->
  merge_experiment e other = (e ++ other)%list.
Proof.
  unfold merge_experiment, dupdate. intros e other. revert e. induction other as [|[k v] m IH]; intros e N D; cbn [fold_left fst snd].
  - now rewrite app_nil_r.
  - cbn [dkeys map fst] in N. inversion N as [|? ? K N']; subst.
    rewrite dset_notin by (intros C; apply (D k C); now left). rewrite IH.
    + now rewrite <- app_assoc.
    + assumption.
    + intros i. unfold dkeys at 1. rewrite map_app. cbn. rewrite in_app_iff. intros [C|[<-|[]]] H.
      * apply (D i C). now right.
      * now apply K in H.
Qed.
Definition first_survey : survey := add_station new_survey alpha true.
Definition second_survey : survey := add_station new_survey beta true.
Example C27_merge_hyp :
  let e : experiment := [("s1", first_survey); ("s2", second_survey)] in
  let o : experiment := [("s3", second_survey); ("s1", second_survey)] in
  NoDup (dkeys e) /\ NoDup (dkeys o) /\ dkeys (merge_experiment e o) = ["s1"; "s2"; "s3"]
  /\ (forall i, In i (dkeys e) -> ~ In i (dkeys [("s3", second_survey)])).
Proof.
  cbv zeta. split; [|split; [|split]].
  - repeat constructor; cbn; intuition discriminate.
  - repeat constructor; cbn; intuition discriminate.
  - reflexivity.
  - cbn. intuition congruence.
Qed.

(** Not so: the stations of a survey present in both are not united; those of the first are lost. *)
Theorem C27_shared_survey_refuted :
  ~ (forall (e other : experiment) (i : string) (s : survey) (x : site), NoDup (dkeys e) -> NoDup (dkeys other) ->
     sget i e = Some s -> In x (dvals (sv_stations s)) ->
     exists s', sget i (merge_experiment e other) = Some s' /\ In (st_id x) (dkeys (sv_stations s'))).
Proof.
  intros H. specialize (H [("s1", first_survey)] [("s1", second_survey)] "s1" first_survey alpha).
  destruct H as (s' & E & I); [constructor; [intros []|constructor]|constructor; [intros []|constructor]|reflexivity|left; reflexivity|].
  vm_compute in E. injection E as <-. vm_compute in I. destruct I as [I|[]]. discriminate.
Qed.
(** Not so: adding a survey again adds its stations.  They are always dropped. *)
Theorem C27_add_survey_again_refuted :
  ~ (forall (e : experiment) (i : string) (s : survey) (x : site), In x (dvals (sv_stations s)) ->
     exists s', sget i (add_survey e i s) = Some s' /\ In (st_id x) (dkeys (sv_stations s'))).
Proof.
  intros H. specialize (H [("s1", first_survey)] "s1" second_survey beta).
  destruct H as (s' & E & I); [left; reflexivity|].
  vm_compute in E. injection E as <-. vm_compute in I. destruct I as [I|[]]. discriminate.
Qed.
Theorem C27_add_survey_again_keeps_stations :
  forall (e : experiment) (i : string) (old s : survey), sget i e = Some old ->
  exists s', sget i (add_survey e i s) = Some s' /\ sv_stations s' = sv_stations old
  /\ sv_start s' = sv_start s /\ sv_end s' = sv_end s.
Proof.
  intros e i old s E. unfold add_survey. rewrite E. exists (survey_update old s).
  split; [apply dget_dset_eq|]. repeat split; reflexivity.
Qed.
(** A new survey is appended, an unknown one is not removed, and removing undoes adding. *)
Theorem C27_add_remove :
  forall (e : experiment) (i : string) (s : survey), ~ In i (dkeys e) ->
  add_survey e i s = (e ++ [(i, s)])%list
  /\ remove_survey e i = e
  /\ remove_survey (add_survey e i s) i = e.
Proof.
  intros e i s N.
  assert (A : add_survey e i s = (e ++ [(i, s)])%list).
  { unfold add_survey. rewrite (proj2 (dget_None string_dec _ _)) by assumption. now apply dset_notin. }
  split; [assumption|]. split.
  - unfold remove_survey. destruct (smem i (dkeys e)) eqn:E; [|reflexivity]. apply smem_In in E. tauto.
  - rewrite A. unfold remove_survey.
    assert (M : smem i (dkeys (e ++ [(i, s)])) = true).
    { apply smem_In. unfold dkeys. rewrite map_app. apply in_or_app. right. now left. }
    rewrite M. clear M A. induction e as [|[k v] e IH]; cbn.
    + destruct (string_dec i i); [reflexivity|congruence].
    + destruct (string_dec i k) as [->|n]; [exfalso; apply N; now left|].
      f_equal. apply IH. intros C. apply N. now right.
Qed.
Example C27_add_remove_hyp : ~ In "s2" (dkeys ([("s1", first_survey)] : experiment)).
Proof. cbn. intros [E|[]]. discriminate. Qed.

Print Assumptions C26_every_call.
Print Assumptions C26_history.
Print Assumptions C26_added_station_in_box.
Print Assumptions C26_box_is_determined.
Print Assumptions C26_order_irrelevant.
Print Assumptions C26_unknown_positions_ignored.
Print Assumptions C26_position_never_set_refuted.
Print Assumptions C26_last_station_removed_refuted.
Print Assumptions C26_moved_to_zero_refuted.
Print Assumptions C23_survey.
Print Assumptions C23_survey_history.
Print Assumptions C27_merge_ids.
Print Assumptions C27_merge_get.
Print Assumptions C27_merge_disjoint.
Print Assumptions C27_shared_survey_refuted.
Print Assumptions C27_add_survey_again_refuted.
Print Assumptions C27_add_survey_again_keeps_stations.
Print Assumptions C27_add_remove.
