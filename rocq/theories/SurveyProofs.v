(** Lemmas about the survey and experiment model. *)
From Coq Require Import Permutation.
From Coq Require Import Lqa.
From Verif Require Import PyBase PyFacts PyNum ContainerModel ContainerProofs SurveyModel SurveySpec.
Open Scope Q_scope.

Lemma qmin_spec r x : qmin x r <= x /\ (forall y, In y r -> qmin x r <= y) /\ In (qmin x r) (x :: r).
Proof.
  unfold qmin. revert x. induction r as [|a r IH]; intros x; cbn [fold_left].
  - split; [lra|]. split; [intros y []|now left].
  - destruct (Qle_bool x a) eqn:E.
    + apply Qle_bool_iff in E. destruct (IH x) as (H1 & H2 & H3). split; [assumption|]. split.
      * intros y [<-|Hy]; [lra|auto].
      * destruct H3 as [H3|H3]; [left; assumption|right; right; assumption].
    + assert (a < x) by (apply Qnot_le_lt; intros C; apply Qle_bool_iff in C; congruence).
      destruct (IH a) as (H1 & H2 & H3). split; [lra|]. split.
      * intros y [<-|Hy]; [lra|auto].
      * destruct H3 as [H3|H3]; [right; left; assumption|right; right; assumption].
Qed.
Lemma qmax_spec r x : x <= qmax x r /\ (forall y, In y r -> y <= qmax x r) /\ In (qmax x r) (x :: r).
Proof.
  unfold qmax. revert x. induction r as [|a r IH]; intros x; cbn [fold_left].
  - split; [lra|]. split; [intros y []|now left].
  - destruct (Qle_bool a x) eqn:E.
    + apply Qle_bool_iff in E. destruct (IH x) as (H1 & H2 & H3). split; [assumption|]. split.
      * intros y [<-|Hy]; [lra|auto].
      * destruct H3 as [H3|H3]; [left; assumption|right; right; assumption].
    + assert (x < a) by (apply Qnot_le_lt; intros C; apply Qle_bool_iff in C; congruence).
      destruct (IH a) as (H1 & H2 & H3). split; [lra|]. split.
      * intros y [<-|Hy]; [lra|auto].
      * destruct H3 as [H3|H3]; [right; left; assumption|right; right; assumption].
Qed.

Lemma In_known (l : list (option Q)) q : In q (known l) <-> In (Some q) l.
Proof.
  unfold known. rewrite in_flat_map. split.
  - intros ([p|] & H & K); [|destruct K]. destruct K as [<-|[]]. assumption.
  - intros H. exists (Some q). split; [assumption|now left].
Qed.
Lemma In_known_dvals (f : site -> option Q) (d : dict site) q :
  In q (known (map f (dvals d))) <-> exists k x, In (k, x) d /\ f x = Some q.
Proof.
  rewrite In_known, in_map_iff. unfold dvals. split.
  - intros (x & E & H). apply in_map_iff in H as ([k y] & E' & H). cbn in E'. subst y. now exists k, x.
  - intros (k & x & H & E). exists x. split; [assumption|]. apply in_map_iff. now exists (k, x).
Qed.

Lemma range_known (f : site -> option Q) (d : dict site) x r :
  known (map f (dvals d)) = x :: r ->
  range_of (fun q => exists k y, In (k, y) d /\ f y = Some q) (qmin x r) (qmax x r).
Proof.
  intros E. destruct (qmin_spec r x) as (A1 & A2 & A3). destruct (qmax_spec r x) as (B1 & B2 & B3).
  assert (K : forall q, In q (x :: r) <-> exists k y, In (k, y) d /\ f y = Some q)
    by (intros q; rewrite <- E; apply In_known_dvals).
  split; [|split].
  - intros q Hq. cbv beta in Hq. rewrite <- K in Hq. destruct Hq as [<-|Hq]; [now split|]. split; auto.
  - exists (qmin x r). split; [apply (proj1 (K _)); assumption|reflexivity].
  - exists (qmax x r). split; [apply (proj1 (K _)); assumption|reflexivity].
Qed.

Lemma update_box_stations s : sv_stations (update_box s) = sv_stations s.
Proof. unfold update_box. destruct (sv_stations s) eqn:E; cbn; auto. Qed.
Lemma update_dates_stations s : sv_stations (update_dates s) = sv_stations s.
Proof. reflexivity. Qed.
Lemma update_dates_box s : sv_box (update_dates s) = sv_box s.
Proof. reflexivity. Qed.

Lemma update_box_lat s q : some_lat (sv_stations s) q -> tight_lat (sv_stations s) (sv_box (update_box s)).
Proof.
  intros (k & x & H & E). unfold update_box.
  destruct (sv_stations s) as [|p0 l0] eqn:ES; [destruct H|]. rewrite <- ES in *.
  cbv zeta.
  destruct (known (map st_lat (dvals (sv_stations s)))) as [|a r] eqn:EL.
  - exfalso. assert (In q []) by (rewrite <- EL; apply In_known_dvals; now exists k, x). destruct H0.
  - pose proof (range_known _ _ _ _ EL) as R.
    destruct (known (map st_lon (dvals (sv_stations s)))); cbn; exact R.
Qed.
Lemma update_box_lon s q : some_lon (sv_stations s) q -> tight_lon (sv_stations s) (sv_box (update_box s)).
Proof.
  intros (k & x & H & E). unfold update_box.
  destruct (sv_stations s) as [|p0 l0] eqn:ES; [destruct H|]. rewrite <- ES in *.
  cbv zeta.
  destruct (known (map st_lon (dvals (sv_stations s)))) as [|a r] eqn:EL.
  - exfalso. assert (In q []) by (rewrite <- EL; apply In_known_dvals; now exists k, x). destruct H0.
  - pose proof (range_known _ _ _ _ EL) as R.
    destruct (known (map st_lat (dvals (sv_stations s)))); cbn; exact R.
Qed.
Lemma update_box_keeps_lat s : ~ (exists q, some_lat (sv_stations s) q) ->
  se_lat (sv_box (update_box s)) = se_lat (sv_box s) /\ nw_lat (sv_box (update_box s)) = nw_lat (sv_box s).
Proof.
  intros N. unfold update_box.
  destruct (sv_stations s) as [|p0 l0] eqn:ES; [now split|]. rewrite <- ES in *. cbv zeta.
  destruct (known (map st_lat (dvals (sv_stations s)))) as [|a r] eqn:EL.
  - now destruct (known (map st_lon (dvals (sv_stations s)))).
  - exfalso. apply N. exists a. apply In_known_dvals. rewrite EL. now left.
Qed.
Lemma update_box_keeps_lon s : ~ (exists q, some_lon (sv_stations s) q) ->
  se_lon (sv_box (update_box s)) = se_lon (sv_box s) /\ nw_lon (sv_box (update_box s)) = nw_lon (sv_box s).
Proof.
  intros N. unfold update_box.
  destruct (sv_stations s) as [|p0 l0] eqn:ES; [now split|]. rewrite <- ES in *. cbv zeta.
  destruct (known (map st_lon (dvals (sv_stations s)))) as [|a r] eqn:EL.
  - now destruct (known (map st_lat (dvals (sv_stations s)))).
  - exfalso. apply N. exists a. apply In_known_dvals. rewrite EL. now left.
Qed.

Lemma range_unique (P P' : Q -> Prop) a b a' b' :
  (forall q, P q <-> P' q) -> range_of P a b -> range_of P' a' b' -> a == a' /\ b == b'.
Proof.
  intros E (H & (x & Hx & Ex) & (y & Hy & Ey)) (H' & (x' & Hx' & Ex') & (y' & Hy' & Ey')).
  pose proof (H _ (proj2 (E _) Hx')). pose proof (H _ (proj2 (E _) Hy')).
  pose proof (H' _ (proj1 (E _) Hx)). pose proof (H' _ (proj1 (E _) Hy)). split; lra.
Qed.

(** Whatever the call, the box ends up tight around the stations then in the survey. *)
Lemma step_lat s o q :
  (match o with RemoveStation i => has_station s i = true | _ => True end) ->
  some_lat (sv_stations (survey_step s o)) q ->
  tight_lat (sv_stations (survey_step s o)) (sv_box (survey_step s o)).
Proof.
  destruct o as [x|i|other]; cbn [survey_step]; intros G.
  - unfold add_station. rewrite update_dates_stations, update_dates_box, update_box_stations.
    intros H. now apply update_box_lat in H.
  - unfold remove_station. rewrite G. rewrite update_dates_stations, update_dates_box, update_box_stations.
    intros H. now apply update_box_lat in H.
  - unfold merge_survey, survey_update_all. rewrite update_box_stations, update_dates_stations.
    intros H. rewrite <- (update_dates_stations (with_stations _ _)) in H. now apply update_box_lat in H.
Qed.
Lemma step_lon s o q :
  (match o with RemoveStation i => has_station s i = true | _ => True end) ->
  some_lon (sv_stations (survey_step s o)) q ->
  tight_lon (sv_stations (survey_step s o)) (sv_box (survey_step s o)).
Proof.
  destruct o as [x|i|other]; cbn [survey_step]; intros G.
  - unfold add_station. rewrite update_dates_stations, update_dates_box, update_box_stations.
    intros H. now apply update_box_lon in H.
  - unfold remove_station. rewrite G. rewrite update_dates_stations, update_dates_box, update_box_stations.
    intros H. now apply update_box_lon in H.
  - unfold merge_survey, survey_update_all. rewrite update_box_stations, update_dates_stations.
    intros H. rewrite <- (update_dates_stations (with_stations _ _)) in H. now apply update_box_lon in H.
Qed.

(** The invariant over histories. *)
Definition boxed (s : survey) : Prop :=
  (forall q, some_lat (sv_stations s) q -> tight_lat (sv_stations s) (sv_box s))
  /\ (forall q, some_lon (sv_stations s) q -> tight_lon (sv_stations s) (sv_box s)).
Lemma boxed_step s o : boxed s -> boxed (survey_step s o).
Proof.
  intros B.
  assert (C : match o with RemoveStation i => has_station s i = true | _ => True end
              \/ survey_step s o = s).
  { destruct o as [x|i|other]; [now left| |now left]. cbn [survey_step]. unfold remove_station.
    destruct (has_station s i); [now left|now right]. }
  destruct C as [C|C]; [|now rewrite C].
  split; intros q H; [exact (step_lat _ _ _ C H)|exact (step_lon _ _ _ C H)].
Qed.
Lemma boxed_new : boxed new_survey.
Proof. split; intros q (k & x & [] & _). Qed.
Lemma boxed_steps ops s : boxed s -> boxed (survey_steps s ops).
Proof.
  unfold survey_steps. revert s. induction ops as [|o ops IH]; intros s B; cbn [fold_left]; [assumption|].
  apply IH. now apply boxed_step.
Qed.

(* ---------------------------------------------------------------- ids *)

Lemma keyed_nil : keyed_sites [].
Proof. split; [constructor|intros k x []]. Qed.
Lemma keyed_sset_site d i x : keyed_sites d -> st_id x = i -> keyed_sites (sset i x d).
Proof.
  intros (N & K) E. split; [now apply NoDup_dset|].
  intros k y H. apply In_dset in H as [(-> & ->)|H]; [assumption|now apply K].
Qed.
Lemma keyed_dupdate_site (m d : dict site) : keyed_sites d -> (forall k x, In (k, x) m -> st_id x = k) ->
  keyed_sites (dupdate string_dec d m).
Proof.
  unfold dupdate. revert d. induction m as [|[k v] m IH]; intros d K H; cbn [fold_left fst snd]; [assumption|].
  apply IH; [|intros a x Hx; apply H; now right]. apply keyed_sset_site; [assumption|]. apply H. now left.
Qed.
Lemma keyed_add s x u : keyed_sites (sv_stations s) -> keyed_sites (sv_stations (add_station s x u)).
Proof.
  intros K. unfold add_station.
  assert (K' : keyed_sites match sget (st_id x) (sv_stations s) with
                           | Some old => sset (st_id x) (site_update old x) (sv_stations s)
                           | None => sset (st_id x) x (sv_stations s) end).
  { destruct (sget (st_id x) (sv_stations s)) as [old|] eqn:E; apply keyed_sset_site; try assumption; [|reflexivity].
    cbn. apply (dget_In string_dec) in E. now apply (proj2 K) in E. }
  destruct u; [|exact K']. rewrite update_dates_stations, update_box_stations. exact K'.
Qed.

Lemma add_stations_fresh l s :
  NoDup (map st_id l) -> (forall x, In x l -> ~ In (st_id x) (dkeys (sv_stations s))) ->
  sv_stations (survey_steps s (map AddStation l)) = (sv_stations s ++ map (fun x => (st_id x, x)) l)%list.
Proof.
  unfold survey_steps. revert s. induction l as [|x l IH]; intros s ND H; cbn [map fold_left].
  - now rewrite app_nil_r.
  - inversion ND as [|? ? N ND']; subst.
    assert (E : sv_stations (survey_step s (AddStation x)) = (sv_stations s ++ [(st_id x, x)])%list).
    { cbn [survey_step]. unfold add_station. rewrite update_dates_stations, update_box_stations.
      cbn [with_stations sv_stations].
      rewrite (proj2 (dget_None string_dec _ _)) by (apply H; now left).
      apply dset_notin. apply H. now left. }
    rewrite IH.
    + rewrite E. rewrite <- app_assoc. reflexivity.
    + assumption.
    + intros y Hy. rewrite E. unfold dkeys. rewrite map_app. cbn. rewrite in_app_iff. intros [C|[C|[]]].
      * apply (H y); [now right|assumption].
      * apply N. rewrite C. now apply in_map.
Qed.

(* ---------------------------------------------------------------- dates *)

Lemma date_of_le t : (date_of t * day <= t)%Z.
Proof. unfold date_of, day_ns, day. pose proof (Z.mul_div_le t 86400000000000). lia. Qed.
Lemma date_of_lt t : (t < (date_of t + 1) * day)%Z.
Proof.
  unfold date_of, day_ns, day. pose proof (Z.mul_succ_div_gt t 86400000000000). lia.
Qed.
Lemma day_ns_day : day_ns = day. Proof. reflexivity. Qed.

Lemma In_set_start d t : In t (set_times p_start (map st_period (dvals d))) <-> set_start d t.
Proof.
  rewrite In_set_times. unfold set_start, dvals. split.
  - intros (N & c & H & E). rewrite map_map in H. apply in_map_iff in H as ([k x] & E' & H). cbn in E'. subst c.
    exists k, x. auto.
  - intros (k & x & H & E & N). split; [assumption|]. exists (st_period x). split; [|assumption].
    rewrite map_map. apply in_map_iff. now exists (k, x).
Qed.
Lemma In_set_end d t : In t (set_times p_end (map st_period (dvals d))) <-> set_end d t.
Proof.
  rewrite In_set_times. unfold set_end, dvals. split.
  - intros (N & c & H & E). rewrite map_map in H. apply in_map_iff in H as ([k x] & E' & H). cbn in E'. subst c.
    exists k, x. auto.
  - intros (k & x & H & E & N). split; [assumption|]. exists (st_period x). split; [|assumption].
    rewrite map_map. apply in_map_iff. now exists (k, x).
Qed.

Lemma update_dates_start s :
  (forall t, set_start (sv_stations s) t -> sv_start (update_dates s) * day <= t)%Z
  /\ (sv_start s <> default_day -> sv_start (update_dates s) <= sv_start s)%Z
  /\ (sv_start (update_dates s) = sv_start s
      \/ exists t, set_start (sv_stations s) t /\ sv_start (update_dates s) = date_of t).
Proof.
  unfold update_dates. cbn [sv_start].
  pose proof (fun t => In_set_start (sv_stations s) t) as K. unfold set_times in K. revert K.
  destruct (filter _ (map p_start _)) as [|x r] eqn:E; intros K.
  - split; [|split]; [|lia|now left]. intros t H. apply K in H. destruct H.
  - destruct (zmin_spec r x) as (A & B & C). set (m := zmin x r) in *.
    assert (M : forall t, set_start (sv_stations s) t -> (m <= t)%Z).
    { intros t H. apply K in H as [<-|H]; auto. }
    assert (S : set_start (sv_stations s) m) by (apply (proj1 (K _)); assumption).
    pose proof (date_of_le m) as D1. pose proof (date_of_lt m) as D2. rewrite day_ns_day.
    destruct (sv_start s =? default_day)%Z eqn:ED; [|destruct (m <? sv_start s * day)%Z eqn:EM].
    + apply Z.eqb_eq in ED. split; [|split].
      * intros t H. apply M in H. lia.
      * intros C'. congruence.
      * right. now exists m.
    + apply Z.ltb_lt in EM. split; [|split].
      * intros t H. apply M in H. lia.
      * intros _. unfold day in *. nia.
      * right. now exists m.
    + apply Z.ltb_ge in EM. split; [|split].
      * intros t H. apply M in H. lia.
      * lia.
      * now left.
Qed.
Lemma update_dates_end s :
  (forall t, set_end (sv_stations s) t -> t < (sv_end (update_dates s) + 1) * day)%Z
  /\ (sv_end s <> default_day -> sv_end s <= sv_end (update_dates s))%Z
  /\ (sv_end (update_dates s) = sv_end s
      \/ exists t, set_end (sv_stations s) t /\ sv_end (update_dates s) = date_of t).
Proof.
  unfold update_dates. cbn [sv_end].
  pose proof (fun t => In_set_end (sv_stations s) t) as K. unfold set_times in K. revert K.
  destruct (filter _ (map p_end _)) as [|x r] eqn:E; intros K.
  - split; [|split]; [|lia|now left]. intros t H. apply K in H. destruct H.
  - destruct (zmax_spec r x) as (A & B & C). set (m := zmax x r) in *.
    assert (M : forall t, set_end (sv_stations s) t -> (t <= m)%Z).
    { intros t H. apply K in H as [<-|H]; auto. }
    assert (S : set_end (sv_stations s) m) by (apply (proj1 (K _)); assumption).
    pose proof (date_of_le m) as D1. pose proof (date_of_lt m) as D2. rewrite day_ns_day.
    destruct (sv_end s =? default_day)%Z eqn:ED; [|destruct (m <? sv_end s * day)%Z eqn:EM]; cbn [negb].
    + apply Z.eqb_eq in ED. split; [|split].
      * intros t H. apply M in H. lia.
      * intros C'. congruence.
      * right. now exists m.
    + apply Z.ltb_lt in EM. split; [|split].
      * intros t H. apply M in H. unfold day in *. lia.
      * lia.
      * now left.
    + apply Z.ltb_ge in EM. split; [|split].
      * intros t H. apply M in H. lia.
      * intros _. unfold day in *. nia.
      * right. now exists m.
Qed.
Lemma update_box_dates s : sv_start (update_box s) = sv_start s /\ sv_end (update_box s) = sv_end s.
Proof. unfold update_box. destruct (sv_stations s) eqn:E; cbn; auto. Qed.

(* ---------------------------------------------------------------- experiments *)

Lemma filter_ext_In {A} (f g : A -> bool) l : (forall x, In x l -> f x = g x) -> filter f l = filter g l.
Proof.
  induction l as [|a l IH]; intros H; cbn; [reflexivity|]. rewrite (H a) by now left.
  destruct (g a); [f_equal|]; apply IH; intros; apply H; now right.
Qed.
Lemma dkeys_merge {V} (m d : dict V) : NoDup (dkeys m) ->
  dkeys (dupdate string_dec d m) = union_ids (dkeys d) (dkeys m).
Proof.
  unfold dupdate, union_ids. revert d. induction m as [|[k v] m IH]; intros d ND; cbn [fold_left fst snd].
  - cbn. now rewrite app_nil_r.
  - cbn [dkeys map fst] in ND. inversion ND as [|? ? N ND']; subst. rewrite IH by assumption.
    rewrite dkeys_dset. cbn [dkeys map fst filter]. fold (dkeys m).
    destruct (in_dec string_dec k (dkeys d)) as [I|I]; [reflexivity|].
    rewrite <- app_assoc. f_equal. cbn. f_equal. apply filter_ext_In. intros a Ha.
    destruct (in_dec string_dec a (dkeys d ++ [k])) as [J|J], (in_dec string_dec a (dkeys d)) as [L|L]; try reflexivity.
    + apply in_app_or in J as [J|[->|[]]]; [tauto|]. now apply N in Ha.
    + exfalso. apply J. apply in_or_app. now left.
Qed.
Lemma dget_merge {V} (m d : dict V) k : NoDup (dkeys m) ->
  sget k (dupdate string_dec d m) = match sget k m with Some v => Some v | None => sget k d end.
Proof.
  unfold dupdate. revert d. induction m as [|[a v] m IH]; intros d ND; cbn [fold_left fst snd]; [reflexivity|].
  cbn [dkeys map fst] in ND. inversion ND as [|? ? N ND']; subst. rewrite IH by assumption.
  cbn [dget]. destruct (string_dec k a) as [->|n].
  - rewrite (proj2 (dget_None string_dec _ _)) by assumption. now rewrite dget_dset_eq.
  - destruct (sget k m); [reflexivity|]. now rewrite dget_dset_neq.
Qed.
