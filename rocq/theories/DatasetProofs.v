From Coq Require Import Permutation.
From Verif Require Import PyBase PyNum PyFacts MTimeModel MTimeProofs DatasetModel DatasetSpec.

Lemma made_fixed : forall t, made_time t -> parse_stamp t = Ok t.
Proof. intros t [v H]. apply parse_stamp_fixed. eapply parse_stamp_stored. exact H. Qed.

(** ** Scale factors *)
Lemma scale_fold_get : forall l d i,
  dget string_dec i (fold_left (fun d c => dset string_dec (ch_id c) (ch_scale c) d) l d) =
  match List.find (fun c => String.eqb (ch_id c) i) (rev l) with Some c => Some (ch_scale c) | None => dget string_dec i d end.
Proof.
  induction l as [|c l IH] using rev_ind; intros d i; [reflexivity|].
  rewrite fold_left_app, rev_app_distr. cbn [fold_left rev app List.find].
  destruct (String.eqb_spec (ch_id c) i) as [E|N].
  - subst i. apply dget_dset_eq.
  - rewrite dget_dset_neq by congruence. apply IH.
Qed.
Lemma find_nodup : forall l c, NoDup (map ch_id l) -> In c l -> List.find (fun x => String.eqb (ch_id x) (ch_id c)) l = Some c.
Proof.
  induction l as [|x l IH]; intros c ND I; [contradiction|]. cbn [map] in ND. inversion ND as [|? ? N ND']; subst. cbn [List.find].
  destruct I as [->|I]; [rewrite String.eqb_refl; reflexivity|].
  destruct (String.eqb_spec (ch_id x) (ch_id c)) as [E|_]; [|apply IH; assumption].
  exfalso. apply N. rewrite E. apply in_map. exact I.
Qed.
Lemma scale_of : forall r c, NoDup (map ch_id (r_input r) ++ map ch_id (r_output r)) -> In c (r_input r ++ r_output r) ->
  set_scale (scale_factors r) (mkChan (ch_id c) 1) = c.
Proof.
  intros r c ND I. unfold set_scale, scale_factors. cbn [ch_id]. rewrite scale_fold_get. rewrite <- map_app in ND.
  rewrite find_nodup; [destruct c; reflexivity| |].
  - rewrite map_rev. eapply Permutation_NoDup; [apply Permutation_rev|exact ND].
  - apply in_rev in I. exact I.
Qed.
Lemma new_run_of : forall s r tp, NoDup (map ch_id (r_input r) ++ map ch_id (r_output r)) ->
  new_run (mkRow (s_id s) (r_id r) (fst tp) (snd tp) (s_path s) (r_rate r)
                 (map ch_id (r_input r)) (map ch_id (r_output r)) (s_remote s) (scale_factors r)) tp
  = mkRun (r_id r) (r_input r) (r_output r) [tp] (r_rate r).
Proof.
  intros s r tp ND. unfold new_run, set_channel_scale_factors. cbn [w_scale w_run w_input w_output w_rate r_id r_input r_output r_periods r_rate].
  rewrite !map_map. f_equal.
  - rewrite <- map_id. apply map_ext_in. intros c I. apply scale_of; [exact ND|apply in_or_app; left; exact I].
  - rewrite <- map_id. apply map_ext_in. intros c I. apply scale_of; [exact ND|apply in_or_app; right; exact I].
Qed.

(** ** Runs by name *)
Lemma find_run_None : forall i l, find_run i l = None <-> ~ In i (map r_id l).
Proof.
  intros i l. unfold find_run. rewrite (dget_None string_dec).
  unfold dkeys. rewrite map_rev, map_map. cbn [fst].
  rewrite <- in_rev. reflexivity.
Qed.
Lemma append_last_ids : forall i tp l, map r_id (append_last i tp l) = map r_id l.
Proof.
  intros i tp. induction l as [|r l IH]; [reflexivity|]. cbn [append_last].
  destruct (existsb _ l); [cbn [map]; rewrite IH; reflexivity|]. destruct (String.eqb (r_id r) i); reflexivity.
Qed.
Lemma existsb_id : forall i l, existsb (fun r' => String.eqb (r_id r') i) l = true <-> In i (map r_id l).
Proof.
  intros i l. rewrite existsb_exists. split.
  - intros (r & I & E). apply String.eqb_eq in E. subst i. apply in_map. exact I.
  - intros I. apply in_map_iff in I. destruct I as (r & E & I). exists r. split; [exact I|]. apply String.eqb_eq. exact E.
Qed.
Lemma append_last_end : forall i tp r acc, r_id r = i ->
  append_last i tp (acc ++ [r]) = (acc ++ [mkRun (r_id r) (r_input r) (r_output r) (r_periods r ++ [tp]) (r_rate r)])%list.
Proof.
  intros i tp r acc E. induction acc as [|a acc IH]; cbn [app append_last existsb].
  - rewrite E, String.eqb_refl. reflexivity.
  - replace (existsb (fun r' => String.eqb (r_id r') i) (acc ++ [r])) with true; [rewrite IH; reflexivity|].
    symmetry. apply existsb_id. rewrite map_app. apply in_or_app. right. left. exact E.
Qed.
Definition intervals_of (l : list prun) : list (string * Z * Z) :=
  flat_map (fun r => map (fun tp => (r_id r, fst tp, snd tp)) (r_periods r)) l.
Lemma append_last_intervals : forall i tp l, In i (map r_id l) ->
  Permutation (intervals_of (append_last i tp l)) ((i, fst tp, snd tp) :: intervals_of l).
Proof.
  intros i tp. induction l as [|r l IH]; intros I; [contradiction|]. cbn [append_last].
  destruct (existsb _ l) eqn:X.
  - apply existsb_id in X. unfold intervals_of. cbn [flat_map]. fold (intervals_of (append_last i tp l)). fold (intervals_of l).
    rewrite (IH X). symmetry. apply Permutation_middle.
  - assert (E : r_id r = i).
    { destruct I as [E|I]; [exact E|]. apply existsb_id in I. congruence. }
    rewrite E, String.eqb_refl. unfold intervals_of. cbn [flat_map r_id r_periods]. rewrite map_app. cbn [map].
    rewrite <- app_assoc. cbn [app]. symmetry. rewrite E. apply Permutation_middle.
Qed.

(** ** Reading *)
Definition read_from (acc : result (list prun)) (rows : list row) : result (list prun) :=
  fold_left (fun acc w => bindR acc (fun runs => read_row runs w)) rows acc.
Lemma read_from_app : forall a b acc, read_from acc (a ++ b) = read_from (read_from acc a) b.
Proof. intros a b acc. apply fold_left_app. Qed.
Lemma read_from_err : forall rows e, read_from (Err e) rows = Err e.
Proof. induction rows as [|w rows IH]; intros e; [reflexivity|]. apply IH. Qed.

Lemma read_more : forall s r tps acc done,
  (forall b e, In (b, e) tps -> made_time b /\ made_time e) ->
  read_from (Ok (acc ++ [mkRun (r_id r) (r_input r) (r_output r) done (r_rate r)])%list)
    (map (fun tp => mkRow (s_id s) (r_id r) (fst tp) (snd tp) (s_path s) (r_rate r)
                       (map ch_id (r_input r)) (map ch_id (r_output r)) (s_remote s) (scale_factors r)) tps)
  = Ok (acc ++ [mkRun (r_id r) (r_input r) (r_output r) (done ++ tps) (r_rate r)])%list.
Proof.
  intros s r tps. induction tps as [|[b e] tps IH]; intros acc done M.
  - rewrite app_nil_r. reflexivity.
  - cbn [map]. change (read_from (Ok ?x) (?w :: ?ws)) with (read_from (read_row x w) ws).
    destruct (M b e (or_introl eq_refl)) as [Mb Me].
    assert (R : forall w, w_run w = r_id r -> w_start w = b -> w_end w = e ->
       read_row (acc ++ [mkRun (r_id r) (r_input r) (r_output r) done (r_rate r)])%list w =
       Ok (acc ++ [mkRun (r_id r) (r_input r) (r_output r) (done ++ [(b, e)]) (r_rate r)])%list).
    { intros w W1 W2 W3. unfold read_row, read_period. rewrite W1, W2, W3, (made_fixed b Mb), (made_fixed e Me). cbn [bindR].
      destruct (find_run (r_id r) _) eqn:F.
      - rewrite append_last_end by reflexivity. reflexivity.
      - exfalso. apply find_run_None in F. apply F. rewrite map_app. apply in_or_app. right. left. reflexivity. }
    rewrite R by reflexivity. rewrite IH.
    + rewrite <- app_assoc. reflexivity.
    + intros b' e' I. apply M. right. exact I.
Qed.
Lemma read_run : forall s r acc, tabular_run r -> ~ In (r_id r) (map r_id acc) ->
  read_from (Ok acc) (run_rows s r) = Ok (acc ++ [r])%list.
Proof.
  intros s r acc (NE & ND & M) N. unfold run_rows. destruct (r_periods r) as [|[b e] tps] eqn:P; [contradiction (NE eq_refl)|].
  cbn [map]. change (read_from (Ok ?x) (?w :: ?ws)) with (read_from (read_row x w) ws).
  destruct (M b e (or_introl eq_refl)) as [Mb Me].
  match goal with |- context [read_row acc ?w] =>
    replace (read_row acc w) with (Ok (acc ++ [mkRun (r_id r) (r_input r) (r_output r) [(b, e)] (r_rate r)])%list) end.
  - rewrite (read_more s r tps acc [(b, e)]); [|intros b' e' I; apply M; right; exact I].
    cbn [app]. rewrite <- P. destruct r; reflexivity.
  - unfold read_row, read_period. cbn [w_start w_end w_run]. cbn [fst snd].
    rewrite (made_fixed b Mb), (made_fixed e Me). cbn [bindR].
    replace (find_run (r_id r) acc) with (@None prun) by (symmetry; apply find_run_None; exact N).
    pose proof (new_run_of s r (b, e) ND) as NR. cbn [fst snd] in NR. rewrite NR. reflexivity.
Qed.
Lemma read_runs : forall s l acc, Forall tabular_run l -> NoDup (map r_id acc ++ map r_id l) ->
  read_from (Ok acc) (flat_map (run_rows s) l) = Ok (acc ++ l)%list.
Proof.
  intros s l. induction l as [|r l IH]; intros acc F ND.
  - rewrite app_nil_r. reflexivity.
  - inversion F; subst. cbn [flat_map]. rewrite read_from_app. rewrite read_run; [|assumption|].
    + rewrite IH; [rewrite <- app_assoc; reflexivity|assumption|].
      rewrite map_app. cbn [map]. rewrite <- app_assoc. exact ND.
    + cbn [map] in ND. apply NoDup_remove_2 in ND. intros I. apply ND. apply in_or_app. left. exact I.
Qed.
Lemma run_rows_head : forall s r, r_periods r <> [] -> exists w ws, run_rows s r = w :: ws.
Proof. intros s r N. unfold run_rows. destruct (r_periods r); [contradiction|]. eexists _, _. reflexivity. Qed.
Lemma run_rows_all : forall s r w, In w (run_rows s r) -> w_station w = s_id s /\ w_path w = s_path s /\ w_remote w = s_remote s.
Proof. intros s r w I. unfold run_rows in I. apply in_map_iff in I. destruct I as (tp & <- & _). auto. Qed.
Lemma to_dataframe_all : forall s w, In w (to_dataframe s) -> w_station w = s_id s /\ w_path w = s_path s /\ w_remote w = s_remote s.
Proof. intros s w I. unfold to_dataframe in I. apply in_flat_map in I. destruct I as (r & _ & I). exact (run_rows_all s r w I). Qed.
Lemma to_dataframe_head : forall s, tabular s -> exists w ws, to_dataframe s = w :: ws.
Proof.
  intros s (NE & _ & F). unfold to_dataframe. destruct (s_runs s) as [|r l]; [contradiction (NE eq_refl)|].
  inversion F as [|? ? (P & _ & _) _]; subst. destruct (run_rows_head s r P) as (w & ws & E). cbn [flat_map]. rewrite E.
  eexists _, _. reflexivity.
Qed.
Lemma station_round_trip : forall s t, tabular s -> from_dataframe (to_dataframe s) t = Ok s.
Proof.
  intros s t T. destruct (to_dataframe_head s T) as (w & ws & E).
  pose proof (to_dataframe_all s w) as A. rewrite E in A. specialize (A (or_introl eq_refl)). destruct A as (A & B & C).
  destruct T as (_ & ND & F).
  unfold from_dataframe. rewrite E. rewrite <- E. change (read_rows (to_dataframe s)) with (read_from (Ok []) (to_dataframe s)).
  unfold to_dataframe. rewrite read_runs by assumption. cbn [bindR app]. rewrite A, B, C. destruct s; reflexivity.
Qed.

(** ** What is kept of any table *)
Lemma read_row_keeps : forall runs w runs', read_row runs w = Ok runs' -> made_time (w_start w) -> made_time (w_end w) ->
  Permutation (intervals_of runs') ((w_run w, w_start w, w_end w) :: intervals_of runs) /\
  map r_id runs' = if existsb (fun r => String.eqb (r_id r) (w_run w)) runs then map r_id runs else (map r_id runs ++ [w_run w])%list.
Proof.
  intros runs w runs' H Mb Me. unfold read_row, read_period in H. rewrite (made_fixed _ Mb), (made_fixed _ Me) in H. cbn [bindR] in H.
  destruct (find_run (w_run w) runs) as [r|] eqn:F.
  - assert (I : In (w_run w) (map r_id runs)).
    { destruct (in_dec string_dec (w_run w) (map r_id runs)) as [I|N]; [exact I|]. apply find_run_None in N. congruence. }
    injection H as <-. split; [apply append_last_intervals; exact I|].
    rewrite append_last_ids. apply existsb_id in I. rewrite I. reflexivity.
  - apply find_run_None in F. injection H as <-. split.
    + unfold intervals_of. rewrite flat_map_app. cbn [flat_map new_run set_channel_scale_factors r_periods r_id map app fst snd].
      apply Permutation_sym, Permutation_cons_append.
    + rewrite map_app. cbn [map]. destruct (existsb _ runs) eqn:X; [apply existsb_id in X; contradiction|reflexivity].
Qed.
Lemma read_from_ok_inv : forall rows acc runs, read_from acc rows = Ok runs -> exists a, acc = Ok a.
Proof. intros rows [a|e] runs H; [eexists; reflexivity|rewrite read_from_err in H; discriminate]. Qed.
Lemma firsts_in : forall m l, firsts m l -> forall x, In x m <-> In x l.
Proof.
  induction 1 as [|m l x F IH I|m l x F IH N]; intros y; [reflexivity| |]; rewrite in_app_iff; cbn [In].
  - rewrite <- IH. intuition subst; auto.
  - rewrite in_app_iff, IH. cbn [In]. reflexivity.
Qed.
Lemma read_keeps : forall rows runs, read_rows rows = Ok runs ->
  (forall w, In w rows -> made_time (w_start w) /\ made_time (w_end w)) ->
  Permutation (intervals_of runs) (row_intervals rows) /\ firsts (map w_run rows) (map r_id runs).
Proof.
  induction rows as [|w rows IH] using rev_ind; intros runs H M.
  - injection H as <-. split; [constructor|constructor].
  - change (read_rows (rows ++ [w])) with (read_from (Ok []) (rows ++ [w])) in H. rewrite read_from_app in H.
    destruct (read_from (Ok []) rows) as [a|] eqn:A; [|discriminate]. cbn [read_from fold_left bindR] in H.
    destruct (IH a A) as [P F]. { intros x I. apply M, in_or_app. left. exact I. }
    destruct (M w) as [Mb Me]. { apply in_or_app. right. left. reflexivity. }
    destruct (read_row_keeps _ _ _ H Mb Me) as [P' D]. unfold row_intervals in *. rewrite !map_app. cbn [map]. split.
    + rewrite P', P. apply Permutation_cons_append.
    + rewrite D. destruct (existsb _ a) eqn:X.
      * apply existsb_id in X. constructor; [exact F|]. apply (firsts_in _ _ F). exact X.
      * constructor; [exact F|]. intros I. apply (firsts_in _ _ F) in I. apply existsb_id in I. congruence.
Qed.

(** ** Several stations *)
Lemma forallb_filter_id : forall {A} (f : A -> bool) l, forallb f l = true -> filter f l = l.
Proof.
  intros A f l. induction l as [|x l IH]; intros H; [reflexivity|]. cbn [forallb] in H. apply andb_true_iff in H.
  destruct H as [H1 H2]. cbn [filter]. rewrite H1, IH by exact H2. reflexivity.
Qed.
Lemma filter_all : forall {A} (f : A -> bool) l, (forall x, In x l -> f x = true) -> filter f l = l.
Proof. intros A f l H. apply forallb_filter_id. apply forallb_forall. exact H. Qed.
Lemma unique_in : forall l x, In x (unique l) <-> In x l.
Proof.
  induction l as [|y l IH]; intros x; [reflexivity|]. cbn [unique In]. rewrite filter_In, IH.
  destruct (String.eqb_spec y x) as [->|N]; cbn [negb]; intuition congruence.
Qed.
Lemma unique_repeat : forall x a b, Forall (eq x) a -> ~ In x b -> unique ((x :: a) ++ b) = x :: unique b.
Proof.
  intros x a b F N. revert F. 
  assert (G : forall a, Forall (eq x) a -> filter (fun y => negb (String.eqb x y)) (unique (a ++ b)) = unique b).
  { clear a. induction a as [|y a IH]; intros F.
    - cbn [app]. apply forallb_filter_id. apply forallb_forall. intros y I. apply (proj1 (unique_in b y)) in I.
      destruct (String.eqb_spec x y) as [->|]; [contradiction|reflexivity].
    - inversion F as [|? ? E F']; subst. cbn [app unique filter]. rewrite String.eqb_refl. cbn [negb].
      rewrite IH by exact F'. apply forallb_filter_id. apply forallb_forall. intros z I. apply (proj1 (unique_in b z)) in I.
      match goal with |- negb (String.eqb ?y z) = true => destruct (String.eqb_spec y z) as [->|]; [contradiction|reflexivity] end. }
  intros F. cbn [app unique]. rewrite G by exact F. reflexivity.
Qed.
Lemma unique_stations : forall l, Forall tabular l -> NoDup (map s_id l) ->
  unique (map w_station (flat_map to_dataframe l)) = map s_id l.
Proof.
  induction l as [|s l IH]; intros F ND; [reflexivity|]. inversion F; subst. cbn [map] in ND. inversion ND as [|? ? N ND']; subst.
  cbn [flat_map]. rewrite map_app. destruct (to_dataframe_head s) as (w & ws & E); [assumption|].
  pose proof (to_dataframe_all s) as A. rewrite E in A |- *. cbn [map].
  assert (W : w_station w = s_id s) by (apply A; left; reflexivity). rewrite W.
  rewrite unique_repeat.
  - rewrite IH by assumption. reflexivity.
  - apply Forall_forall. intros x I. apply in_map_iff in I. destruct I as (w' & <- & I). symmetry. apply A. right. exact I.
  - intros I. apply in_map_iff in I. destruct I as (w' & E' & I). apply in_flat_map in I. destruct I as (s' & Is & I).
    apply to_dataframe_all in I. destruct I as (I & _). apply N. rewrite <- E', I. apply in_map. exact Is.
Qed.
Lemma filter_none : forall {A} (f : A -> bool) l, (forall x, In x l -> f x = false) -> filter f l = [].
Proof.
  intros A f l. induction l as [|x l IH]; intros H; [reflexivity|]. cbn [filter]. rewrite (H x (or_introl eq_refl)).
  apply IH. intros y I. apply H. right. exact I.
Qed.
Lemma rows_of_own : forall l s, NoDup (map s_id l) -> In s l -> rows_of (s_id s) (flat_map to_dataframe l) = to_dataframe s.
Proof.
  induction l as [|x l IH]; intros s ND I; [contradiction|]. cbn [map] in ND. inversion ND as [|? ? N ND']; subst.
  cbn [flat_map]. unfold rows_of. rewrite filter_app. fold (rows_of (s_id s) (flat_map to_dataframe l)).
  destruct I as [->|I].
  - rewrite filter_all; [|intros w Iw; apply to_dataframe_all in Iw; destruct Iw as (-> & _); apply String.eqb_refl].
    unfold rows_of. rewrite filter_none; [apply app_nil_r|].
    intros w Iw. apply in_flat_map in Iw. destruct Iw as (y & Iy & Iw). apply to_dataframe_all in Iw. destruct Iw as (-> & _).
    apply String.eqb_neq. intros E. apply N. rewrite <- E. apply in_map. exact Iy.
  - rewrite IH by assumption. rewrite filter_none; [reflexivity|].
    intros w Iw. apply to_dataframe_all in Iw. destruct Iw as (-> & _). apply String.eqb_neq. intros E. apply N. rewrite E. apply in_map. exact I.
Qed.
