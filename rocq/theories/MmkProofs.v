(** Proofs for C139. *)
From Verif Require Import PyBase PyFacts PyText TextFacts PyNum JfileModel ManyModel ManySpec ManyProofs ManyProps MmkModel MmkSpec.
From Coq Require Import Lia.
Local Open Scope list_scope.

(* ---------------------------------------------------------------- dictionaries *)

Definition fill {A : Type} (key : A -> text) (l : list A) (d : list (text * A)) : list (text * A) := fold_left (fun d a => dset text_dec (key a) a d) l d.
Lemma firsts_snoc l (k : text) : firsts (l ++ [k]) = if in_dec text_dec k l then firsts l else firsts l ++ [k].
Proof.
  unfold firsts. rewrite rev_app_distr. cbn [rev app nodup]. destruct (in_dec text_dec k (rev l)) as [I|I]; destruct (in_dec text_dec k l) as [J|J]; try reflexivity.
  - exfalso. apply J. apply in_rev. exact I.
  - exfalso. apply I. apply -> in_rev. exact J.
Qed.
Lemma firsts_In l (k : text) : In k (firsts l) <-> In k l.
Proof. unfold firsts. rewrite <- in_rev, nodup_In, <- in_rev. reflexivity. Qed.
Lemma firsts_NoDup l : NoDup (firsts l).
Proof. unfold firsts. apply NoDup_rev. apply NoDup_nodup. Qed.
Lemma exists_last_or {A} (l : list A) : l = [] \/ exists m y, l = m ++ [y].
Proof. induction l as [|x l IH] using rev_ind; [left; reflexivity|right; exists l, x; reflexivity]. Qed.
Lemma latest_snoc {A} (key : A -> text) l x k v : latest key (l ++ [x]) k v <-> (key x = k /\ v = x) \/ (key x <> k /\ latest key l k v).
Proof.
  split.
  - intros (l1 & l2 & E & K & N). destruct (exists_last_or l2) as [-> | (m & y & ->)].
    + apply app_inj_tail in E as [-> ->]. left. split; [exact K|reflexivity].
    + rewrite app_comm_cons, app_assoc in E. apply app_inj_tail in E as [-> ->]. right. split; [apply N, in_or_app; right; left; reflexivity|].
      exists l1, m. split; [reflexivity|]. split; [exact K|]. intros a I. apply N, in_or_app. left. exact I.
  - intros [[K ->] | [K (l1 & l2 & -> & E & N)]].
    + exists l, []. split; [reflexivity|]. split; [exact K|]. intros a [].
    + exists l1, (l2 ++ [x]). rewrite app_comm_cons, app_assoc. split; [reflexivity|]. split; [exact E|]. intros a I. apply in_app_or in I as [I|[<-|[]]]; [apply N; exact I|exact K].
Qed.
Lemma fill_snoc {A} (key : A -> text) l x d : fill key (l ++ [x]) d = dset text_dec (key x) x (fill key l d).
Proof. unfold fill. rewrite fold_left_app. reflexivity. Qed.
Lemma collected_snoc {A} (key : A -> text) l x d : collected key l d -> collected key (l ++ [x]) (dset text_dec (key x) x d).
Proof.
  intros [F L]. split.
  - rewrite map_app. cbn [map]. rewrite firsts_snoc. change (map fst (dset text_dec (key x) x d)) with (dkeys (dset text_dec (key x) x d)). destruct (in_dec text_dec (key x) (map key l)) as [I|I].
    + rewrite dkeys_dset_in; [exact F|]. unfold dkeys. rewrite F. apply firsts_In. exact I.
    + rewrite dset_notin; [|unfold dkeys; rewrite F, firsts_In; exact I]. unfold dkeys. rewrite map_app, F. reflexivity.
  - intros k v. rewrite latest_snoc. rewrite (dget_dset text_dec). destruct (text_dec k (key x)) as [->|N].
    + split; [intros [= <-]; left; split; reflexivity|]. intros [[_ ->]|[N _]]; [reflexivity|]. exfalso. apply N. reflexivity.
    + rewrite L. split; [intros H; right; split; [congruence|exact H]|]. intros [[K _]|[_ H]]; [congruence|exact H].
Qed.
Lemma collected_nil {A} (key : A -> text) : collected key [] [].
Proof. split; [reflexivity|]. intros k v. split; [discriminate|]. intros (l1 & l2 & E & _). destruct l1; discriminate E. Qed.
Lemma collected_fill {A} (key : A -> text) l0 d : collected key l0 d -> forall l, collected key (l0 ++ l) (fill key l d).
Proof.
  intros C l. induction l as [|x l IH] using rev_ind; [rewrite app_nil_r; exact C|]. rewrite app_assoc, fill_snoc. apply collected_snoc. exact IH.
Qed.
Lemma collected_all {A} (key : A -> text) l : collected key l (fill key l []).
Proof. exact (collected_fill key [] [] (collected_nil key) l). Qed.

(* ---------------------------------------------------------------- channels *)

Lemma make_channel_Err rd f : exists e, make_channel rd f = Err e.
Proof.
  unfold make_channel. destruct (nth_error (split_on "." (f_stem f)) 2) as [t|]; [|eexists; reflexivity]. cbv zeta.
  assert (H : forall k, exists e, bindR (rd_channel rd f) (fun h => bindR (from_names k [] (h_names h)) (fun extra => bindR (filter_name k extra) (fun _ => Ok (h_chan h)))) = Err e).
  { intros k. destruct (rd_channel rd f) as [h|e]; [|exists e; reflexivity]. cbn [bindR]. destruct (from_names k [] (h_names h)) as [x|e]; [|exists e; reflexivity]. cbn [bindR].
    unfold filter_name. destruct k; cbn [bindR]; destruct (in_names (txt "filter") x); exists AttributeError; reflexivity. }
  destruct (in_names (lower t) [txt "electric"]); [apply H|]. destruct (in_names (lower t) [txt "magnetic"]); [apply H|]. eexists. reflexivity.
Qed.
Lemma make_run_Ok rd x r : make_run rd x = Ok r <-> rd_run rd (fst x) = Ok r /\ snd x = [].
Proof.
  unfold make_run. split.
  - intros E. destruct (rd_run rd (fst x)) as [r0|]; [|discriminate E]. cbn [bindR] in E. destruct (snd x) as [|f fs].
    + cbn in E. split; [|reflexivity]. destruct r0. exact E.
    + cbn [mapR] in E. destruct (make_channel_Err rd f) as (e & C). rewrite C in E. discriminate E.
  - intros [-> ->]. cbn. destruct r. reflexivity.
Qed.

(* ---------------------------------------------------------------- places *)

Lemma at_zero_spec p : at_zero p = true <-> nowhere p.
Proof. unfold at_zero, nowhere. rewrite !andb_true_iff, !Qeq_bool_iff. tauto. Qed.
Lemma place_chan_spec p c : placed p c (place_chan p c).
Proof.
  unfold placed, place_chan. destruct (at_zero (c_place c)) eqn:E.
  - apply at_zero_spec in E. split; [reflexivity|]. split; [reflexivity|]. split; [reflexivity|]. split; [intros _; destruct p; reflexivity|]. intros N. contradiction.
  - assert (N : ~ nowhere (c_place c)) by (rewrite <- at_zero_spec, E; discriminate). split; [reflexivity|]. split; [reflexivity|]. split; [reflexivity|]. split; [intros H; contradiction|reflexivity].
Qed.
Lemma place_run_spec rd p x r : rd_run rd (fst x) = Ok r -> run_made rd p x (place_run p r).
Proof.
  intros E. exists r. split; [exact E|]. split; [reflexivity|]. split; [reflexivity|]. cbn [place_run r_chans]. induction (r_chans r) as [|[k c] l IH]; [constructor|]. cbn [map]. constructor; [|exact IH].
  split; [reflexivity|]. apply place_chan_spec.
Qed.

(* ---------------------------------------------------------------- runs of a station *)

Lemma append_runs_eq ids : forall seen, append_runs (map (fun i : text => (i, mkRun i [] [])) (firsts seen)) ids = map (fun i => (i, mkRun i [] [])) (firsts (seen ++ ids)).
Proof.
  induction ids as [|i ids IH]; intros seen; [rewrite app_nil_r; reflexivity|]. cbn [append_runs].
  replace (match dget text_dec i (map (fun i : text => (i, mkRun i [] [])) (firsts seen)) with Some _ => map (fun i : text => (i, mkRun i [] [])) (firsts seen)
           | None => dset text_dec i (mkRun i [] []) (map (fun i : text => (i, mkRun i [] [])) (firsts seen)) end)
    with (map (fun i : text => (i, mkRun i [] [])) (firsts (seen ++ [i]))).
  - rewrite IH, <- app_assoc. reflexivity.
  - assert (K : dkeys (map (fun i : text => (i, mkRun i [] [])) (firsts seen)) = firsts seen) by (unfold dkeys; rewrite map_map; cbn [fst]; apply map_id).
    rewrite firsts_snoc. destruct (in_dec text_dec i seen) as [I|I].
    + destruct (dget text_dec i (map (fun i : text => (i, mkRun i [] [])) (firsts seen))) eqn:E; [reflexivity|]. apply (dget_None text_dec) in E. exfalso. apply E. rewrite K. apply firsts_In. exact I.
    + assert (N : ~ In i (dkeys (map (fun i : text => (i, mkRun i [] [])) (firsts seen)))) by (rewrite K, firsts_In; exact I).
      rewrite (proj2 (dget_None text_dec i _) N). rewrite dset_notin by exact N. rewrite map_app. reflexivity.
Qed.
Lemma NoDup_fill {A} (key : A -> text) l : NoDup (map key l) -> fill key l [] = map (fun a => (key a, a)) l.
Proof.
  induction l as [|x l IH] using rev_ind; intros N; [reflexivity|]. rewrite map_app in N. cbn [map] in N. rewrite fill_snoc. apply NoDup_remove in N as [N X]. rewrite app_nil_r in N, X.
  rewrite IH by exact N. rewrite dset_notin; [rewrite map_app; reflexivity|]. unfold dkeys. rewrite map_map. cbn [fst]. exact X.
Qed.
Lemma reset_runs_eq k : reset_runs k = map (fun r => (r_id r, r)) (listed k).
Proof.
  unfold reset_runs, listed. pose proof (append_runs_eq (k_list k) []) as H. cbn [app] in H. change (append_runs [] (k_list k) = map (fun i : text => (i, mkRun i [] [])) (firsts (k_list k))) in H. rewrite H. clear H. destruct (firsts (k_list k)) as [|i l]; [reflexivity|]. cbn [map r_id r_rest]. f_equal. rewrite map_map. reflexivity.
Qed.
Lemma listed_ids k : map r_id (listed k) = firsts (k_list k).
Proof. unfold listed. destruct (firsts (k_list k)) as [|i l]; [reflexivity|]. cbn [map r_id]. f_equal. rewrite map_map. cbn [r_id]. apply map_id. Qed.
Lemma reset_collected k : collected r_id (listed k) (reset_runs k).
Proof.
  rewrite reset_runs_eq, <- NoDup_fill by (rewrite listed_ids; apply firsts_NoDup). apply collected_all.
Qed.

(* ---------------------------------------------------------------- lists of results *)

Lemma mapR_Forall2 {A B} (g : A -> result B) l m : mapR g l = Ok m <-> Forall2 (fun x y => g x = Ok y) l m.
Proof.
  split; [apply mapR_In|]. intros F. induction F as [|x y l m E F IH]; [reflexivity|]. cbn [mapR]. rewrite E. cbn [bindR]. rewrite IH. reflexivity.
Qed.
Lemma make_station_Ok rd e s : make_station rd e = Ok s -> station_made rd e s /\ forall x, In x (snd e) -> snd x = [].
Proof.
  unfold make_station. intros E. destruct (rd_station rd (fst e)) as [k|] eqn:K; [|discriminate E]. cbn [bindR] in E.
  destruct (mapR (fun y => bindR (make_run rd y) (fun r => Ok (place_run (k_place k) r))) (snd e)) as [rs|] eqn:M; [|discriminate E]. cbn [bindR] in E. injection E as <-.
  apply mapR_Forall2 in M. split.
  - exists k, rs. split; [exact K|]. split; [reflexivity|]. split; [reflexivity|]. split.
    + induction M as [|x y l m E F IH]; [constructor|]. constructor; [|exact IH]. destruct (make_run rd x) as [r|] eqn:R; [|discriminate E]. cbn [bindR] in E. injection E as <-.
      apply make_run_Ok in R as [R _]. apply place_run_spec. exact R.
    + cbn [s_runs]. apply (collected_fill r_id). apply reset_collected.
  - intros x I. clear -M I. induction M as [|z y l m E F IH]; [destruct I|]. destruct I as [->|I]; [|exact (IH I)]. destruct (make_run rd x) as [r|] eqn:R; [|discriminate E]. apply make_run_Ok in R as [_ R]. exact R.
Qed.
Lemma make_station_total rd e : readable rd e -> (forall x, In x (snd e) -> snd x = []) -> exists s, make_station rd e = Ok s.
Proof.
  intros [[k K] R] N. unfold make_station. rewrite K. cbn [bindR].
  destruct (mapR_Ok (fun y => bindR (make_run rd y) (fun r => Ok (place_run (k_place k) r))) (snd e)) as (rs & M).
  - intros x I. destruct (R x I) as (r & E). assert (X : make_run rd x = Ok r) by (apply make_run_Ok; split; [exact E|exact (N x I)]). rewrite X. eexists. reflexivity.
  - rewrite M. eexists. reflexivity.
Qed.

(* ---------------------------------------------------------------- filters *)

Lemma in_names_one n m : in_names n [m] = true <-> n = m.
Proof. unfold in_names. cbn [existsb]. rewrite orb_false_r. apply text_eqb_eq. Qed.
Lemma class_of_spec t c : class_of (Some t) = Ok c <-> In (t, c) filter_types.
Proof.
  unfold class_of. split.
  - destruct (in_names t [txt "zpk"]) eqn:A; [apply in_names_one in A as ->; intros [= <-]; left; reflexivity|].
    destruct (in_names t [txt "coefficient"]) eqn:B; [apply in_names_one in B as ->; intros [= <-]; right; left; reflexivity|].
    destruct (in_names t [txt "time delay"]) eqn:C; [apply in_names_one in C as ->; intros [= <-]; right; right; left; reflexivity|].
    destruct (in_names t [txt "fir"]) eqn:D; [apply in_names_one in D as ->; intros [= <-]; right; right; right; left; reflexivity|]. discriminate.
  - intros [E|[E|[E|[E|[]]]]]; injection E as <- <-; reflexivity.
Qed.
Lemma make_filter_spec e f : make_filter e = Ok f <-> filter_made e f.
Proof.
  unfold make_filter, filter_made. split.
  - destruct (e_types e) as [|[t|] ts]; [discriminate| |discriminate]. intros E. destruct (class_of (Some t)) as [c|] eqn:C; [|discriminate E]. cbn [bindR] in E. apply class_of_spec in C.
    exists t, ts, c. split; [reflexivity|]. split; assumption.
  - intros (t & ts & c & -> & I & R). apply class_of_spec in I. rewrite I. exact R.
Qed.
