(** C84 and C99: the channels of a station in StationXML. *)
From Coq Require Import QArith Qabs.
From Verif Require Import PyBase PyText PyNum PyFacts TextFacts ContainerModel ContainerSpec ContainerProofs FdsnModel SxmlModel EpochModel EpochSpec EpochProofs EpochRead ValidatorsProofs.
Local Open Scope Z_scope.
Local Open Scope list_scope.

(** * C84: every channel of every run is in an epoch *)
Theorem C84_listed : forall rs l id c,
  write_runs rs [] = Ok l -> plain rs -> channel_of rs id c ->
  exists e, In e l /\ about c e /\ in_time c e /\ lists_run e id.
Proof.
  intros rs l id c W P H. rewrite write_runs_all in W.
  destruct (write_all_has _ _ _ id c W (proj2 (flat_in _ _ _) H)) as (e & I & A & T & k & K). exists e. repeat split; auto; try apply A; try apply T.
  assert (O := write_all_origin _ [] _ _ W (Forall_nil _)). rewrite Forall_forall in O. destruct (O e I) as [(i0 & c0 & A0 & _ & _ & _ & n & N & _) _ _ _].
  rewrite app_nil_r in A0. unfold lists_run. rewrite N in *. apply in_app_or in K. destruct K as [K|K].
  - apply flat_in in A0. assert (k = txt "mt.run.id").
    { apply (P i0 c0 k id A0 K). destruct H as (cs & H & _). apply (in_map fst) in H. exact H. }
    subst k. apply in_or_app. now left.
  - apply in_map_iff in K. destruct K as (i & E & K). injection E as <- ->. apply in_or_app. right. now apply in_map.
Qed.

(** Every epoch is about channels of the runs it lists, and no longer than they are. *)
Theorem C84_only : forall rs l e,
  write_runs rs [] = Ok l -> In e l ->
  (exists id c, channel_of rs id c /\ about c e /\ e_comp e = mc_comp c /\ e_response e = mc_response c /\
     (forall i, lists_run e i ->
        In (txt "mt.run.id", i) (mc_comments c) \/ exists d, channel_of rs i d /\ about d e /\ in_time d e)) /\
  (exists id c, channel_of rs id c /\ about c e /\ mc_start c = e_start e) /\
  (exists id c, channel_of rs id c /\ about c e /\ mc_end c = e_end e).
Proof.
  intros rs l e W I. rewrite write_runs_all in W.
  assert (O := write_all_origin _ [] _ _ W (Forall_nil _)). rewrite app_nil_r in O. rewrite Forall_forall in O.
  destruct (O e I) as [(i0 & c0 & A0 & B0 & C0 & D0 & n & N & F) (i1 & c1 & A1 & B1 & _ & D1) (i2 & c2 & A2 & B2 & _ & D2) _]. split; [|split].
  - exists i0, c0. split; [now apply flat_in|]. do 3 (split; [assumption|]). intros i H. unfold lists_run in H. rewrite N in H.
    apply in_app_or in H. destruct H as [H|H]; [now left|]. right. apply in_map_iff in H. destruct H as (j & E & H). injection E as ->.
    destruct (F i H) as (d & X & Y). exists d. split; [now apply flat_in|exact Y].
  - exists i1, c1. split; [now apply flat_in|auto].
  - exists i2, c2. split; [now apply flat_in|auto].
Qed.

(** Runs in the order of time: epochs of a code follow each other, and there is a new one only after a change. *)
Theorem C84_one_at_a_time : forall rs l,
  write_runs rs [] = Ok l -> in_order rs ->
  one_at_a_time l /\ Forall (fun e => e_start e < e_end e) l /\ (forall e f, next_to l e f -> ~ no_change e f).
Proof.
  intros rs l W [P O]. rewrite write_runs_all in W. rewrite <- flat_channels in P, O.
  destruct (write_all_timed _ [] _ _ W timed_nil P O) as [A B _ D]; [intros i d j c []|]. split; [exact A|]. split; [exact B|exact D].
Qed.

(** ** Where that fails *)
Definition mag (comp sensor resp : string) (a b : Z) : channel :=
  mkChannel (txt comp) (txt "magnetic") (inject_Z 8) [txt sensor] (40 # 1) (-110 # 1) 0 0 a b (txt resp) [].
(** A run added later that was earlier: the epoch is widened over another one. *)
Theorem C84_unsorted_refuted : exists rs l e f,
  write_runs rs [] = Ok l /\ In e l /\ In f l /\ e_code e = e_code f /\ e_start e < e_start f /\ e_end f < e_end e /\ ~ no_change e f.
Proof.
  exists [(txt "c", [mag "hx" "s1" "r" 30 40]); (txt "b", [mag "hx" "s2" "r" 20 25]); (txt "a", [mag "hx" "s1" "r" 10 15])].
  eexists. eexists. eexists. split; [vm_compute; reflexivity|]. split; [left; reflexivity|]. split; [right; left; reflexivity|].
  split; [reflexivity|]. split; [reflexivity|]. split; [reflexivity|]. intros (_ & S & _). discriminate S.
Qed.
(** Neither the filters nor the component are compared: of two channels that differ only in those, the second is lost,
    although its run is listed. *)
Theorem C84_first_only_refuted : forall i c j d code,
  channel_code c = Ok code -> channel_code d = Ok code -> mc_rate c = mc_rate d -> mc_sensor c = mc_sensor d -> mc_lat c = mc_lat d ->
  mc_lon c = mc_lon d -> mc_azimuth c = mc_azimuth d -> mc_tilt c = mc_tilt d -> mc_comments c = [] ->
  exists e, write_runs [(i, [c]); (j, [d])] [] = Ok [e] /\ e_comp e = mc_comp c /\ e_response e = mc_response c /\ lists_run e j.
Proof.
  intros i c j d code C D R S LA LO AZ TI N. unfold write_runs, add_channels, to_epoch. rewrite C, D. cbn [bindR].
  set (x := mkEpoch code (mc_comp c) _ _ _ _ _ _ _ _ _ _). set (y := mkEpoch code (mc_comp d) _ _ _ _ _ _ _ _ _ _).
  assert (X : add_epoch i x [] = [listed i x]) by reflexivity. rewrite X.
  assert (SC : same_channel y (listed i x) = true).
  { apply same_channel_exact; [reflexivity|]. unfold x, y. cbn. rewrite R, S, LA, LO, AZ, TI. repeat split; reflexivity. }
  assert (Y : add_epoch j y [listed i x] = [widen j y (listed i x)]).
  { unfold add_epoch. cbn [latest]. assert (T : text_eqb (e_code y) (e_code (listed i x)) = true) by (apply text_eqb_eq; reflexivity).
    rewrite T. cbn [nth_error]. rewrite SC. reflexivity. }
  rewrite Y. eexists. split; [reflexivity|]. split; [reflexivity|]. split; [reflexivity|].
  unfold lists_run, x. cbn [e_comments widen listed]. rewrite N. unfold with_run at 2. cbn [existsb app].
  unfold with_run. cbn [existsb snd]. destruct (text_eqb j i) eqn:E; cbn [orb].
  - apply text_eqb_eq in E. subst. now left.
  - right. now left.
Qed.
Example C84_first_only_hyp : exists code, channel_code (mag "hx" "s" "low pass" 10 20) = Ok code /\ channel_code (mag "bx" "s" "high pass" 30 40) = Ok code.
Proof. eexists. split; vm_compute; reflexivity. Qed.
(** A comment with the id of the run as its value hides the run. *)
Theorem C84_hidden_refuted : exists rs l id c,
  write_runs rs [] = Ok l /\ channel_of rs id c /\ forall e, In e l -> ~ lists_run e id.
Proof.
  pose (c := mkChannel (txt "hx") (txt "magnetic") (inject_Z 8) [txt "s"] (40 # 1) (-110 # 1) 0 0 10 20 (txt "r") [(txt "noise", txt "a")]).
  exists [(txt "a", [c])]. eexists. exists (txt "a"), c. split; [vm_compute; reflexivity|]. split; [exists [c]; split; now left|].
  intros e [<-|[]]. intros [H|[]]. discriminate H.
Qed.
(** A component that does not end in x, y or z cannot be written, so nor can its station. *)
Lemma write_all_bad ps id c err : In (id, c) ps -> to_epoch c = Err err -> forall l, exists e, write_all ps l = Err e.
Proof.
  intros H T. induction ps as [|[i d] ps IH]; [destruct H|]. intros l. cbn [write_all]. destruct H as [E|H].
  - injection E as <- <-. rewrite T. cbn [bindR]. eauto.
  - destruct (to_epoch d) as [x|e]; cbn [bindR]; [now apply IH|eauto].
Qed.
Theorem C84_direction_refuted : forall rs id c s d,
  channel_of rs id c -> mc_comp c = s ++ [d] -> ~ In (to_lower d) ["x"; "y"; "z"]%char -> exists err, write_runs rs [] = Err err.
Proof.
  intros rs id c s d H E N. rewrite write_runs_all. apply (write_all_bad _ id c ValueError); [now apply flat_in|].
  unfold to_epoch, channel_code. rewrite E, rev_app_distr. cbn [rev app].
  assert (T : code_of_direction (lower [d]) = Err ValueError).
  { assert (LL : lower (lower [d]) = lower [d]) by (apply lower_idem).
    unfold code_of_direction. rewrite LL. change (lower [d]) with [to_lower d]. unfold forced_orientation. cbn [dget].
    destruct (text_dec [to_lower d] (txt "x")) as [Q|_]; [injection Q as Q; exfalso; apply N; rewrite Q; now left|].
    destruct (text_dec [to_lower d] (txt "y")) as [Q|_]; [injection Q as Q; exfalso; apply N; rewrite Q; right; now left|].
    destruct (text_dec [to_lower d] (txt "z")) as [Q|_]; [injection Q as Q; exfalso; apply N; rewrite Q; right; right; now left|]. reflexivity. }
  rewrite T. reflexivity.
Qed.

Definition el (comp sensor resp : string) (a b : Z) : channel :=
  mkChannel (txt comp) (txt "electric") (inject_Z 8) [txt sensor] (401 # 10) (-110 # 1) (-10 # 1) 0 a b (txt resp) [(txt "contact", txt "good")].
(** Three runs; the coil is changed before the last. *)
Definition sample_runs : list run_of :=
  [(txt "a", [mag "hx" "s1" "r" 10 20; el "ex" "d" "r" 10 20]); (txt "b", [mag "hx" "s1" "r" 25 30; el "ex" "d" "r" 25 30]);
   (txt "c", [mag "hx" "s2" "r" 35 40; el "ex" "d" "r" 35 40])].
Lemma sample_channel (P : text -> channel -> Prop) :
  Forall (fun ic => P (fst ic) (snd ic)) (flat sample_runs) -> forall id c, channel_of sample_runs id c -> P id c.
Proof. intros F id c H. rewrite Forall_forall in F. apply (F (id, c)). now apply flat_in. Qed.
Example C84_listed_hyp : exists l, write_runs sample_runs [] = Ok l /\ length l = 3%nat /\ plain sample_runs /\ in_order sample_runs.
Proof.
  eexists. split; [vm_compute; reflexivity|]. split; [reflexivity|]. split.
  - intros id c k i H. revert id c H k i. apply (sample_channel (fun id c => forall k i, In (k, i) (mc_comments c) -> In i (map fst sample_runs) -> k = txt "mt.run.id")).
    repeat constructor; cbn [fst snd]; intros k i K I; cbn in K; try (destruct K as [K|[]]; injection K as <- <-; cbn in I; repeat (destruct I as [I|I]; [discriminate I|]); destruct I); destruct K.
  - split; [repeat constructor|]. cbn. repeat constructor; cbn; intros E; try (vm_compute in E; discriminate E); lia.
Qed.

(** * C99: the channels of a run come back from StationXML *)
Lemma code_read c code k : channel_code c = Ok code -> kind_of_type (mc_type c) = Some k ->
  kind_of_code code = Ok k /\ exists w, create_mt_component code = Ok w /\ pattern k (slower (str w)) = true.
Proof.
  unfold channel_code. destruct (rev (mc_comp c)) as [|d r]; [discriminate|]. intros C K.
  destruct (code_of_direction (lower [d])) as [o|] eqn:D; cbn [bindR] in C; [|discriminate]. apply Ok_inj in C. subst code.
  assert (O : o = Some "N"%char \/ o = Some "E"%char \/ o = Some "Z"%char).
  { unfold code_of_direction in D. destruct (dget text_dec _ forced_orientation) as [x|] eqn:G; [|discriminate]. apply Ok_inj in D. subst o.
    apply dget_In in G. cbn in G. destruct G as [G|[G|[G|[]]]]; injection G as _ <-; auto. }
  generalize (get_period_code (mc_rate c)). intros p. unfold kind_of_type in K.
  destruct (text_eqb (mc_type c) (txt "electric")) eqn:E1;
    [|destruct (text_eqb (mc_type c) (txt "magnetic")) eqn:E2; [|destruct (text_eqb (mc_type c) (txt "temperature")) eqn:E3; [|discriminate]]];
    (injection K as <-); repeat match goal with H : text_eqb _ _ = true |- _ => apply text_eqb_eq in H; rewrite H end;
    (destruct O as [-> | [-> | ->]]); (split; [reflexivity|]); eexists; (split; [reflexivity|vm_compute; reflexivity]).
Qed.
Lemma channel_code_comp c code : channel_code c = Ok code -> mc_comp c <> [].
Proof. unfold channel_code. intros H E. rewrite E in H. discriminate. Qed.
Lemma slower_str s : lower s = s -> slower (str s) = str s.
Proof. intros E. unfold slower, str. now rewrite list_ascii_of_string_of_list_ascii, E. Qed.
Lemma read_about info c e : known_channel c -> about c e -> e_comp e = mc_comp c ->
  exists k ch, kind_of_type (mc_type c) = Some k /\ read_channel info e = Ok ch /\ ch_kind ch = k /\ ch_comp ch = str (mc_comp c).
Proof.
  intros (k & K & P & L) (C & _) E. destruct (code_read c _ k C K) as (KC & w & CM & PW). exists k.
  unfold read_channel. rewrite KC, CM. cbn [bindR]. unfold make at 1. fold (str w). rewrite PW. cbn [bindR]. rewrite E.
  assert (N := channel_code_comp _ _ C). destruct (mc_comp c) as [|a r] eqn:Q; [contradiction|]. rewrite <- Q in *. fold (str (mc_comp c)).
  unfold make. rewrite slower_str by exact L. rewrite P. cbn [bindR]. eexists. split; [exact K|]. split; [reflexivity|]. split; reflexivity.
Qed.
Lemma filter_none {A} (p : A -> bool) l : Forall (fun x => p x = false) l -> filter p l = [].
Proof. induction 1 as [|x l H _ IH]; [reflexivity|]. cbn. now rewrite H. Qed.
Lemma run_ids_app own n : Forall (fun kv => text_eqb (comment_key (Some (fst kv))) run_subject = false) own ->
  run_ids (own ++ map (pair run_subject) n) = map str n.
Proof.
  intros F. unfold run_ids. rewrite filter_app, (filter_none _ _ F). cbn [app].
  assert (E : filter (fun kv : text * text => text_eqb (comment_key (Some (fst kv))) run_subject) (map (pair run_subject) n) = map (pair run_subject) n).
  { induction n as [|i n IH]; [reflexivity|]. cbn [map filter fst].
    assert (T : text_eqb (comment_key (Some run_subject)) run_subject = true) by (vm_compute; reflexivity). rewrite T, IH. reflexivity. }
  rewrite E, map_map. reflexivity.
Qed.
Lemma NoDup_fst {A B} (l : list (A * B)) a x y : NoDup (map fst l) -> In (a, x) l -> In (a, y) l -> x = y.
Proof.
  induction l as [|[b z] l IH]; intros N X Y; [destruct X|]. cbn in N. inversion N as [|? ? N1 N2]; subst.
  destruct X as [X|X], Y as [Y|Y].
  - congruence.
  - injection X as -> ->. exfalso. apply N1. apply (in_map fst) in Y. exact Y.
  - injection Y as -> ->. exfalso. apply N1. apply (in_map fst) in X. exact X.
  - auto.
Qed.
Lemma NoDup_map_inj {A B} (f : A -> B) l x y : NoDup (map f l) -> In x l -> In y l -> f x = f y -> x = y.
Proof.
  induction l as [|z l IH]; intros N X Y E; [destruct X|]. cbn in N. inversion N as [|? ? N1 N2]; subst.
  destruct X as [<-|X], Y as [<-|Y]; auto; exfalso; apply N1; [rewrite E|rewrite <- E]; now apply in_map.
Qed.

Theorem C99_round : forall info rs l s rates,
  write_runs rs [] = Ok l -> (forall id c, channel_of rs id c -> known_channel c) -> no_run_comments rs -> codes_tell rs -> apart_in_run rs ->
  waiting s (map (fun r => str (fst r)) rs) ->
  exists s', read_epochs info (s, rates) l = Ok (s', rates) /\ dkeys (s_runs s') = dkeys (s_runs s) /\
    forall id cs, In (id, cs) rs -> exists r0 r,
      sget (str id) (s_runs s) = Some r0 /\ sget (str id) (s_runs s') = Some r /\ r_period r = r_period r0 /\
      (forall x, In x (dkeys (r_channels r)) <-> In x (map (fun c => str (mc_comp c)) cs)) /\
      forall c, In c cs -> exists ch e,
        sget (str (mc_comp c)) (r_channels r) = Some ch /\ ch_comp ch = str (mc_comp c) /\ kind_of_type (mc_type c) = Some (ch_kind ch) /\
        ch_period ch = r_period r0 /\ ch_info ch = info e /\ In e l /\ about c e /\ in_time c e /\ lists_run e id.
Proof.
  intros info rs l s rates W KN NR CT [ND NC] (RO & RL & RK & RE).
  assert (W' := W). rewrite write_runs_all in W'.
  assert (O := write_all_origin _ [] _ _ W' (Forall_nil _)). rewrite app_nil_r in O. rewrite Forall_forall in O.
  (* the runs an epoch lists *)
  assert (IDS : forall e, In e l -> exists n, run_ids (e_comments e) = map str n /\ n <> [] /\
    (forall i, In i n -> lists_run e i /\ exists d, channel_of rs i d /\ about d e /\ in_time d e)).
  { intros e I. destruct (O e I) as [(i0 & c0 & A0 & B0 & C0 & D0 & n & N & F) _ _ (iv & cv & kv & AV & BV & DV)].
    exists n. rewrite N. split; [|split].
    - apply run_ids_app. apply Forall_forall. intros [k v] KV. cbn [fst]. apply flat_in in A0. destruct (NR _ _ _ _ A0 KV) as [_ H].
      destruct (text_eqb (comment_key (Some k)) run_subject) eqn:E; [|reflexivity]. apply text_eqb_eq in E. contradiction.
    - intros ->. cbn [map] in N. rewrite app_nil_r in N. rewrite N in DV. apply flat_in in A0. destruct (NR _ _ _ _ A0 DV) as [H _]. apply H.
      apply flat_in in AV. destruct AV as (cs & AV & _). apply (in_map fst) in AV. exact AV.
    - intros i H. split.
      + unfold lists_run. rewrite N. apply in_or_app. right. now apply (in_map (pair run_subject)).
      + destruct (F i H) as (d & X & Y). exists d. split; [now apply flat_in|exact Y]. }
  assert (LST : forall e i, In e l -> lists_run e i -> In (str i) (run_ids (e_comments e))).
  { intros e i I H. unfold run_ids. apply in_map_iff. exists (run_subject, i). split; [reflexivity|]. apply filter_In. split; [exact H|vm_compute; reflexivity]. }
  (* they can be read *)
  assert (FIRST : forall e, In e l -> exists i0 c0, channel_of rs i0 c0 /\ about c0 e /\ e_comp e = mc_comp c0).
  { intros e I. destruct (O e I) as [(i0 & c0 & A0 & B0 & C0 & _) _ _ _]. exists i0, c0. split; [now apply flat_in|auto]. }
  assert (RD : Forall (readable info (dkeys (s_runs s))) l).
  { apply Forall_forall. intros e I. destruct (FIRST e I) as (i0 & c0 & A0 & B0 & C0). destruct (IDS e I) as (n & N & NN & F). split; [|split].
    - destruct (read_about info c0 e (KN _ _ A0) B0 C0) as (k & ch & _ & R & _). now exists ch.
    - rewrite N. destruct n; [contradiction|discriminate].
    - rewrite N, RK. intros x X. apply in_map_iff in X. destruct X as (i & <- & X). destruct (F i X) as (_ & d & (cs & H & _) & _).
      apply (in_map (fun r => str (fst r))) in H. exact H. }
  destruct (read_epochs_steps info s rates l s [] RO RL (reading_start info s RO RE) RD) as (s' & E & R1 & R2 & R3).
  exists s'. split; [exact E|]. split; [exact R2|]. intros id cs H. rewrite app_nil_r in R3.
  assert (exists r0, sget (str id) (s_runs s) = Some r0) as [r0 G0].
  { destruct (sget (str id) (s_runs s)) eqn:G; [eauto|]. apply dget_None in G. exfalso. apply G. rewrite RK.
    apply (in_map (fun r => str (fst r))) in H. exact H. }
  destruct (R3 _ _ G0) as (r & G & [PI PP PK PM PH]).
  (* what a channel of the run was made from *)
  assert (MADE : forall k ch, In (k, ch) (r_channels r) -> exists c e, In c cs /\ k = str (mc_comp c) /\ ch_comp ch = str (mc_comp c) /\
    kind_of_type (mc_type c) = Some (ch_kind ch) /\ ch_period ch = r_period r0 /\ ch_info ch = info e /\ In e l /\ about c e /\ in_time c e /\ lists_run e id).
  { intros k ch I. destruct (PM _ _ I) as (e & ch0 & D & RC & K1 & K2 & K3 & K4). unfold pairs_of in D. apply in_flat_map in D.
    destruct D as (e' & EI & D). apply in_map_iff in D. destruct D as (i & EQ & D). injection EQ as -> ->.
    destruct (IDS e EI) as (n & N & _ & F). rewrite N in D. apply in_map_iff in D. destruct D as (i' & SI & D). apply str_inj in SI. subst i'.
    destruct (F id D) as (LS & d & (cs' & H' & DC) & AD & TD). assert (cs' = cs) by (eapply NoDup_fst; eauto). subst cs'.
    destruct (FIRST e EI) as (i0 & c0 & A0 & B0 & C0).
    assert (SC : mc_comp d = mc_comp c0).
    { apply (CT id d i0 c0); [exists cs; auto|exact A0|]. destruct AD as (-> & _), B0 as (-> & _). reflexivity. }
    assert (KD : known_channel d) by (apply (KN id); exists cs; auto).
    destruct (read_about info d e KD AD (eq_trans C0 (eq_sym SC))) as (k1 & ch1 & T1 & T2 & T3 & T4).
    assert (ch1 = ch0) by congruence. subst ch1. exists d, e. split; [exact DC|].
    assert (KK : k = ch_comp ch) by (symmetry; apply PK; exact I).
    split; [congruence|]. split; [congruence|]. split; [congruence|]. auto 10. }
  assert (HAS : forall c, In c cs -> In (str (mc_comp c)) (dkeys (r_channels r))).
  { intros c IC. assert (CO : channel_of rs id c) by (exists cs; auto).
    assert (PL : plain rs). { intros i' c' k' v' H1 H2 H3. destruct (NR _ _ _ _ H1 H2) as [X _]. contradiction. }
    destruct (C84_listed rs l id c W PL CO) as (e & EI & AE & TE & LE).
    destruct (FIRST e EI) as (i0 & c0 & A0 & B0 & C0).
    assert (SC : mc_comp c = mc_comp c0).
    { apply (CT id c i0 c0 CO A0). destruct AE as (-> & _), B0 as (-> & _). reflexivity. }
    destruct (read_about info c e (KN _ _ CO) AE (eq_trans C0 (eq_sym SC))) as (k1 & ch1 & T1 & T2 & T3 & T4). rewrite <- T4.
    apply (PH e ch1); [|exact T2]. unfold pairs_of. apply in_flat_map. exists e. split; [exact EI|]. apply in_map. now apply LST. }
  exists r0, r. split; [exact G0|]. split; [exact G|]. split; [exact PP|]. split.
  - intros x. split.
    + intros X. unfold dkeys in X. apply in_map_iff in X. destruct X as ([k ch] & <- & X). destruct (MADE _ _ X) as (c & e & IC & -> & _). cbn [fst].
      now apply (in_map (fun c => str (mc_comp c))).
    + intros X. apply in_map_iff in X. destruct X as (c & <- & X). now apply HAS.
  - intros c IC. assert (X := HAS c IC). unfold dkeys in X. apply in_map_iff in X. destruct X as ([k ch] & KE & X). cbn [fst] in KE. subst k.
    destruct (MADE _ _ X) as (c' & e & IC' & K1 & K2 & K3 & K4 & K5 & K6 & K7 & K8 & K9).
    apply str_inj in K1. assert (c' = c) by (symmetry; eapply NoDup_map_inj; [apply (NC id cs H)| | |]; assumption). subst c'.
    exists ch, e. split; [apply In_dget; [apply PK|exact X]|]. auto 10.
Qed.
Definition empty_runs (ids : list string) : station :=
  mkStation (map (fun i => (i, with_run_period (new_run i) (mkPeriod 10 20))) ids) ids [] default_period.
Example C99_round_hyp :
  (forall id c, channel_of sample_runs id c -> known_channel c) /\ no_run_comments sample_runs /\ codes_tell sample_runs /\ apart_in_run sample_runs /\
  waiting (empty_runs ["a"; "b"; "c"]%string) (map (fun r => str (fst r)) sample_runs).
Proof.
  split; [|split; [|split; [|split]]].
  - apply (sample_channel (fun _ c => known_channel c)). repeat constructor; eexists; (split; [reflexivity|]); split; vm_compute; reflexivity.
  - intros id c k i H. revert id c H k i.
    apply (sample_channel (fun id c => forall k i, In (k, i) (mc_comments c) -> ~ In i (map fst sample_runs) /\ lower (replace_char " " (txt "_") (strip k)) <> txt "mt.run.id")).
    repeat constructor; cbn [fst snd]; intros K; cbn in K; try destruct K as [K|[]]; try (destruct H as [H|[]]; injection H as <- <-);
      try (cbn in H; destruct H as [H|[]]; injection H as <- <-); try (vm_compute; discriminate); cbn in *; intuition discriminate.
  - intros i c j d H K. revert j d K. apply (sample_channel (fun _ d => channel_code c = channel_code d -> mc_comp c = mc_comp d)).
    revert i c H. apply (sample_channel (fun _ c => Forall (fun ic : text * channel => channel_code c = channel_code (snd ic) -> mc_comp c = mc_comp (snd ic)) (flat sample_runs))).
    repeat constructor; cbn [fst snd]; intros E; try reflexivity; vm_compute in E; discriminate E.
  - split; [repeat constructor; cbn; intuition discriminate|]. intros id cs H. cbn in H. repeat (destruct H as [H|H]; [injection H as <- <-; repeat constructor; cbn; intuition discriminate|]). destruct H.
  - split; [|split; [reflexivity|split; [reflexivity|]]].
    + split; [repeat constructor; cbn; intuition discriminate|]. intros i r H. cbn in H. repeat (destruct H as [H|H]; [injection H as <- <-; split; [reflexivity|split; [constructor|intros ? ? []]]|]). destruct H.
    + intros i r H. cbn in H. repeat (destruct H as [H|H]; [injection H as <- <-; reflexivity|]). destruct H.
Qed.

(** ** Where that fails *)
(** The sample rate of a run does not come back: no run list sets it. *)
Theorem C99_rate_refuted : forall info rs l s,
  write_runs rs [] = Ok l -> (forall id c, channel_of rs id c -> known_channel c) -> no_run_comments rs -> codes_tell rs -> apart_in_run rs ->
  waiting s (map (fun r => str (fst r)) rs) ->
  exists s' rates, read_epochs info (s, []) l = Ok (s', rates) /\ forall i, rate_of rates i = 0%Q.
Proof.
  intros info rs l s W A B C D E. destruct (C99_round info rs l s [] W A B C D E) as (s' & R & _). exists s', []. split; [exact R|reflexivity].
Qed.
(** An epoch that lists a run the station does not have: nothing can be read. *)
Theorem C99_unknown_run_refuted : forall info s rates e ch i,
  read_channel info e = Ok ch -> e_comments e = [(txt "mt.run.id", i)] -> ~ In (str i) (s_run_list s) ->
  forall l, read_epochs info (s, rates) (e :: l) = Err AttributeError.
Proof.
  intros info s rates e ch i R C N l. cbn [read_epochs]. unfold read_one. rewrite R. cbn [bindR]. rewrite C.
  assert (RI : run_ids [(txt "mt.run.id", i)] = [str i]).
  { apply (run_ids_app [] [i]). constructor. }
  rewrite RI. cbn [fst sorted]. assert (S : sorted [str i] = [str i]) by reflexivity. rewrite S. cbn [put_in_runs]. unfold put_in_run, get_run, has_run.
  assert (H : smem (str i) (s_run_list s) = false) by (apply smem_nIn; exact N). rewrite H. reflexivity.
Qed.
(** An auxiliary channel gets a code that cannot be read. *)
Theorem C99_auxiliary_refuted : forall info c e,
  mc_type c = txt "auxiliary" -> to_epoch c = Ok e -> read_channel info e = Err ValueError.
Proof.
  intros info c e T W. unfold to_epoch, channel_code in W. destruct (rev (mc_comp c)) as [|d r]; [discriminate|].
  destruct (code_of_direction (lower [d])) as [o|] eqn:D; cbn [bindR] in W; [|discriminate]. apply Ok_inj in W. subst e.
  assert (O : o = Some "N"%char \/ o = Some "E"%char \/ o = Some "Z"%char).
  { unfold code_of_direction in D. destruct (dget text_dec _ forced_orientation) as [x|] eqn:G; [|discriminate]. apply Ok_inj in D. subst o.
    apply dget_In in G. cbn in G. destruct G as [G|[G|[G|[]]]]; injection G as _ <-; auto. }
  unfold read_channel. cbn [e_code]. rewrite T. generalize (get_period_code (mc_rate c)). intros p. destruct O as [-> | [-> | ->]]; reflexivity.
Qed.
(** Channels that list no run: a station without runs gets one run of the first channel, and a second channel of another
    sample rate is in no run. *)
Theorem C99_no_list_refuted : forall info e f ce cf s,
  read_channel info e = Ok ce -> read_channel info f = Ok cf -> e_comments e = [] -> e_comments f = [] ->
  ~ (e_rate e == e_rate f)%Q -> ~ (e_rate e == 0)%Q -> s_runs s = [] ->
  exists s' rates r, read_epochs info (s, []) [e; f] = Ok (s', rates) /\ s_runs s' = [("001"%string, r)] /\ r_channels r = [(ch_comp ce, ce)].
Proof.
  intros info e f ce cf s RE RF NE NF D Z S. cbn [read_epochs]. unfold read_one at 1. rewrite RE, NE. cbn [bindR run_ids map filter fst]. rewrite S.
  cbn [new_run_of s_runs with_runs dset]. unfold read_one. rewrite RF, NF. cbn [bindR run_ids map filter fst s_runs with_runs].
  rewrite S. cbn [dset match_runs s_runs with_runs map fold_left fst snd].
  set (r := append_channel ce (with_run_period (new_run "001") (ch_period ce))).
  assert (F : fits [("001"%string, e_rate e)] (e_rate f) cf r = false).
  { unfold fits. assert (RR : rate_of [("001"%string, e_rate e)] (r_id r) = e_rate e) by reflexivity. rewrite RR.
    assert (Q1 : Qeq_bool (e_rate e) (e_rate f) = false) by (destruct (Qeq_bool (e_rate e) (e_rate f)) eqn:Q; [apply Qeq_bool_iff in Q; contradiction|reflexivity]).
    assert (Q2 : Qeq_bool (e_rate e) 0 = false) by (destruct (Qeq_bool (e_rate e) 0) eqn:Q; [apply Qeq_bool_iff in Q; contradiction|reflexivity]).
    rewrite Q1, Q2. reflexivity. }
  rewrite F. eexists. eexists. exists r. split; [reflexivity|]. split; reflexivity.
Qed.
(** A channel that lists no run, read into a station with runs: it goes to exactly the runs that lie in the time of the epoch and have its
    sample rate or none, and these have its sample rate then; no other run changes. *)
Definition takes (rates : dict Q) (e : epoch) (k : string) (r : run) : Prop :=
  (rate_of rates k == e_rate e \/ rate_of rates k == 0)%Q /\ e_start e <= p_start (r_period r) /\ p_end (r_period r) <= e_end e.
Theorem C99_no_list : forall info e ch s rates,
  read_channel info e = Ok ch -> e_comments e = [] -> runs_ok (s_runs s) -> s_runs s <> [] ->
  exists s' rates', read_epochs info (s, rates) [e] = Ok (s', rates') /\ dkeys (s_runs s') = dkeys (s_runs s) /\
    forall k r, sget k (s_runs s) = Some r -> exists r', sget k (s_runs s') = Some r' /\ r_period r' = r_period r /\ r_id r' = r_id r /\
      (takes rates e k r -> r_channels r' = sset (ch_comp ch) ch (r_channels r) /\ rate_of rates' k = e_rate e) /\
      (~ takes rates e k r -> r_channels r' = r_channels r /\ rate_of rates' k = rate_of rates k).
Proof.
  intros info e ch s rates R C [ND OK] NE. cbn [read_epochs]. unfold read_one. rewrite R, C. cbn [bindR run_ids map filter fst].
  destruct (s_runs s) as [|kr0 l0] eqn:S; [congruence|]. rewrite <- S in *. clear NE. cbn [match_runs].
  assert (P : ch_period ch = mkPeriod (e_start e) (e_end e)).
  { unfold read_channel in R. repeat (match type of R with bindR ?x _ = _ => destruct x; [|discriminate R]; cbn [bindR] in R end).
    apply Ok_inj in R. subst ch. reflexivity. }
  assert (FT : forall k r, In (k, r) (s_runs s) -> fits rates (e_rate e) ch r = true <-> takes rates e k r).
  { intros k r I. destruct (OK _ _ I) as [E _]. unfold fits, takes. rewrite P, E. cbn [p_start p_end]. rewrite !andb_true_iff, orb_true_iff, !Qeq_bool_iff, !Z.leb_le. tauto. }
  eexists. eexists. split; [reflexivity|]. cbn [s_runs with_runs]. split.
  - unfold dkeys. rewrite map_map. apply map_ext. intros [k r]. cbn [fst snd]. destruct (fits rates (e_rate e) ch r); reflexivity.
  - intros k r G. assert (I := G). apply dget_In in I. destruct (FT k r I) as [F1 F2].
    exists (if fits rates (e_rate e) ch r then append_channel ch r else r). split; [|split; [|split]].
    + clear -G. induction (s_runs s) as [|[a b] l IH]; [discriminate|]. cbn [map dget fst snd] in *.
      destruct (string_dec k a) as [-> |N].
      * injection G as ->. destruct (fits rates (e_rate e) ch r); cbn [dget fst snd]; destruct (string_dec a a); congruence.
      * destruct (fits rates (e_rate e) ch b); cbn [dget fst snd]; destruct (string_dec k a); try contradiction; exact (IH G).
    + destruct (fits rates (e_rate e) ch r); reflexivity.
    + destruct (fits rates (e_rate e) ch r); reflexivity.
    + assert (RT : rate_of (fold_left (fun d kr => if fits rates (e_rate e) ch (snd kr) then sset (r_id (snd kr)) (e_rate e) d else d) (s_runs s) rates) k =
        if fits rates (e_rate e) ch r then e_rate e else rate_of rates k).
      { assert (GEN : forall l acc, NoDup (dkeys l) -> (forall a b, In (a, b) l -> r_id b = a) ->
          rate_of (fold_left (fun d (kr : string * run) => if fits rates (e_rate e) ch (snd kr) then sset (r_id (snd kr)) (e_rate e) d else d) l acc) k =
          match sget k l with Some r => if fits rates (e_rate e) ch r then e_rate e else rate_of acc k | None => rate_of acc k end).
        { clear. induction l as [|[a b] l IH]; intros acc N Hid; [reflexivity|]. cbn [dkeys map fst] in N. apply NoDup_cons_iff in N as [N1 N2].
          cbn [fold_left snd]. rewrite IH by (try exact N2; intros; apply Hid; right; assumption). cbn [dget].
          rewrite (Hid a b) by (left; reflexivity). destruct (string_dec k a) as [-> |D].
          - assert (X : sget a l = None). { destruct (sget a l) eqn:X; [|reflexivity]. apply dget_In in X. elim N1. apply (in_map fst) in X. exact X. }
            rewrite X. destruct (fits rates (e_rate e) ch b); [|reflexivity]. unfold rate_of. rewrite dget_dset_eq. reflexivity.
          - assert (Y : rate_of (if fits rates (e_rate e) ch b then sset a (e_rate e) acc else acc) k = rate_of acc k).
            { destruct (fits rates (e_rate e) ch b); [|reflexivity]. unfold rate_of. rewrite dget_dset_neq by congruence. reflexivity. }
            rewrite Y. reflexivity. }
        rewrite GEN, G; [reflexivity|exact ND|]. intros a b J. apply (OK _ _ J). }
      rewrite RT. split; intro T.
      * rewrite (F2 T). split; reflexivity.
      * destruct (fits rates (e_rate e) ch r); [elim T; apply F1; reflexivity|]. split; reflexivity.
Qed.
Example C99_no_list_runs_hyp : exists e ch, to_epoch (mag "hx" "s" "r" 10 20) = Ok e /\ read_channel (fun _ => ""%string) e = Ok ch /\ e_comments e = [] /\
  runs_ok (s_runs (empty_runs ["a"; "b"]%string)) /\ s_runs (empty_runs ["a"; "b"]%string) <> [] /\
  takes [] e "a" (with_run_period (new_run "a") (mkPeriod 10 20)) /\ ~ takes [] e "a" (with_run_period (new_run "a") (mkPeriod 10 21)).
Proof.
  eexists. eexists. split; [vm_compute; reflexivity|]. split; [vm_compute; reflexivity|]. split; [reflexivity|]. split; [|split; [discriminate|split]].
  - split; [repeat constructor; cbn; intuition discriminate|]. intros i r H. cbn in H. repeat (destruct H as [H|H]; [injection H as <- <-; split; [reflexivity|split; [constructor|intros ? ? []]]|]). destruct H.
  - split; [right; reflexivity|]. cbn. lia.
  - intros (_ & _ & H). cbn in H. lia.
Qed.
Example C99_no_list_hyp : exists e f,
  to_epoch (mag "hx" "s" "r" 10 20) = Ok e /\ to_epoch (mkChannel (txt "hy") (txt "magnetic") (inject_Z 1) [txt "s"] 0 0 0 0 10 20 (txt "r") []) = Ok f /\
  (exists ch, read_channel (fun _ => ""%string) e = Ok ch) /\ (exists ch, read_channel (fun _ => ""%string) f = Ok ch) /\
  e_comments e = [] /\ e_comments f = [] /\ ~ (e_rate e == e_rate f)%Q /\ ~ (e_rate e == 0)%Q.
Proof.
  eexists. eexists. split; [vm_compute; reflexivity|]. split; [vm_compute; reflexivity|]. split; [eexists; vm_compute; reflexivity|].
  split; [eexists; vm_compute; reflexivity|]. split; [reflexivity|]. split; [reflexivity|]. split; intros H; vm_compute in H; discriminate H.
Qed.

Print Assumptions C84_listed.
Print Assumptions C84_only.
Print Assumptions C84_one_at_a_time.
Print Assumptions C84_unsorted_refuted.
Print Assumptions C84_first_only_refuted.
Print Assumptions C84_hidden_refuted.
Print Assumptions C84_direction_refuted.
Print Assumptions C99_round.
Print Assumptions C99_rate_refuted.
Print Assumptions C99_unknown_run_refuted.
Print Assumptions C99_auxiliary_refuted.
Print Assumptions C99_no_list_refuted.
Print Assumptions C99_no_list.
