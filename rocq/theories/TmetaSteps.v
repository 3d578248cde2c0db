From Verif Require Import PyBase PyFacts PyText ContainerModel ContainerSpec ContainerProofs TmetaModel TmetaSpec TmetaProofs.
From Coq Require Import Lia.
Local Open Scope string_scope.
Local Open Scope list_scope.

(** ** Giving a station *)
Lemma take_spec h d l h' d' : take_station h d l = Ok (h', d') ->
  exists cur n b, run_of h d = Ok cur /\ look h l = Ok n /\
    assign_runs (n_body n) (with_channels_first (joined_runs cur (s_runs (n_body n)))) = Ok b /\
    h' = put h l (with_body (station_update_period b) n) /\ d' = [(n_id n, l)].
Proof.
  unfold take_station. intros H. apply bindR_Ok in H as (cur & C & H). apply bindR_Ok in H as (n & N & H). apply bindR_Ok in H as (b & B & H).
  assert (h' = put h l (with_body (station_update_period b) n) /\ d' = [(n_id n, l)]) as [-> ->] by (split; congruence).
  exists cur, n, b. auto.
Qed.
Lemma take_keys h d l h' d' cur n : take_station h d l = Ok (h', d') -> run_of h d = Ok cur -> look h l = Ok n -> station_fine (n_body n) ->
  d' = [(n_id n, l)] /\ (exists n', look h' l = Ok n' /\ n_id n' = n_id n /\ n_tf n' = n_tf n /\ station_fine (n_body n') /\
     dkeys (s_runs (n_body n')) = with_current (r_id cur) (dkeys (s_runs (n_body n)))) /\
  (forall l', l' <> l -> look h' l' = look h l').
Proof.
  intros H C N F. destruct (take_spec _ _ _ _ _ H) as (cur' & n' & b & C' & N' & B & -> & ->).
  assert (cur' = cur) by congruence. assert (n' = n) by congruence. subst cur' n'.
  destruct (assign_spec _ _ _ F B) as [FB KB]. split; [reflexivity|]. split; [|intros l' L; apply look_put_neq; congruence].
  exists (with_body (station_update_period b) n). split; [apply (look_put_eq _ _ _ _ N)|]. split; [reflexivity|]. split; [reflexivity|]. split; [exact FB|exact KB].
Qed.

Lemma heap_ids_put h l n : heap_ids h -> ids_ok (s_runs (n_body n)) -> heap_ids (put h l n).
Proof.
  intros H K l' n' L. rewrite look_put in L. destruct (Nat.eqb l l'); [|apply (H _ _ L)]. destruct (look h l); [|discriminate L].
  assert (n' = n) by congruence. subst. exact K.
Qed.
Lemma heap_ids_app h n : heap_ids h -> ids_ok (s_runs (n_body n)) -> heap_ids (h ++ [n]).
Proof.
  intros H K l n' L. unfold look in L. destruct (nth_error (h ++ [n]) l) as [x|] eqn:E; [|discriminate L]. assert (x = n') by congruence. subst x.
  apply nth_error_In in E. apply in_app_or in E. destruct E as [E|[->|[]]]; [|exact K]. apply In_nth_error in E as (i & E). apply (H i). unfold look. rewrite E. reflexivity.
Qed.

Lemma run_first h d l n : station_of d = Ok l -> look h l = Ok n -> run_of h d = first_run n.
Proof. intros S L. unfold run_of. rewrite S. cbn [bindR]. rewrite L. reflexivity. Qed.

Lemma take_ids h d l h' d' : heap_ids h -> take_station h d l = Ok (h', d') -> heap_ids h' /\
  exists cur cur', run_of h d = Ok cur /\ run_of h' d' = Ok cur' /\ (r_id cur <> "0" -> r_id cur' = r_id cur).
Proof.
  intros HI H. destruct (take_spec _ _ _ _ _ H) as (cur & n & b & C & N & B & -> & ->). pose proof (HI _ _ N) as K.
  destruct (joined_ids cur _ K) as [J JK]. destruct (first_channels_ids _ J) as [F FK]. unfold assign_runs in B. rewrite rekey_runs_same in B by exact F.
  pose proof (validate_ids _ _ _ B F) as KB. cbn [s_runs ContainerModel.with_runs] in KB.
  assert (KB' : ids_ok (s_runs (n_body (with_body (station_update_period b) n)))) by exact KB.
  split; [apply heap_ids_put; assumption|]. exists cur.
  destruct (with_channels_first (joined_runs cur (s_runs (n_body n)))) as [|[k r] rest] eqn:E.
  { exfalso. assert (X : dkeys (joined_runs cur (s_runs (n_body n))) = []) by (rewrite <- FK; reflexivity). rewrite JK in X. unfold with_current in X.
    destruct (string_dec (r_id cur) "0"); [destruct (dkeys (s_runs (n_body n))); discriminate X|discriminate X]. }
  destruct (validate_head _ _ _ _ _ _ B eq_refl) as (r' & rest' & E' & I'). exists r'. split; [exact C|]. split.
  - rewrite (run_first _ _ l (with_body (station_update_period b) n)); [|reflexivity|apply (look_put_eq _ _ _ _ N)].
    unfold first_run. cbn [with_body n_body station_update_period s_runs]. rewrite E'. reflexivity.
  - intros NE. rewrite I'. assert (r_id r = k) by (apply (proj2 F k r); left; reflexivity). rewrite H0.
    assert (X : k :: dkeys rest = with_current (r_id cur) (dkeys (s_runs (n_body n)))) by (rewrite <- JK, <- FK; reflexivity).
    unfold with_current in X. destruct (string_dec (r_id cur) "0"); [contradiction|]. congruence.
Qed.

Lemma name_spec h d name h' d' : set_name h d name = Ok (h', d') -> exists l n b,
  station_of d = Ok l /\ look h l = Ok n /\ validate_station fuel (n_body n) = Ok b /\ d' = d /\
  h' = put h l (mkNode (match name with Some s => underscores s | None => "unknown" end) (n_tf n) b).
Proof.
  unfold set_name. intros H. apply bindR_Ok in H as (l & S & H). apply bindR_Ok in H as (n & N & H). destruct (forallb is_word _); [|discriminate H].
  apply bindR_Ok in H as (b & B & H). apply bindR_Ok in H as (r & R & H).
  exists l, n, b. repeat split; try assumption; congruence.
Qed.
Lemma name_ids h d name h' d' cur : heap_ids h -> set_name h d name = Ok (h', d') -> run_of h d = Ok cur -> heap_ids h' /\
  exists cur', run_of h' d' = Ok cur' /\ r_id cur' = r_id cur.
Proof.
  intros HI H C. destruct (name_spec _ _ _ _ _ H) as (l & n & b & S & N & B & -> & ->). clear H.
  set (n' := mkNode _ (n_tf n) b) in *.
  pose proof (validate_ids _ _ _ B (HI _ _ N)) as KB. split; [apply heap_ids_put; [exact HI|exact KB]|].
  assert (L' : look (put h l n') l = Ok n') by (apply (look_put_eq _ _ _ _ N)).
  rewrite (run_first _ _ _ _ S N) in C. rewrite (run_first _ _ _ _ S L'). unfold first_run in *. cbn [n_body n'].
  destruct (s_runs (n_body n)) as [|[k r] rest] eqn:E; [discriminate C|]. assert (r = cur) by congruence. subst r.
  destruct (validate_head _ _ _ _ _ _ B E) as (r' & rest' & -> & I). exists r'. auto.
Qed.

(** Histories without surveys *)
Lemma first_run_stays l : forall h d h' d' cur, Forall own_act l -> heap_ids h -> run_of h d = Ok cur -> r_id cur <> "0" -> acts l h d = Ok (h', d') ->
  exists cur', run_of h' d' = Ok cur' /\ r_id cur' = r_id cur.
Proof.
  induction l as [|a l IH]; intros h d h' d' cur O HI C NE H; [assert (h' = h /\ d' = d) as [-> ->] by (split; cbn in H; congruence); eauto|].
  cbn [acts] in H. apply bindR_Ok in H as ([h1 d1] & H1 & H). cbn [fst snd] in H. inversion O as [|? ? OA OL]; subst.
  assert (X : heap_ids h1 /\ exists cur1, run_of h1 d1 = Ok cur1 /\ r_id cur1 = r_id cur).
  { assert (T : forall h0 l0, heap_ids h0 -> run_of h0 d = Ok cur -> take_station h0 d l0 = Ok (h1, d1) -> heap_ids h1 /\ exists cur1, run_of h1 d1 = Ok cur1 /\ r_id cur1 = r_id cur).
    { intros h0 l0 HI0 C0 T. destruct (take_ids _ _ _ _ _ HI0 T) as (A & c & c' & C1 & C2 & C3). split; [exact A|]. assert (c = cur) by congruence. subst c. eauto. }
    destruct a as [g|g|nm|r]; cbn [do_act own_act] in *; [destruct OA| | |].
    - destruct g as [|l0|n0|]; cbn [set_station] in H1.
      + assert (h1 = h /\ d1 = d) as [-> ->] by (split; congruence). eauto.
      + apply bindR_Ok in H1 as (n & N & H1). destruct (n_tf n); [|discriminate H1]. apply (T h l0 HI C H1).
      + apply (T (h ++ [mkNode (n_id n0) true (n_body n0)]) (List.length h)); [apply heap_ids_app; [exact HI|exact OA]| |exact H1].
        unfold run_of in *. destruct (station_of d) as [l1|e]; [|discriminate C]. cbn [bindR] in *. destruct (look h l1) as [n1|e] eqn:L1; [|discriminate C].
        rewrite (look_app _ _ _ _ L1). exact C.
      + discriminate H1.
    - apply (name_ids _ _ _ _ _ _ HI H1 C).
    - unfold set_run in H1. destruct r; [discriminate H1|]. assert (h1 = h /\ d1 = d) as [-> ->] by (split; congruence). eauto. }
  destruct X as (HI1 & cur1 & C1 & E1). destruct (IH h1 d1 h' d' cur1 OL HI1 C1 ltac:(congruence) H) as (c & A & B). exists c. split; [exact A|congruence].
Qed.

(** ** Giving a survey *)
Lemma rekey_same h : forall d acc, NoDup (dkeys d) -> (forall k, In k (dkeys acc) -> ~ In k (dkeys d)) -> (forall i l, In (i, l) d -> exists n, look h l = Ok n /\ n_id n = i) ->
  rekey_onto h acc d = Ok (acc ++ d).
Proof.
  induction d as [|[k l] d IH]; intros acc N D I; [cbn; rewrite app_nil_r; reflexivity|]. cbn [rekey_onto].
  destruct (I k l (or_introl eq_refl)) as (n & -> & E). cbn [bindR]. rewrite E. rewrite dset_notin by (intros H; apply (D k H); left; reflexivity).
  cbn [dkeys map fst] in N. inversion N as [|? ? NI N']; subst. rewrite IH.
  - rewrite <- app_assoc. reflexivity.
  - exact N'.
  - intros k' H X. unfold dkeys in H. rewrite map_app in H. apply in_app_or in H. destruct H as [H|[<-|[]]]; [apply (D k' H); right; exact X|exact (NI X)].
  - intros i x H. apply I. right. exact H.
Qed.
Lemma rekey_keyed h d : keyed_by_id h d -> rekey h d = Ok d.
Proof. intros [N I]. unfold rekey. rewrite rekey_same; [reflexivity|exact N|intros k []|exact I]. Qed.

(** The ids at the places of a heap are kept *)
Definition same_ids (h h' : heap) : Prop := forall l n, look h l = Ok n -> exists n', look h' l = Ok n' /\ n_id n' = n_id n.
Lemma keyed_same h h' d : same_ids h h' -> keyed_by_id h d -> keyed_by_id h' d.
Proof. intros S [N I]. split; [exact N|]. intros i l H. destruct (I i l H) as (n & L & E). destruct (S l n L) as (n' & L' & E'). exists n'. split; [exact L'|congruence]. Qed.
Lemma same_put h l n n' : look h l = Ok n -> n_id n' = n_id n -> same_ids h (put h l n').
Proof.
  intros L E l' m M. destruct (Nat.eq_dec l l') as [<-|NE]; [exists n'; split; [apply (look_put_eq _ _ _ _ L)|congruence]|].
  exists m. split; [rewrite look_put_neq by exact NE; exact M|reflexivity].
Qed.

Lemma periods_refl h : same_but_periods h h.
Proof. split; [reflexivity|]. intros l n L. exists n, (s_period (n_body n)). split; [exact L|]. destruct n as [i t [a b c p]]. reflexivity. Qed.
Lemma periods_trans a b c : same_but_periods a b -> same_but_periods b c -> same_but_periods a c.
Proof.
  intros [L1 H1] [L2 H2]. split; [congruence|]. intros l n L. destruct (H2 l n L) as (m & p & M & ->). destruct (H1 l m M) as (k & q & K & ->). exists k, p. split; [exact K|reflexivity].
Qed.
Lemma periods_put h l n : look h l = Ok n -> same_but_periods h (put h l (with_body (station_update_period (n_body n)) n)).
Proof.
  intros L. split; [symmetry; apply put_length|]. intros l' m M. rewrite look_put in M. destruct (Nat.eqb_spec l l') as [<-|NE].
  - rewrite L in M. assert (m = with_body (station_update_period (n_body n)) n) by congruence. subst m. eexists n, _. split; [exact L|reflexivity].
  - destruct (proj2 (periods_refl h) l' m M) as (k & p & K & E). eauto.
Qed.

Lemma add_fresh ls : forall h d ids, keyed_by_id h d -> Forall2 (fun l i => exists n, look h l = Ok n /\ n_id n = i) ls ids -> NoDup ids ->
  (forall i, In i ids -> ~ In i (dkeys d)) ->
  exists h', add_stations h d ls = Ok (h', d ++ combine ids ls) /\ same_but_periods h h' /\ keyed_by_id h' (d ++ combine ids ls).
Proof.
  induction ls as [|l ls IH]; intros h d ids K F N D.
  - inversion F; subst. exists h. cbn [add_stations combine]. rewrite app_nil_r. split; [reflexivity|]. split; [apply periods_refl|exact K].
  - inversion F as [|? i ? ids' (n & L & E) F']; subst. inversion N as [|? ? NI N']; subst. cbn [add_stations]. rewrite L. cbn [bindR].
    set (m := with_body (station_update_period (n_body n)) n). set (h1 := put h l m).
    assert (S1 : same_ids h h1) by (apply (same_put _ _ _ _ L); reflexivity).
    assert (L1 : look h1 l = Ok m) by (apply (look_put_eq _ _ _ _ L)).
    assert (G : sget (n_id m) d = None) by (apply dget_None; apply D; left; reflexivity).
    assert (K1 : keyed_by_id h1 (d ++ [(n_id n, l)])).
    { destruct (keyed_same _ _ _ S1 K) as [A B]. split.
      - unfold dkeys. rewrite map_app. apply NoDup_snoc; [exact A|]. apply D. left. reflexivity.
      - intros j x H. apply in_app_or in H. destruct H as [H|[H|[]]]; [exact (B j x H)|]. injection H as <- <-. exists m. split; [exact L1|reflexivity]. }
    unfold add_station. rewrite L1. cbn [bindR]. rewrite G. rewrite dset_notin by (apply D; left; reflexivity).
    change (n_id m) with (n_id n). rewrite (rekey_keyed _ _ K1). cbn [bindR fst snd].
    destruct (IH h1 (d ++ [(n_id n, l)]) ids' K1) as (h' & A & B & C).
    + clear -F' S1. induction F' as [|x j xs js (k & X & Y) _ IH]; constructor; [|exact IH]. destruct (S1 _ _ X) as (k' & X' & Y'). exists k'. split; [exact X'|congruence].
    + exact N'.
    + intros j J X. unfold dkeys in X. rewrite map_app in X. apply in_app_or in X. destruct X as [X|[X|[]]]; [apply (D j (or_intror J) X)|]. cbn in X. subst j. exact (NI J).
    + exists h'. cbn [combine]. rewrite <- app_assoc in A, C. split; [exact A|]. split; [|exact C]. apply (periods_trans _ h1); [apply periods_put; exact L|exact B].
Qed.

(** ** A station is always there *)
Definition inhabited (h : heap) (d : stations) : Prop := d <> [] /\ forall i l, In (i, l) d -> exists n, look h l = Ok n.
Definition grows (h h' : heap) : Prop := forall l n, look h l = Ok n -> exists n', look h' l = Ok n'.
Lemma grows_put h l n : grows h (put h l n).
Proof.
  intros l' m M. rewrite look_put. destruct (Nat.eqb_spec l l') as [<-|NE]; [rewrite M; eauto|eauto].
Qed.
Lemma grows_trans a b c : grows a b -> grows b c -> grows a c.
Proof. intros H1 H2 l n L. destruct (H1 l n L) as (m & M). exact (H2 l m M). Qed.
Lemma rekey_inhabited h : forall d acc r, rekey_onto h acc d = Ok r -> (forall i l, In (i, l) acc -> exists n, look h l = Ok n) -> (acc <> [] \/ d <> []) -> inhabited h r.
Proof.
  induction d as [|[k l] d IH]; intros acc r H A NE; [assert (r = acc) by (cbn in H; congruence); subst; split; [destruct NE; congruence|exact A]|].
  cbn [rekey_onto] in H. apply bindR_Ok in H as (n & N & H). apply (IH _ _ H).
  - intros i x I. apply In_dset in I. destruct I as [[-> ->]|I]; [eauto|exact (A _ _ I)].
  - left. intros X. assert (Y : In (n_id n, l) (sset (n_id n) l acc)) by apply In_sset_same. rewrite X in Y. destruct Y.
Qed.
Lemma add_stations_inhabited ls : forall h d h' d', add_stations h d ls = Ok (h', d') -> inhabited h d -> inhabited h' d' /\ grows h h'.
Proof.
  induction ls as [|l ls IH]; intros h d h' d' H I; [assert (h' = h /\ d' = d) as [-> ->] by (split; cbn in H; congruence); split; [exact I|intros l n L; eauto]|].
  cbn [add_stations] in H. apply bindR_Ok in H as (n & L & H). set (h1 := put h l (with_body (station_update_period (n_body n)) n)) in *.
  apply bindR_Ok in H as ([h2 d2] & H2 & H). cbn [fst snd] in H.
  assert (G1 : grows h h1) by apply grows_put.
  assert (X : inhabited h2 d2 /\ grows h1 h2).
  { unfold add_station in H2. apply bindR_Ok in H2 as (m & M & H2). destruct (sget (n_id m) d) as [t|].
    - apply bindR_Ok in H2 as (old & O & H2). apply bindR_Ok in H2 as (b & B & H2). cbv zeta in H2. apply bindR_Ok in H2 as (d3 & R & H2).
      match type of R with rekey ?x _ = _ => set (h3 := x) in * end. assert (h2 = h3 /\ d2 = d3) as [-> ->] by (split; congruence).
      split; [|apply grows_put]. apply (rekey_inhabited _ _ _ _ R); [intros ? ? []|right; exact (proj1 I)].
    - apply bindR_Ok in H2 as (d3 & R & H2). assert (h2 = h1 /\ d2 = d3) as [-> ->] by (split; congruence). split; [|intros x y Y; eauto].
      apply (rekey_inhabited _ _ _ _ R); [intros ? ? []|]. right. intros X. assert (Y : In (n_id m, l) (sset (n_id m) l d)) by apply In_sset_same. rewrite X in Y. destruct Y. }
  destruct X as [I2 G2]. destruct (IH _ _ _ _ H I2) as [I3 G3]. split; [exact I3|]. apply (grows_trans _ h1); [exact G1|]. apply (grows_trans _ h2); assumption.
Qed.
Lemma drop_inhabited h d : inhabited h d -> inhabited h (drop_placeholder d).
Proof.
  intros [N I]. unfold drop_placeholder. destruct (Nat.ltb_spec 1 (List.length (dkeys d))) as [L|L]; cbn [andb]; [|split; assumption].
  destruct (smem "0" (dkeys d)); [|split; assumption]. split.
  - intros X. clear N I. destruct d as [|[k l] [|[k' l'] d]]; cbn in L; try lia. cbn [ddel] in X. destruct (string_dec "0" k); [discriminate X|]. destruct (string_dec "0" k'); discriminate X.
  - intros i l H. apply In_ddel in H. exact (I _ _ H).
Qed.
Lemma act_inhabited a h d h' d' : do_act a h d = Ok (h', d') -> inhabited h d -> inhabited h' d'.
Proof.
  intros H I. assert (T : forall h0 l0, take_station h0 d l0 = Ok (h', d') -> inhabited h' d').
  { intros h0 l0 T. destruct (take_spec _ _ _ _ _ T) as (cur & n & b & C & N & B & -> & ->). split; [discriminate|]. intros i l [X|[]]. injection X as <- <-.
    eexists. apply (look_put_eq _ _ _ _ N). }
  destruct a as [g|g|nm|r]; cbn [do_act] in H.
  - destruct g as [|ls|]; cbn [set_survey] in H; [assert (h' = h /\ d' = d) as [-> ->] by (split; congruence); exact I| |discriminate H].
    apply bindR_Ok in H as ([h1 d1] & H1 & H). cbn [fst snd] in H. assert (h' = h1 /\ d' = drop_placeholder d1) as [-> ->] by (split; congruence).
    apply drop_inhabited. apply (add_stations_inhabited _ _ _ _ _ H1 I).
  - destruct g as [|l0|n0|]; cbn [set_station] in H; [assert (h' = h /\ d' = d) as [-> ->] by (split; congruence); exact I| | |discriminate H].
    + apply bindR_Ok in H as (n & N & H). destruct (n_tf n); [|discriminate H]. exact (T _ _ H).
    + exact (T _ _ H).
  - destruct (name_spec _ _ _ _ _ H) as (l & n & b & S & N & B & -> & ->). split; [exact (proj1 I)|]. intros i x X. destruct (proj2 I i x X) as (m & M). apply (grows_put h l _ x m M).
  - unfold set_run in H. destruct r; [discriminate H|]. assert (h' = h /\ d' = d) as [-> ->] by (split; congruence). exact I.
Qed.
Lemma acts_inhabited l : forall h d h' d', acts l h d = Ok (h', d') -> inhabited h d -> inhabited h' d'.
Proof.
  induction l as [|a l IH]; intros h d h' d' H I; [assert (h' = h /\ d' = d) as [-> ->] by (split; cbn in H; congruence); exact I|].
  cbn [acts] in H. apply bindR_Ok in H as ([h1 d1] & H1 & H). apply (IH _ _ _ _ H). apply (act_inhabited _ _ _ _ _ H1 I).
Qed.
