(** Lemmas for C84: epochs as they are written. *)
From Coq Require Import QArith Qround Qabs.
From Verif Require Import PyBase PyText PyNum TextFacts ContainerModel FdsnModel SxmlModel EpochModel EpochSpec ValidatorsProofs.
From Coq Require Import Lqa.
Local Open Scope Z_scope.

(** ** One list of channels *)
Fixpoint write_all (ps : list (text * channel)) (l : list epoch) : result (list epoch) :=
  match ps with
  | [] => Ok l
  | (id, c) :: r => bindR (to_epoch c) (fun x => write_all r (add_epoch id x l))
  end.
Definition flat (rs : list run_of) : list (text * channel) := flat_map (fun r => map (pair (fst r)) (snd r)) rs.
Lemma write_all_app a : forall b l, write_all (a ++ b) l = bindR (write_all a l) (write_all b).
Proof.
  induction a as [|[i c] a IH]; intros b l; cbn [app write_all]; [reflexivity|].
  destruct (to_epoch c); cbn [bindR]; [apply IH|reflexivity].
Qed.
Lemma add_channels_all id cs : forall l, add_channels id cs l = write_all (map (pair id) cs) l.
Proof.
  induction cs as [|c cs IH]; intros l; cbn [map add_channels write_all]; [reflexivity|].
  destruct (to_epoch c); cbn [bindR]; [apply IH|reflexivity].
Qed.
Lemma write_runs_all rs : forall l, write_runs rs l = write_all (flat rs) l.
Proof.
  induction rs as [|[id cs] rs IH]; intros l; cbn [write_runs flat flat_map fst snd]; [reflexivity|].
  rewrite write_all_app, add_channels_all. destruct (write_all (map (pair id) cs) l); cbn [bindR]; [apply IH|reflexivity].
Qed.
Lemma flat_in rs id c : In (id, c) (flat rs) <-> channel_of rs id c.
Proof.
  unfold flat, channel_of. rewrite in_flat_map. split.
  - intros ([i cs] & H & K). apply in_map_iff in K. destruct K as (d & E & K). injection E as <- <-. eauto.
  - intros (cs & H & K). exists (id, cs). split; [exact H|]. apply in_map. exact K.
Qed.
Lemma flat_channels rs : map snd (flat rs) = all_channels rs.
Proof.
  induction rs as [|[i cs] rs IH]; [reflexivity|]. unfold flat, all_channels in *. cbn [flat_map fst snd]. rewrite map_app, IH, map_map. cbn [snd].
  now rewrite map_id.
Qed.

(** ** The epoch that a channel is compared to *)
Lemma latest_none code l : latest code l = None -> Forall (fun e => e_code e <> code) l.
Proof.
  induction l as [|e l IH]; cbn [latest]; intros H; constructor.
  - destruct (latest code l) as [[k s]|]; [destruct (_ && _); discriminate|].
    destruct (text_eqb code (e_code e)) eqn:E; [discriminate|]. intros F. symmetry in F. apply text_eqb_eq in F. congruence.
  - apply IH. destruct (latest code l) as [[k s]|]; [destruct (_ && _); discriminate|reflexivity].
Qed.
Lemma latest_some code l : forall k s, latest code l = Some (k, s) ->
  exists a e b, l = (a ++ e :: b)%list /\ length a = k /\ e_code e = code /\ e_start e = s /\
    Forall (fun f => e_code f = code -> e_start f < s) a /\ Forall (fun f => e_code f = code -> e_start f <= s) b.
Proof.
  induction l as [|e l IH]; cbn [latest]; intros k s H; [discriminate|].
  destruct (latest code l) as [[k' s']|] eqn:L.
  - destruct (IH _ _ eq_refl) as (a & f & b & -> & LA & C & S & FA & FB).
    destruct (text_eqb code (e_code e)) eqn:E; cbn [andb] in H.
    + apply text_eqb_eq in E. destruct (Z.leb_spec s' (e_start e)) as [LE|GT]; injection H as <- <-.
      * exists [], e, (a ++ f :: b)%list. do 4 (split; [solve [reflexivity|congruence]|]). split; [constructor|].
        apply Forall_app. split; [|constructor].
        -- eapply Forall_impl; [|exact FA]. cbn. intros g G D. specialize (G D). lia.
        -- intros D. lia.
        -- eapply Forall_impl; [|exact FB]. cbn. intros g G D. specialize (G D). lia.
      * exists (e :: a), f, b. do 4 (split; [solve [reflexivity|congruence|cbn; congruence]|]). split; [|exact FB]. constructor; [intros _; exact GT|exact FA].
    + injection H as <- <-. exists (e :: a), f, b. do 4 (split; [solve [reflexivity|congruence|cbn; congruence]|]). split; [|exact FB].
      constructor; [|exact FA]. intros D. symmetry in D. apply text_eqb_eq in D. congruence.
  - destruct (text_eqb code (e_code e)) eqn:E; [|discriminate]. injection H as <- <-. apply text_eqb_eq in E.
    exists [], e, l. do 4 (split; [solve [reflexivity|congruence]|]). split; [constructor|].
    eapply Forall_impl; [|exact (latest_none _ _ L)]. cbn. intros g G D. contradiction.
Qed.
Lemma change_at f a e b : change (length a) f (a ++ e :: b) = (a ++ f e :: b)%list.
Proof. induction a as [|x a IH]; cbn; [reflexivity|]. now rewrite IH. Qed.
Lemma nth_at {A} (a : list A) e b : nth_error (a ++ e :: b) (length a) = Some e.
Proof. induction a; cbn; auto. Qed.

Definition at_last (code : text) (l a : list epoch) (e : epoch) (b : list epoch) : Prop :=
  l = (a ++ e :: b)%list /\ e_code e = code /\
  Forall (fun f => e_code f = code -> e_start f < e_start e) a /\ Forall (fun f => e_code f = code -> e_start f <= e_start e) b.
Lemma add_epoch_cases id x l :
  (add_epoch id x l = (l ++ [listed id x])%list /\
   (Forall (fun e => e_code e <> e_code x) l \/ exists a e b, at_last (e_code x) l a e b /\ same_channel x e = false)) \/
  (exists a e b, at_last (e_code x) l a e b /\ same_channel x e = true /\ add_epoch id x l = (a ++ widen id x e :: b)%list).
Proof.
  unfold add_epoch. destruct (latest (e_code x) l) as [[k s]|] eqn:L.
  - destruct (latest_some _ _ _ _ L) as (a & e & b & -> & LA & C & S & FA & FB). subst k s.
    rewrite nth_at. destruct (same_channel x e) eqn:E.
    + right. exists a, e, b. split; [|split; [exact E|apply change_at]]. repeat split; auto.
    + left. split; [reflexivity|]. right. exists a, e, b. split; [|exact E]. repeat split; auto.
  - left. split; [reflexivity|]. left. now apply latest_none.
Qed.

(** ** What is compared *)
Lemma list_dec_refl (l : list text) : (if list_eq_dec text_dec l l then true else false) = true.
Proof. destruct (list_eq_dec text_dec l l); congruence. Qed.
Lemma same_channel_exact x e : e_code x = e_code e -> no_change x e -> same_channel x e = true.
Proof.
  intros C (R & S & LA & LO & AZ & DI). unfold same_channel, round_to. rewrite C, S, list_dec_refl, LA, LO, AZ, DI, !Z.eqb_refl.
  rewrite (proj2 (text_eqb_eq _ _) eq_refl), (proj2 (Qeq_bool_iff _ _) R). reflexivity.
Qed.
Lemma same_channel_refl x : same_channel x x = true.
Proof. apply same_channel_exact; [reflexivity|]. repeat split; reflexivity. Qed.
Lemma round_close u a b : (0 < u)%Z -> round_half_even (a * inject_Z u) = round_half_even (b * inject_Z u) -> close u a b.
Proof.
  intros P E. exists (round_half_even (a * inject_Z u)). split.
  - pose proof (round_half_even_bound (a * inject_Z u)) as [A B]. apply Qabs_Qle_condition. split; lra.
  - rewrite E. pose proof (round_half_even_bound (b * inject_Z u)) as [A B]. apply Qabs_Qle_condition. split; lra.
Qed.
Lemma mod_turned q : turned q (mod_360 q).
Proof.
  unfold mod_360. assert (D : (q == 360 * (q / 360))%Q) by (field; discriminate).
  pose proof (Qfloor_le (q / 360)) as L. pose proof (Qlt_floor (q / 360)) as G.
  rewrite inject_Z_plus in G. change (inject_Z 1) with 1%Q in G. rewrite inject_Z_mult. change (inject_Z 360) with 360%Q.
  split; [|split].
  - lra.
  - lra.
  - exists (- Qfloor (q / 360)). rewrite Z.mul_opp_r, inject_Z_opp, inject_Z_mult. reflexivity.
Qed.
Lemma to_epoch_inv c x : to_epoch c = Ok x ->
  exists code, channel_code c = Ok code /\
  x = mkEpoch code (mc_comp c) (mc_rate c) (mc_sensor c) (mc_lat c) (mc_lon c) (mod_360 (mc_azimuth c)) (mod_360 (mc_tilt c))
        (mc_start c) (mc_end c) (mc_response c) (mc_comments c).
Proof.
  unfold to_epoch. destruct (channel_code c) as [code|err]; cbn [bindR]; [|discriminate]. intros E. injection E as <-. exists code. split; reflexivity.
Qed.
Lemma same_about c x e : to_epoch c = Ok x -> same_channel x e = true -> about c e.
Proof.
  intros T S. apply to_epoch_inv in T. destruct T as (code & C & ->). unfold same_channel in S.
  cbn [e_code e_rate e_sensor e_lat e_lon e_azimuth e_dip] in S.
  rewrite !andb_true_iff in S. destruct S as ((((((A & B) & D) & E) & F) & G) & H).
  apply text_eqb_eq in A. apply Qeq_bool_iff in B. destruct (list_eq_dec text_dec (mc_sensor c) (e_sensor e)) as [D'|]; [|discriminate].
  apply Z.eqb_eq in E, F, G, H.
  split; [now rewrite C, A|]. split; [exact B|]. split; [exact D'|].
  split; [now apply round_close|]. split; [now apply round_close|].
  split; [exists (mod_360 (mc_azimuth c))|exists (mod_360 (mc_tilt c))]; (split; [apply mod_turned|now apply round_close]).
Qed.

(** ** Epochs only grow *)
Definition grows (e f : epoch) : Prop :=
  f = mkEpoch (e_code e) (e_comp e) (e_rate e) (e_sensor e) (e_lat e) (e_lon e) (e_azimuth e) (e_dip e) (e_start f) (e_end f)
        (e_response e) (e_comments f) /\ e_start f <= e_start e /\ e_end e <= e_end f /\ incl (e_comments e) (e_comments f).
Lemma grows_refl e : grows e e.
Proof. split; [now destruct e|]. split; [lia|]. split; [lia|apply incl_refl]. Qed.
Lemma grows_trans e f g : grows e f -> grows f g -> grows e g.
Proof.
  intros (A & B & C & D) (A' & B' & C' & D'). split; [|split; [lia|split; [lia|eapply incl_tran; eauto]]].
  rewrite A'. rewrite A. reflexivity.
Qed.
Lemma with_run_incl id cs : incl cs (with_run id cs).
Proof. unfold with_run. destruct (existsb _ cs); [apply incl_refl|]. apply incl_appl, incl_refl. Qed.
Lemma widen_grows id x e : grows e (widen id x e).
Proof.
  split; [reflexivity|]. cbn [e_start e_end e_comments widen]. split; [|split; [|apply with_run_incl]].
  - destruct (Z.ltb_spec (e_start x) (e_start e)); lia.
  - destruct (Z.ltb_spec (e_end e) (e_end x)); lia.
Qed.
Lemma add_epoch_keeps id x l e : In e l -> exists f, In f (add_epoch id x l) /\ grows e f.
Proof.
  intros H. destruct (add_epoch_cases id x l) as [[-> _]|(a & g & b & (-> & _) & _ & ->)].
  - exists e. split; [apply in_or_app; now left|apply grows_refl].
  - apply in_app_or in H. destruct H as [H|[H|H]].
    + exists e. split; [apply in_or_app; now left|apply grows_refl].
    + subst g. exists (widen id x e). split; [apply in_or_app; right; now left|apply widen_grows].
    + exists e. split; [apply in_or_app; right; now right|apply grows_refl].
Qed.
Lemma write_all_keeps ps : forall l l' e, write_all ps l = Ok l' -> In e l -> exists f, In f l' /\ grows e f.
Proof.
  induction ps as [|[i c] ps IH]; intros l l' e W H; cbn [write_all] in W.
  - apply Ok_inj in W. subst. exists e. split; [exact H|apply grows_refl].
  - destruct (to_epoch c) as [x|]; cbn [bindR] in W; [|discriminate].
    destruct (add_epoch_keeps i x l e H) as (f & F & G). destruct (IH _ _ _ W F) as (g & K & M). exists g. split; [exact K|].
    eapply grows_trans; eauto.
Qed.
Lemma grows_about c e f : grows e f -> about c e -> about c f.
Proof. intros (A & _). rewrite A. auto. Qed.

(** ** Every channel is in an epoch *)
(** The id is among the values of the comments after it was added. *)
Lemma with_run_value id cs : exists k, In (k, id) (with_run id cs) /\ (k = run_subject \/ In (k, id) cs).
Proof.
  unfold with_run. destruct (existsb (fun kv => text_eqb id (snd kv)) cs) eqn:E.
  - apply existsb_exists in E. destruct E as ([k v] & H & K). apply text_eqb_eq in K. cbn in K. subst v. exists k. split; [exact H|now right].
  - exists run_subject. split; [apply in_or_app; right; now left|now left].
Qed.
Lemma add_epoch_has id c x l : to_epoch c = Ok x ->
  exists e, In e (add_epoch id x l) /\ about c e /\ in_time c e /\ exists k, In (k, id) (e_comments e).
Proof.
  intros T. destruct (to_epoch_inv _ _ T) as (code & _ & X).
  destruct (add_epoch_cases id x l) as [[-> _]|(a & g & b & _ & S & ->)].
  - exists (listed id x). split; [apply in_or_app; right; now left|]. split.
    + apply (same_about c x); [exact T|]. apply (same_channel_refl x).
    + split; [rewrite X; split; cbn; lia|]. destruct (with_run_value id (e_comments x)) as (k & H & _). exists k. exact H.
  - exists (widen id x g). split; [apply in_or_app; right; now left|]. split; [|split].
    + apply (same_about c x); [exact T|exact S].
    + rewrite X. unfold in_time. cbn [e_start e_end widen].
      destruct (Z.ltb_spec (mc_start c) (e_start g)), (Z.ltb_spec (e_end g) (mc_end c)); lia.
    + destruct (with_run_value id (e_comments g)) as (k & H & _). exists k. exact H.
Qed.
Lemma write_all_has ps : forall l l' id c, write_all ps l = Ok l' -> In (id, c) ps ->
  exists e, In e l' /\ about c e /\ in_time c e /\ exists k, In (k, id) (e_comments e).
Proof.
  induction ps as [|[i d] ps IH]; intros l l' id c W H; [destruct H|]. cbn [write_all] in W.
  destruct (to_epoch d) as [x|] eqn:T; cbn [bindR] in W; [|discriminate]. destruct H as [E|H].
  - injection E as <- <-. destruct (add_epoch_has i d x l T) as (e & I & A & B & k & K).
    destruct (write_all_keeps _ _ _ _ W I) as (f & F & G). exists f. split; [exact F|]. split; [eapply grows_about; eauto|].
    destruct G as (_ & G1 & G2 & G3). split; [unfold in_time in *; lia|]. exists k. apply G3, K.
  - apply (IH _ _ _ _ W H).
Qed.

(** ** Where epochs come from *)
Record origin (ps : list (text * channel)) (e : epoch) : Prop := {
  o_first : exists id c, In (id, c) ps /\ about c e /\ e_comp e = mc_comp c /\ e_response e = mc_response c /\
      (exists n, e_comments e = (mc_comments c ++ map (pair run_subject) n)%list /\
         forall i, In i n -> exists d, In (i, d) ps /\ about d e /\ in_time d e);
  o_start : exists id c, In (id, c) ps /\ about c e /\ in_time c e /\ mc_start c = e_start e;
  o_end : exists id c, In (id, c) ps /\ about c e /\ in_time c e /\ mc_end c = e_end e;
  o_value : exists id c k, In (id, c) ps /\ about c e /\ In (k, id) (e_comments e) }.
Lemma origin_more ps qs e : incl ps qs -> origin ps e -> origin qs e.
Proof.
  intros I [(id & c & A & B & C & D & n & E & F) (id1 & c1 & A1 & R1) (id2 & c2 & A2 & R2) (id3 & c3 & k3 & A3 & R3)]. split.
  - exists id, c. split; [now apply I|]. do 3 (split; [assumption|]). exists n. split; [exact E|].
    intros i K. destruct (F i K) as (d & L & M). exists d. split; [now apply I|exact M].
  - exists id1, c1. split; [now apply I|exact R1].
  - exists id2, c2. split; [now apply I|exact R2].
  - exists id3, c3, k3. split; [now apply I|exact R3].
Qed.
Lemma with_run_app id cs n : exists m, with_run id (cs ++ map (pair run_subject) n) = (cs ++ map (pair run_subject) m)%list /\
  forall i, In i m -> i = id \/ In i n.
Proof.
  unfold with_run. destruct (existsb _ _).
  - exists n. split; [reflexivity|auto].
  - exists (n ++ [id])%list. split; [rewrite map_app, app_assoc; reflexivity|]. intros i H. apply in_app_or in H. destruct H as [H|[H|[]]]; auto.
Qed.
Lemma origin_new id c x : to_epoch c = Ok x -> origin [(id, c)] (listed id x).
Proof.
  intros T. assert (A : about c (listed id x)) by (apply (same_about c x); [exact T|apply (same_channel_refl x)]).
  destruct (to_epoch_inv _ _ T) as (code & _ & X).
  assert (I : in_time c (listed id x)) by (rewrite X; unfold in_time; cbn; lia). split.
  - exists id, c. split; [now left|]. split; [exact A|]. split; [rewrite X; reflexivity|]. split; [rewrite X; reflexivity|].
    destruct (with_run_app id (mc_comments c) []) as (m & E & F). exists m. rewrite app_nil_r in E. split; [rewrite X; exact E|].
    intros i K. apply F in K. destruct K as [->|[]]. exists c. split; [now left|split; assumption].
  - exists id, c. split; [now left|]. split; [exact A|]. split; [exact I|]. rewrite X. reflexivity.
  - exists id, c. split; [now left|]. split; [exact A|]. split; [exact I|]. rewrite X. reflexivity.
  - destruct (with_run_value id (e_comments x)) as (k & H & _). exists id, c, k. split; [now left|]. split; [exact A|exact H].
Qed.
Lemma in_time_grows c e f : grows e f -> in_time c e -> in_time c f.
Proof. intros (_ & A & B & _) [C D]. unfold in_time. lia. Qed.
Lemma origin_widen ps id c x e : to_epoch c = Ok x -> same_channel x e = true -> origin ps e -> origin ((id, c) :: ps) (widen id x e).
Proof.
  intros T S [(id0 & c0 & A & B & C & D & n & E & F) (id1 & c1 & A1 & B1 & C1 & D1) (id2 & c2 & A2 & B2 & C2 & D2) _].
  assert (G := widen_grows id x e).
  assert (N : about c (widen id x e)) by (apply (same_about c x); [exact T|exact S]).
  destruct (to_epoch_inv _ _ T) as (code & _ & X).
  assert (I : in_time c (widen id x e)).
  { rewrite X. unfold in_time. cbn [e_start e_end widen]. destruct (Z.ltb_spec (mc_start c) (e_start e)), (Z.ltb_spec (e_end e) (mc_end c)); lia. }
  split.
  - exists id0, c0. split; [now right|]. split; [eapply grows_about; eauto|]. split; [exact C|]. split; [exact D|].
    destruct (with_run_app id (mc_comments c0) n) as (m & M & K). exists m. split; [cbn [e_comments widen]; rewrite E; exact M|].
    intros i J. apply K in J. destruct J as [->|J].
    + exists c. split; [now left|split; assumption].
    + destruct (F i J) as (d & H1 & H2 & H3). exists d. split; [now right|]. split; [eapply grows_about; eauto|eapply in_time_grows; eauto].
  - assert (SX : e_start x = mc_start c) by (rewrite X; reflexivity).
    destruct (Z.ltb_spec (e_start x) (e_start e)) as [L|L].
    + exists id, c. split; [now left|]. split; [exact N|]. split; [exact I|]. cbn [e_start widen]. rewrite <- SX. destruct (Z.ltb_spec (e_start x) (e_start e)); lia.
    + exists id1, c1. split; [now right|]. split; [eapply grows_about; eauto|]. split; [eapply in_time_grows; eauto|]. cbn [e_start widen].
      destruct (Z.ltb_spec (e_start x) (e_start e)); lia.
  - assert (SX : e_end x = mc_end c) by (rewrite X; reflexivity).
    destruct (Z.ltb_spec (e_end e) (e_end x)) as [L|L].
    + exists id, c. split; [now left|]. split; [exact N|]. split; [exact I|]. cbn [e_end widen]. rewrite <- SX. destruct (Z.ltb_spec (e_end e) (e_end x)); lia.
    + exists id2, c2. split; [now right|]. split; [eapply grows_about; eauto|]. split; [eapply in_time_grows; eauto|]. cbn [e_end widen].
      destruct (Z.ltb_spec (e_end e) (e_end x)); lia.
  - destruct (with_run_value id (e_comments e)) as (k & H & _). exists id, c, k. split; [now left|]. split; [exact N|exact H].
Qed.
Lemma write_all_origin ps : forall qs l l', write_all ps l = Ok l' ->
  Forall (origin qs) l -> Forall (origin (ps ++ qs)) l'.
Proof.
  induction ps as [|[i c] ps IH]; intros qs l l' W H; cbn [write_all] in W.
  - apply Ok_inj in W. now subst.
  - destruct (to_epoch c) as [x|] eqn:T; cbn [bindR] in W; [|discriminate].
    assert (K : Forall (origin ((i, c) :: qs)) (add_epoch i x l)).
    { assert (H' : Forall (origin ((i, c) :: qs)) l) by (eapply Forall_impl; [|exact H]; intros e; apply origin_more; apply incl_tl, incl_refl).
      destruct (add_epoch_cases i x l) as [[-> _]|(a & e & b & (-> & _) & S & ->)].
      - apply Forall_app. split; [exact H'|]. constructor; [|constructor]. eapply origin_more; [|apply origin_new; eauto].
        intros y [<-|[]]. now left.
      - apply Forall_app in H'. destruct H' as [HA HB]. apply Forall_cons_iff in HB. destruct HB as [_ HB].
        apply Forall_app. split; [exact HA|]. constructor; [|exact HB]. apply origin_widen; auto.
        apply Forall_app in H. destruct H as [_ H]. now inversion H. }
    specialize (IH _ _ _ W K). eapply Forall_impl; [|exact IH]. intros e. apply origin_more.
    intros y Y. apply in_app_or in Y. destruct Y as [Y|[Y|Y]]; [right; apply in_or_app; now left|now left|right; apply in_or_app; now right].
Qed.

(** ** Runs in the order of time *)
Definition Follows (e f : epoch) : Prop := e_code e = e_code f -> e_end e <= e_start f.
Record timed (ps : list (text * channel)) (l : list epoch) : Prop := {
  t_pairs : ForallOrdPairs Follows l;
  t_some : Forall (fun e => e_start e < e_end e) l;
  t_end : Forall (fun e => exists id c, In (id, c) ps /\ channel_code c = Ok (e_code e) /\ mc_end c = e_end e) l;
  t_new : forall e f, next_to l e f -> ~ no_change e f }.
Lemma FOP_app {A} (R : A -> A -> Prop) a b : ForallOrdPairs R (a ++ b) <->
  ForallOrdPairs R a /\ ForallOrdPairs R b /\ (forall x y, In x a -> In y b -> R x y).
Proof.
  induction a as [|x a IH]; cbn [app].
  - split; [intros H; split; [constructor|split; [exact H|intros ? ? []]]|tauto].
  - split.
    + intros H. inversion H as [|y l F G]; subst. apply IH in G. destruct G as (G1 & G2 & G3). apply Forall_app in F. destruct F as [F1 F2].
      split; [constructor; assumption|]. split; [exact G2|]. intros y z [<-|Y] Z; [|now apply G3]. rewrite Forall_forall in F2. now apply F2.
    + intros (H & G & K). inversion H as [|y l F G']; subst. constructor.
      * apply Forall_app. split; [exact F|]. apply Forall_forall. intros y Y. apply K; [now left|exact Y].
      * apply IH. split; [exact G'|]. split; [exact G|]. intros y z Y Z. apply K; [now right|exact Z].
Qed.
Lemma no_change_sym e f : no_change e f -> no_change f e.
Proof. intros (A & B & C & D & E & F). repeat split; try (symmetry; assumption). Qed.
(** A place in a list with one element changed or added. *)
Lemma app_three {A} (a : list A) e b a' f d : (a ++ e :: b = a' ++ f :: d)%list ->
  (a = a' /\ e = f /\ b = d) \/ (exists m, a' = (a ++ e :: m)%list /\ b = (m ++ f :: d)%list) \/ (exists m, a = (a' ++ f :: m)%list /\ d = (m ++ e :: b)%list).
Proof.
  revert a'. induction a as [|x a IH]; intros [|y a'] H; cbn [app] in H.
  - injection H as -> ->. now left.
  - injection H as -> ->. right. left. exists a'. now split.
  - injection H as -> <-. right. right. exists a. now split.
  - injection H as -> H. destruct (IH _ H) as [(-> & -> & ->)|[(m & -> & ->)|(m & -> & ->)]]; [now left|right; left; now exists m|right; right; now exists m].
Qed.
Lemma next_to_last l e f x : next_to (l ++ [x]) e f ->
  next_to l e f \/ (f = x /\ exists a b, l = (a ++ e :: b)%list /\ e_code e = e_code x /\ Forall (fun g => e_code g <> e_code e) b).
Proof.
  intros (a & b & d & E & C & F).
  destruct (exists_last (l := e :: b ++ f :: d) ltac:(discriminate)) as (m & z & M).
  assert (Z : (l ++ [x] = (a ++ m) ++ [z])%list) by (rewrite E, M, app_assoc; reflexivity).
  apply app_inj_tail in Z. destruct Z as [-> ->]. clear E.
  destruct d as [|y d _] using rev_ind.
  - right. assert (Q : (e :: b ++ [f] = (e :: b) ++ [f])%list) by reflexivity. rewrite Q in M. apply app_inj_tail in M. destruct M as [<- <-].
    split; [reflexivity|]. exists a, b. auto.
  - left. assert (Q : (e :: b ++ f :: d ++ [y] = (e :: b ++ f :: d) ++ [y])%list) by (cbn; now rewrite <- app_assoc).
    rewrite Q in M. apply app_inj_tail in M. destruct M as [<- <-]. exists a, b, d. auto.
Qed.
(** Widening an epoch changes nothing of what is compared. *)
Lemma next_to_changed a g g' b e f : grows g g' -> next_to (a ++ g' :: b) e f ->
  exists e' f', next_to (a ++ g :: b) e' f' /\ (no_change e f -> no_change e' f').
Proof.
  intros G (a1 & b1 & d1 & E & C & F).
  assert (K : e_code g' = e_code g) by (destruct G as (G & _); rewrite G; reflexivity).
  assert (NC : forall h, (no_change g' h -> no_change g h) /\ (no_change h g' -> no_change h g)).
  { intros h. destruct G as (G & _). rewrite G. split; auto. }
  destruct (app_three _ _ _ _ _ _ E) as [(-> & <- & ->)|[(m & -> & E')|(m & -> & E')]].
  - exists g, f. split; [|apply NC]. exists a1, b1, d1. split; [reflexivity|]. split; [congruence|]. now rewrite <- K.
  - exists e, f. split; [|auto]. exists (a ++ g :: m)%list, b1, d1. split; [rewrite E', <- app_assoc; reflexivity|auto].
  - destruct (app_three _ _ _ _ _ _ E') as [(-> & -> & ->)|[(n & -> & ->)|(n & -> & ->)]].
    + exists e, g. split; [|apply NC]. exists a1, m, b. split; [now rewrite <- app_assoc|]. split; [congruence|exact F].
    + exists e, f. split; [|auto]. exists a1, b1, (n ++ g :: b)%list. split; [cbn; rewrite <- !app_assoc; cbn; rewrite <- !app_assoc; reflexivity|auto].
    + exists e, f. split; [|auto]. exists a1, (m ++ g :: n)%list, d1. split; [cbn; rewrite <- !app_assoc; reflexivity|]. split; [exact C|].
      apply Forall_app in F. destruct F as [F1 F2]. apply Forall_app. split; [exact F1|].
      apply Forall_cons_iff in F2. destruct F2 as [F2 F3]. constructor; [congruence|exact F3].
Qed.
Lemma timed_step ps l id c x : timed ps l -> to_epoch c = Ok x -> mc_start c < mc_end c ->
  (forall i d, In (i, d) ps -> channel_code d = channel_code c -> mc_end d <= mc_start c) -> timed ((id, c) :: ps) (add_epoch id x l).
Proof.
  intros [TP TS TE TN] T P B. destruct (to_epoch_inv _ _ T) as (code & CC & X).
  assert (XC : e_code x = code) by (rewrite X; reflexivity). assert (XS : e_start x = mc_start c) by (rewrite X; reflexivity).
  assert (XE : e_end x = mc_end c) by (rewrite X; reflexivity). clear X.
  assert (BE : forall e, In e l -> e_code e = e_code x -> e_end e <= e_start x).
  { intros e H E. rewrite Forall_forall in TE. destruct (TE e H) as (i & d & I & J & <-). rewrite XS. apply (B i d I). congruence. }
  assert (LAST : forall a e b, at_last (e_code x) l a e b -> Forall (fun f => e_code f <> e_code x) b).
  { intros a e b (-> & CE & FA & FB). apply Forall_forall. intros f H E. rewrite Forall_forall in FB. specialize (FB f H E).
    apply FOP_app in TP. destruct TP as (_ & TP & _). inversion TP as [|y m F1 F2]; subst. rewrite Forall_forall in F1. specialize (F1 f H).
    unfold Follows in F1. rewrite Forall_forall in TS. specialize (TS e). assert (e_start e < e_end e) by (apply TS, in_or_app; right; now left).
    assert (e_end e <= e_start f) by (apply F1; congruence). lia. }
  destruct (add_epoch_cases id x l) as [[-> Hc]|(a & e & b & AL & S & ->)].
  - split.
    + apply FOP_app. split; [exact TP|]. split; [constructor; constructor|]. intros y z Y [<-|[]] E. cbn [e_start e_code listed] in *. now apply BE.
    + apply Forall_app. split; [exact TS|]. constructor; [|constructor]. cbn [e_start e_end listed]. lia.
    + apply Forall_app. split.
      * eapply Forall_impl; [|exact TE]. cbn. intros e (i & d & I & J). exists i, d. split; [now right|exact J].
      * constructor; [|constructor]. exists id, c. split; [now left|]. cbn [e_code e_end listed]. split; [congruence|now symmetry].
    + intros e f N. apply next_to_last in N. destruct N as [N|(-> & a & b & E & C & F)]; [now apply TN|].
      cbn [e_code listed] in C. intros NC. destruct Hc as [Hc|(a' & e' & b' & AL & S)].
      * rewrite Forall_forall in Hc. apply (Hc e); [rewrite E; apply in_or_app; right; now left|exact C].
      * assert (LB := LAST _ _ _ AL). destruct AL as (E' & CE & _). rewrite E in E'.
        assert (e = e').
        { destruct (app_three _ _ _ _ _ _ E') as [(_ & -> & _)|[(m & _ & M)|(m & _ & M)]]; [reflexivity| |].
          - exfalso. rewrite Forall_forall in F. apply (F e'); [rewrite M; apply in_or_app; right; now left|congruence].
          - exfalso. rewrite Forall_forall in LB. apply (LB e); [rewrite M; apply in_or_app; right; now left|congruence]. }
        subst e'. rewrite same_channel_exact in S; [discriminate|congruence|]. apply no_change_sym. exact NC.
  - assert (LB := LAST _ _ _ AL). destruct AL as (-> & CE & FA & _).
    assert (EB : e_end e <= e_start x) by (apply BE; [apply in_or_app; right; now left|exact CE]).
    assert (ES : e_start e < e_end e) by (rewrite Forall_forall in TS; apply TS, in_or_app; right; now left).
    assert (WS : e_start (widen id x e) = e_start e) by (cbn [e_start widen]; destruct (Z.ltb_spec (e_start x) (e_start e)); lia).
    assert (WE : e_end (widen id x e) = e_end x) by (cbn [e_end widen]; destruct (Z.ltb_spec (e_end e) (e_end x)); lia).
    assert (WC : e_code (widen id x e) = e_code e) by reflexivity.
    split.
    + apply FOP_app in TP. destruct TP as (T1 & T2 & T3). inversion T2 as [|y m F1 F2]; subst y m. apply FOP_app. split; [exact T1|]. split.
      * constructor; [|exact F2]. apply Forall_forall. intros f H E. rewrite Forall_forall in LB. exfalso. apply (LB f H). congruence.
      * intros y z Y [<-|Z]; [|apply T3; [exact Y|now right]]. intros E. rewrite WS. apply (T3 y e Y); [now left|congruence].
    + apply Forall_app in TS. destruct TS as [S1 S2]. apply Forall_cons_iff in S2. destruct S2 as [_ S2]. apply Forall_app. split; [exact S1|].
      constructor; [|exact S2]. rewrite WS, WE. lia.
    + assert (TE' : Forall (fun e0 => exists i d, In (i, d) ((id, c) :: ps) /\ channel_code d = Ok (e_code e0) /\ mc_end d = e_end e0) (a ++ e :: b)).
      { eapply Forall_impl; [|exact TE]. cbn. intros y (i & d & I & J). exists i, d. split; [now right|exact J]. }
      apply Forall_app in TE'. destruct TE' as [E1 E2]. apply Forall_cons_iff in E2. destruct E2 as [_ E2]. apply Forall_app. split; [exact E1|].
      constructor; [|exact E2]. exists id, c. split; [now left|]. split; [rewrite WC, CE; congruence|congruence].
    + intros y z N NC. destruct (next_to_changed _ _ _ _ _ _ (widen_grows id x e) N) as (y' & z' & N' & K). apply (TN y' z' N'). auto.
Qed.
Lemma write_all_timed ps : forall qs l l', write_all ps l = Ok l' -> timed qs l ->
  Forall (fun c => mc_start c < mc_end c) (map snd ps) ->
  ForallOrdPairs (fun a b => channel_code a = channel_code b -> mc_end a <= mc_start b) (map snd ps) ->
  (forall i d j c, In (i, d) qs -> In (j, c) ps -> channel_code d = channel_code c -> mc_end d <= mc_start c) ->
  timed (ps ++ qs) l'.
Proof.
  induction ps as [|[i c] ps IH]; intros qs l l' W T P O B; cbn [write_all] in W.
  - apply Ok_inj in W. now subst.
  - destruct (to_epoch c) as [x|] eqn:TX; cbn [bindR] in W; [|discriminate]. cbn [map snd] in P, O.
    apply Forall_cons_iff in P. destruct P as [P0 P]. inversion O as [|y m O1 O2]; subst.
    assert (K : timed ((i, c) :: qs) (add_epoch i x l)).
    { apply timed_step; auto. intros j d J E. apply (B j d i c J); [now left|exact E]. }
    specialize (IH _ _ _ W K P O2).
    assert (IH' : timed (ps ++ (i, c) :: qs) l').
    { apply IH. intros j d k e [J|J] H E.
      - injection J as <- <-. rewrite Forall_forall in O1. apply O1; [apply (in_map snd) in H; exact H|exact E].
      - apply (B j d k e J); [now right|exact E]. }
    destruct IH' as [A1 A2 A3 A4]. split; auto. eapply Forall_impl; [|exact A3]. cbn. intros e (j & d & J & H). exists j, d. split; [|exact H].
    apply in_app_or in J. destruct J as [J|[J|J]]; [right; apply in_or_app; now left|now left|right; apply in_or_app; now right].
Qed.
Lemma timed_nil : timed [] [].
Proof.
  split; try constructor. intros e f (a & b & d & E & _). destruct a; discriminate.
Qed.
