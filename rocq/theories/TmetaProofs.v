From Verif Require Import PyBase PyFacts PyText ContainerModel ContainerSpec ContainerProofs TmetaModel TmetaSpec.
From Coq Require Import Lia.
Local Open Scope string_scope.
Local Open Scope list_scope.

(** ** The heap *)
Lemma look_put h l n l' : look (put h l n) l' = if Nat.eqb l l' then match look h l with Ok _ => Ok n | Err e => Err e end else look h l'.
Proof.
  unfold look. revert l l'. induction h as [|x h IH]; intros l l'; [destruct l, l'; cbn; try reflexivity; destruct (Nat.eqb _ _); reflexivity|].
  destruct l as [|l], l' as [|l']; cbn [put nth_error Nat.eqb]; try reflexivity. apply IH.
Qed.
Lemma look_put_eq h l n m : look h l = Ok m -> look (put h l n) l = Ok n.
Proof. intros H. rewrite look_put, Nat.eqb_refl, H. reflexivity. Qed.
Lemma look_put_neq h l n l' : l <> l' -> look (put h l n) l' = look h l'.
Proof. intros H. rewrite look_put. destruct (Nat.eqb_spec l l'); [contradiction|reflexivity]. Qed.
Lemma put_length h l n : List.length (put h l n) = List.length h.
Proof. revert l. induction h as [|x h IH]; intros [|l]; cbn; try reflexivity. rewrite IH. reflexivity. Qed.
Lemma look_app h n l m : look h l = Ok m -> look (h ++ [n]) l = Ok m.
Proof. unfold look. destruct (nth_error h l) eqn:E; [|discriminate]. rewrite nth_error_app1; [rewrite E; auto|]. apply nth_error_Some. rewrite E. discriminate. Qed.
Lemma look_new h n : look (h ++ [n]) (List.length h) = Ok n.
Proof. unfold look. rewrite nth_error_app2, Nat.sub_diag by lia. reflexivity. Qed.
Lemma look_lt h l m : look h l = Ok m -> (l < List.length h)%nat.
Proof. unfold look. destruct (nth_error h l) eqn:E; [|discriminate]. intros _. apply nth_error_Some. rewrite E. discriminate. Qed.

(** ** The runs of a station *)
Lemma add_channel_id' r ch : r_id (add_channel r ch true) = r_id r. Proof. apply add_channel_id. Qed.
Lemma add_channels_id r : r_id (add_channels r) = r_id r.
Proof. unfold add_channels, default_channels. cbn [fold_left]. rewrite !add_channel_id. reflexivity. Qed.
Lemma add_name_id r s u r' : add_name r s u = Ok r' -> r_id r' = r_id r.
Proof. unfold add_name. destruct (from_name s); [|discriminate]. cbn [bindR]. intros H. injection H as <-. apply add_channel_id. Qed.
Lemma add_phantoms_id known names : forall r r', add_phantoms r known names = Ok r' -> r_id r' = r_id r.
Proof.
  induction names as [|n ns IH]; intros r r' H; cbn [add_phantoms] in H; [injection H as <-; reflexivity|].
  destruct (smem n known); [apply (IH _ _ H)|]. apply bindR_Ok in H as (r1 & H1 & H2). rewrite (IH _ _ H2). apply (add_name_id _ _ _ _ H1).
Qed.
Lemma ids_sset d k r : ids_ok d -> r_id r = k -> ids_ok (sset k r d).
Proof. intros [N I] E. split; [apply NoDup_dset; exact N|]. intros i x H. apply In_dset in H. destruct H as [[-> ->]|H]; [exact E|exact (I _ _ H)]. Qed.
Lemma append_runs_ids ids : forall d, ids_ok d -> ids_ok (append_runs d ids).
Proof. induction ids as [|i ids IH]; intros d H; [exact H|]. cbn [append_runs]. destruct (smem i (dkeys d)); [apply IH, H|]. apply IH, ids_sset; [exact H|reflexivity]. Qed.
Lemma append_runs_head ids : forall k r rest, exists rest', append_runs ((k, r) :: rest) ids = (k, r) :: rest'.
Proof.
  induction ids as [|i ids IH]; intros k r rest; [eexists; reflexivity|]. cbn [append_runs]. destruct (smem i _) eqn:M; [apply IH|].
  cbn [dset]. destruct (string_dec i k) as [->|N]; [|apply IH]. exfalso. apply smem_nIn in M. apply M. left. reflexivity.
Qed.
Lemma ids_head d k r r' rest : d = (k, r) :: rest -> ids_ok d -> r_id r' = r_id r -> ids_ok ((k, r') :: rest).
Proof.
  intros -> [N I] E. split; [exact N|]. intros i x [H|H]; [|apply I; right; exact H]. assert (i = k /\ x = r') as [-> ->] by (split; congruence).
  rewrite E. apply (I k r). left. reflexivity.
Qed.

Lemma validate_ids f : forall s s', validate_station f s = Ok s' -> ids_ok (s_runs s) -> ids_ok (s_runs s').
Proof.
  induction f as [|f IH]; intros s s' H K; cbn [validate_station] in H; [discriminate H|]. apply bindR_Ok in H as (s1 & H1 & H2).
  assert (K1 : ids_ok (s_runs s1)).
  { destruct (list_eqb (s_run_list s) (dkeys (s_runs s))); [apply station_Ok_inj in H1; subst s1; exact K|]. destruct (_ <? _)%nat.
    - apply station_Ok_inj in H1. subst s1. apply append_runs_ids. exact K.
    - apply (IH _ _ H1). exact K. }
  clear H1. cbv zeta in H2. destruct (list_eqb (s_channels s1) (estimate s1)); [apply station_Ok_inj in H2; subst s'; exact K1|]. destruct (_ <? _)%nat.
  - destruct (s_runs s1) as [|[i r0] rest] eqn:E; [apply station_Ok_inj in H2; subst s'; rewrite E; exact K1|].
    apply bindR_Ok in H2 as (r0' & P & H2). apply station_Ok_inj in H2. subst s'. cbn [ContainerModel.with_runs s_runs].
    apply (ids_head _ _ _ _ _ eq_refl K1). apply (add_phantoms_id _ _ _ _ P).
  - apply (IH _ _ H2). exact K1.
Qed.
Lemma validate_head f : forall s s' k r rest, validate_station f s = Ok s' -> s_runs s = (k, r) :: rest ->
  exists r' rest', s_runs s' = (k, r') :: rest' /\ r_id r' = r_id r.
Proof.
  induction f as [|f IH]; intros s s' k r rest H E; cbn [validate_station] in H; [discriminate H|]. apply bindR_Ok in H as (s1 & H1 & H2).
  assert (K1 : exists r' rest', s_runs s1 = (k, r') :: rest' /\ r_id r' = r_id r).
  { destruct (list_eqb (s_run_list s) (dkeys (s_runs s))); [apply station_Ok_inj in H1; subst s1; eauto|]. destruct (_ <? _)%nat.
    - apply station_Ok_inj in H1. subst s1. cbn [ContainerModel.with_runs s_runs]. rewrite E. destruct (append_runs_head (s_run_list s) k r rest) as (rest' & ->). eauto.
    - apply (IH _ _ _ _ _ H1 E). }
  destruct K1 as (r1 & rest1 & E1 & I1). clear H1. cbv zeta in H2. destruct (list_eqb (s_channels s1) (estimate s1)); [apply station_Ok_inj in H2; subst s'; eauto|]. destruct (_ <? _)%nat.
  - rewrite E1 in H2. apply bindR_Ok in H2 as (r0' & P & H2). apply station_Ok_inj in H2. subst s'. cbn [ContainerModel.with_runs s_runs].
    do 2 eexists. split; [reflexivity|]. rewrite <- I1. apply (add_phantoms_id _ _ _ _ P).
  - destruct (IH _ _ _ _ _ H2 E1) as (r' & rest' & A & B). exists r', rest'. split; [exact A|congruence].
Qed.
Lemma validate_keys f : forall s s', validate_station f s = Ok s' -> (List.length (s_run_list s) <= List.length (dkeys (s_runs s)))%nat ->
  dkeys (s_runs s') = dkeys (s_runs s) /\ (List.length (s_run_list s') <= List.length (dkeys (s_runs s')))%nat.
Proof.
  induction f as [|f IH]; intros s s' H L; cbn [validate_station] in H; [discriminate H|]. apply bindR_Ok in H as (s1 & H1 & H2).
  assert (K1 : dkeys (s_runs s1) = dkeys (s_runs s) /\ (List.length (s_run_list s1) <= List.length (dkeys (s_runs s1)))%nat).
  { destruct (list_eqb (s_run_list s) (dkeys (s_runs s))); [apply station_Ok_inj in H1; subst s1; auto|].
    destruct (Nat.ltb_spec (List.length (dkeys (s_runs s))) (List.length (s_run_list s))); [lia|].
    destruct (IH _ _ H1 (le_n _)) as [A B]. split; [exact A|exact B]. }
  destruct K1 as [A1 B1]. clear H1. cbv zeta in H2. destruct (list_eqb (s_channels s1) (estimate s1)); [apply station_Ok_inj in H2; subst s'; auto|]. destruct (_ <? _)%nat.
  - destruct (s_runs s1) as [|[i r0] rest] eqn:E.
    + apply station_Ok_inj in H2. subst s'. rewrite E. auto.
    + apply bindR_Ok in H2 as (r0' & P & H2). apply station_Ok_inj in H2. subst s'. cbn [ContainerModel.with_runs s_runs s_run_list]. auto.
  - destruct (IH _ _ H2 B1) as [A B]. split; [rewrite A; exact A1|exact B].
Qed.

Lemma rekey_fold d : forall acc, ids_ok d -> (forall k, In k (dkeys acc) -> ~ In k (dkeys d)) ->
  fold_left (fun acc kr => sset (r_id (snd kr)) (snd kr) acc) d acc = acc ++ d.
Proof.
  induction d as [|[k r] d IH]; intros acc [N I] D; [rewrite app_nil_r; reflexivity|]. cbn [fold_left snd].
  assert (r_id r = k) as -> by (apply (I k r); left; reflexivity). rewrite dset_notin by (intros H; apply (D k H); left; reflexivity).
  cbn [dkeys map fst] in N. inversion N as [|? ? NI N']; subst. rewrite IH.
  - rewrite <- app_assoc. reflexivity.
  - split; [exact N'|]. intros i x H. apply I. right. exact H.
  - intros k' H X. unfold dkeys in H. rewrite map_app in H. apply in_app_or in H. destruct H as [H|[<-|[]]]; [apply (D k' H); right; exact X|exact (NI X)].
Qed.
Lemma rekey_runs_same d : ids_ok d -> rekey_runs d = d.
Proof. intros H. unfold rekey_runs. rewrite rekey_fold; [reflexivity|exact H|intros k []]. Qed.

Lemma dkeys_dupdate_filter {V} (own : dict V) : forall d, NoDup (dkeys own) ->
  dkeys (dupdate string_dec d own) = dkeys d ++ filter (fun i => if in_dec string_dec i (dkeys d) then false else true) (dkeys own).
Proof.
  induction own as [|[k v] own IH]; intros d N; [cbn; rewrite app_nil_r; reflexivity|]. cbn [dkeys map fst] in *. inversion N as [|? ? NI N']; subst.
  change (dupdate string_dec d ((k, v) :: own)) with (dupdate string_dec (sset k v d) own). rewrite IH by exact N'. rewrite dkeys_dset. cbn [filter].
  destruct (in_dec string_dec k (dkeys d)) as [H|H]; [reflexivity|]. rewrite <- app_assoc. cbn [app]. do 2 f_equal.
  apply filter_ext_in. intros a Ha. destruct (in_dec string_dec a (dkeys d)) as [A|A], (in_dec string_dec a (dkeys d ++ [k])) as [B|B]; try reflexivity.
  - exfalso. apply B. apply in_or_app. left. exact A.
  - exfalso. apply in_app_or in B. destruct B as [B|[<-|[]]]; [exact (A B)|exact (NI Ha)].
Qed.
Lemma ids_dupdate own : forall d, ids_ok d -> ids_ok own -> ids_ok (dupdate string_dec d own).
Proof.
  induction own as [|[k r] own IH]; intros d H [N I]; [exact H|]. change (dupdate string_dec d ((k, r) :: own)) with (dupdate string_dec (sset k r d) own).
  cbn [dkeys map fst] in N. inversion N; subst. apply IH; [apply ids_sset; [exact H|apply I; left; reflexivity]|]. split; [assumption|]. intros i x X. apply I. right. exact X.
Qed.
Lemma joined_ids cur own : ids_ok own -> ids_ok (joined_runs cur own) /\ dkeys (joined_runs cur own) = with_current (r_id cur) (dkeys own).
Proof.
  intros H. unfold joined_runs, with_current. cbv zeta. destruct (String.eqb_spec (r_id cur) "0") as [E|E].
  - rewrite dupdate_nil by exact (proj1 H). rewrite E. destruct (string_dec "0" "0") as [_|N]; [|congruence]. destruct own as [|[k r] own]; [|split; [exact H|reflexivity]].
    split; [|reflexivity]. split; [repeat constructor; intros []|]. intros i r [X|[]]. injection X as <- <-. reflexivity.
  - destruct (string_dec (r_id cur) "0") as [X|_]; [contradiction|].
    assert (K : dkeys (dupdate string_dec [(r_id cur, cur)] own) = r_id cur :: filter (fun i => if string_dec i (r_id cur) then false else true) (dkeys own)).
    { rewrite dkeys_dupdate_filter by exact (proj1 H). cbn [dkeys map fst app]. f_equal. apply filter_ext. intros a. cbn [dkeys map fst].
      destruct (in_dec string_dec a [r_id cur]) as [[A|[]]|A], (string_dec a (r_id cur)) as [B|B]; try reflexivity; [congruence|]. exfalso. apply A. left. congruence. }
    assert (O : ids_ok (dupdate string_dec [(r_id cur, cur)] own)).
    { apply ids_dupdate; [|exact H]. split; [repeat constructor; intros []|]. intros i r [X|[]]. injection X as <- <-. reflexivity. }
    destruct (dupdate string_dec [(r_id cur, cur)] own) as [|p d] eqn:D; [discriminate K|]. split; assumption.
Qed.
Lemma first_channels_ids d : ids_ok d -> ids_ok (with_channels_first d) /\ dkeys (with_channels_first d) = dkeys d.
Proof.
  intros H. destruct d as [|[k r] rest]; [split; [exact H|reflexivity]|]. cbn [with_channels_first]. destruct (r_channels r); [|split; [exact H|reflexivity]].
  split; [|reflexivity]. apply (ids_head _ _ _ _ _ eq_refl H). apply add_channels_id.
Qed.
Lemma with_current_length c own : NoDup own -> (List.length own <= List.length (with_current c own))%nat.
Proof.
  intros N. unfold with_current. destruct (string_dec c "0"); [destruct own; cbn; lia|]. cbn [List.length].
  induction own as [|x own IH]; [cbn; lia|]. inversion N as [|? ? NI N']; subst. cbn [filter]. destruct (string_dec x c) as [->|X].
  - assert (F : filter (fun i => if string_dec i c then false else true) own = own).
    { clear -NI. induction own as [|y own IH]; [reflexivity|]. cbn [filter]. destruct (string_dec y c) as [->|Y]; [exfalso; apply NI; left; reflexivity|].
      rewrite IH; [reflexivity|]. intros H. apply NI. right. exact H. }
    rewrite F. cbn. lia.
  - cbn [List.length]. specialize (IH N'). lia.
Qed.

(** The body of a station after it was given *)
Lemma assign_spec cur b b' : station_fine b -> assign_runs b (with_channels_first (joined_runs cur (s_runs b))) = Ok b' ->
  station_fine b' /\ dkeys (s_runs b') = with_current (r_id cur) (dkeys (s_runs b)).
Proof.
  intros [K L] H. destruct (joined_ids cur _ K) as [J JK]. destruct (first_channels_ids _ J) as [F FK]. unfold assign_runs in H. rewrite rekey_runs_same in H by exact F.
  assert (LE : (List.length (s_run_list b) <= List.length (dkeys (with_channels_first (joined_runs cur (s_runs b)))))%nat).
  { rewrite FK, JK. etransitivity; [exact L|]. apply with_current_length. exact (proj1 K). }
  pose proof (validate_ids _ _ _ H F) as A. destruct (validate_keys _ _ _ H LE) as [B C]. cbn [ContainerModel.with_runs s_runs] in *.
  split; [split; assumption|]. rewrite B, FK, JK. reflexivity.
Qed.
