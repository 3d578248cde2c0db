(** C140: the station metadata of a J file. *)
From Verif Require Import PyBase PyText PyNum ContainerModel JstModel JstSpec.
From Coq Require Import QArith Qabs Lia Lqa.
Local Open Scope list_scope.
Local Open Scope string_scope.

Lemma all_zero_spec a : (all_zero a = true <-> absent a) /\ (all_zero a = false <-> given a).
Proof.
  assert (A : forall l, forallb (fun c => Qeq_bool (fst c) 0 && Qeq_bool (snd c) 0) l = true <-> forall x y, In (x, y) l -> (x == 0 /\ y == 0)%Q).
  { intros l. rewrite forallb_forall. split.
    - intros H x y I. specialize (H _ I). cbn [fst snd] in H. apply andb_true_iff in H as [X Y]. apply Qeq_bool_iff in X, Y. split; assumption.
    - intros H [x y] I. destruct (H x y I) as [X Y]. cbn [fst snd]. apply andb_true_iff. split; apply Qeq_bool_iff; assumption. }
  unfold all_zero, absent, given. destruct a as [l|].
  - split.
    + rewrite A. split; [intros H; exists l; split; [reflexivity|exact H]|]. intros (l' & [= <-] & H). exact H.
    + split.
      * intros H l' [= <-]. clear A. induction l as [|[x y] l IH]; [discriminate H|]. cbn [forallb fst snd] in H. apply andb_false_iff in H as [H|H].
        -- exists x, y. split; [left; reflexivity|]. intros [X Y]. apply Qeq_bool_iff in X, Y. rewrite X, Y in H. discriminate H.
        -- destruct (IH H) as (x' & y' & I & N). exists x', y'. split; [right; exact I|exact N].
      * intros H. destruct (H l eq_refl) as (x & y & I & N). destruct (forallb (fun c => Qeq_bool (fst c) 0 && Qeq_bool (snd c) 0) l) eqn:E; [|reflexivity]. exfalso. apply N. exact (proj1 (A l) E x y I).
  - split; [split; [discriminate|intros (l & E & _); discriminate E]|]. split; [intros _ l E; discriminate E|reflexivity].
Qed.
Lemma rate_spec d : (d == 0)%Q /\ sample_rate d = Err ZeroDivisionError \/ exists q, sample_rate d = Ok q /\ ~ (d == 0)%Q /\ ((d < 0)%Q -> (q == - d)%Q) /\ ((0 < d)%Q -> (q * d == 1)%Q).
Proof.
  unfold sample_rate. destruct (Qle_bool 0 d) eqn:L; cbn [negb].
  - apply Qle_bool_iff in L. destruct (Qeq_bool d 0) eqn:E; [apply Qeq_bool_iff in E; left; split; [exact E|reflexivity]|].
    assert (N : ~ (d == 0)%Q) by (intros H; apply Qeq_bool_iff in H; congruence). right. exists (1 / d)%Q. split; [reflexivity|]. split; [exact N|]. split; [intros; lra|]. intros _. field. exact N.
  - assert (M : (d < 0)%Q). { apply Qnot_le_lt. intros H. apply Qle_bool_iff in H. congruence. } right. exists (Qabs d). split; [reflexivity|]. split; [lra|]. split; [|intros; lra].
    intros _. apply Qabs_neg. lra.
Qed.
Lemma valid_id_spec s : valid_id s = true <-> word s.
Proof.
  unfold valid_id, word. rewrite forallb_forall. split.
  - intros H c I. specialize (H c I). unfold is_word in H. apply orb_true_iff in H as [H|H]; [apply orb_true_iff in H as [H|H]; [left; exact H|right; left; exact H]|]. right. right. apply Ascii.eqb_eq. exact H.
  - intros H c I. unfold is_word. destruct (H c I) as [A|[A| -> ]]; [rewrite A; reflexivity|rewrite A, orb_true_r; reflexivity|]. rewrite Ascii.eqb_refl, orb_true_r. reflexivity.
Qed.

(** The station of a J file with the channels of the list. *)
Definition built (z t : array) : result (list (string * nat) * station) :=
  bindR (channels z t (new_run "001")) (fun '(r, ids) =>
  bindR (validate_station fuel (with_runs new_station (sset (r_id r) r (s_runs new_station)))) (fun s1 =>
  bindR (validate_station fuel s1) (fun s2 => Ok (ids, s2)))).
Definition built_as (cs : list (string * kind * nat)) (ids : list (string * nat)) (s : station) : Prop :=
  s_run_list s = ["001"] /\ ids = map (fun x => (fst (fst x), snd x)) cs /\ s_channels s = map (fun x => fst (fst x)) cs
  /\ exists r, s_runs s = [("001", r)] /\ r_id r = "001"
       /\ map (fun kv => (fst kv, ch_kind (snd kv), ch_comp (snd kv))) (r_channels r) = map (fun x => (fst (fst x), snd (fst x), fst (fst x))) cs
       /\ r_electric r = map (fun x => fst (fst x)) (filter (fun x => kind_eqb (snd (fst x)) Electric) cs)
       /\ r_magnetic r = map (fun x => fst (fst x)) (filter (fun x => kind_eqb (snd (fst x)) Magnetic) cs) /\ r_auxiliary r = [].
Lemma built_spec z t cs : ((if all_zero z then [] else impedance_channels) ++ (if all_zero t then [] else tipper_channels))%list = cs -> exists ids s, built z t = Ok (ids, s) /\ built_as cs ids s.
Proof.
  intros E. unfold built, channels. destruct (all_zero z), (all_zero t); rewrite <- E; (eexists; eexists; split; [vm_compute; reflexivity|]);
    (split; [vm_compute; reflexivity|]; split; [vm_compute; reflexivity|]; split; [vm_compute; reflexivity|]; eexists; split; [reflexivity|];
     split; [reflexivity|]; split; [vm_compute; reflexivity|]; split; [vm_compute; reflexivity|]; split; vm_compute; reflexivity).
Qed.
Lemma metadata_built h z t : station_metadata h z t =
  bindR (sample_rate (h_deltat h)) (fun rate =>
  if valid_id (h_station h) then bindR (built z t) (fun '(ids, s) => Ok (mkMeta (h_station h) (h_lat h) (h_lon h) (h_elev h) s rate ids (h_station h) (s_run_list s)
       (map (fun kv => fst kv ++ " = " ++ snd kv) (h_params h))))
  else bindR (channels z t (new_run "001")) (fun _ => Err ValueError)).
Proof.
  unfold station_metadata, built. destruct (sample_rate (h_deltat h)); [|reflexivity]. cbn [bindR]. destruct (valid_id (h_station h)); destruct (channels z t (new_run "001")) as [[r ids]|]; try reflexivity. cbn [bindR]. cbv zeta.
  destruct (validate_station fuel (with_runs new_station (sset (r_id r) r (s_runs new_station)))) as [s1|]; [|reflexivity]. cbn [bindR]. destruct (validate_station fuel s1); reflexivity.
Qed.
Lemma station_cases h z t cs : word (h_station h) -> ~ (h_deltat h == 0)%Q ->
  ((if all_zero z then [] else impedance_channels) ++ (if all_zero t then [] else tipper_channels))%list = cs -> exists m, station_metadata h z t = Ok m /\ describes h cs m.
Proof.
  intros W D E. rewrite metadata_built. destruct (rate_spec (h_deltat h)) as [[Z _]|(q & -> & _ & R1 & R2)]; [contradiction|]. cbn [bindR]. apply valid_id_spec in W. rewrite W.
  destruct (built_spec z t cs E) as (ids & s & B & L & I & C & R). rewrite B. cbn [bindR]. eexists. split; [reflexivity|]. unfold describes. cbn [m_id m_tf_id m_lat m_lon m_elev m_rate m_station m_processed m_ids m_params].
  split; [reflexivity|]. split; [reflexivity|]. split; [split; [reflexivity|split; reflexivity]|]. split; [exact R1|]. split; [exact R2|]. split; [exact L|]. split; [exact L|]. split; [exact I|]. split; [exact C|]. split; [reflexivity|]. exact R.
Qed.
Theorem C140_station h z t : word (h_station h) -> ~ (h_deltat h == 0)%Q -> given z -> exists m, station_metadata h z t = Ok m
  /\ (given t -> describes h (impedance_channels ++ tipper_channels) m) /\ (absent t -> describes h impedance_channels m).
Proof.
  intros W D Z. apply all_zero_spec in Z. destruct (all_zero t) eqn:T.
  - destruct (station_cases h z t impedance_channels W D) as (m & E & M); [rewrite Z, T; apply app_nil_r|]. exists m. split; [exact E|]. split; [|intros _; exact M]. intros G. apply all_zero_spec in G. congruence.
  - destruct (station_cases h z t (impedance_channels ++ tipper_channels) W D) as (m & E & M); [rewrite Z, T; reflexivity|]. exists m. split; [exact E|]. split; [intros _; exact M|]. intros G. apply all_zero_spec in G. congruence.
Qed.
(** Impedances that are all zero: the run has no channel, or only that of the tipper. *)
Theorem C140_no_impedance h z t : word (h_station h) -> ~ (h_deltat h == 0)%Q -> absent z -> exists m, station_metadata h z t = Ok m /\ (given t -> describes h tipper_channels m) /\ (absent t -> describes h [] m).
Proof.
  intros W D Z. apply all_zero_spec in Z. destruct (all_zero t) eqn:T.
  - destruct (station_cases h z t [] W D) as (m & E & M); [rewrite Z, T; reflexivity|]. exists m. split; [exact E|]. split; [|intros _; exact M]. intros G. apply all_zero_spec in G. congruence.
  - destruct (station_cases h z t tipper_channels W D) as (m & E & M); [rewrite Z, T; reflexivity|]. exists m. split; [exact E|]. split; [intros _; exact M|]. intros G. apply all_zero_spec in G. congruence.
Qed.
(** Every array is given or absent. *)
Theorem C140_cases a : given a \/ absent a.
Proof. destruct (all_zero a) eqn:E; apply all_zero_spec in E; tauto. Qed.
(** It fails exactly without a sampling interval, or with a station name that is not a word; a file without BIRRP's parameters has the interval 0. *)
Theorem C140_fails h z t : (exists e, station_metadata h z t = Err e) <-> (h_deltat h == 0)%Q \/ ~ word (h_station h).
Proof.
  split.
  - intros (e & E). destruct (Qeq_dec (h_deltat h) 0) as [D|D]; [left; exact D|]. right. intros W. destruct (station_cases h z t _ W D eq_refl) as (m & M & _). congruence.
  - intros H. rewrite metadata_built. destruct (rate_spec (h_deltat h)) as [[_ ->]|(q & -> & N & _)]; [exists ZeroDivisionError; reflexivity|]. destruct H as [H|H]; [contradiction|]. cbn [bindR].
    assert (V : valid_id (h_station h) = false) by (destruct (valid_id (h_station h)) eqn:E; [apply valid_id_spec in E; contradiction|reflexivity]). rewrite V. exists ValueError. unfold channels.
    destruct (all_zero z), (all_zero t); vm_compute; reflexivity.
Qed.
Theorem C140_no_interval_refuted h z t : (h_deltat h == 0)%Q -> station_metadata h z t = Err ZeroDivisionError.
Proof. intros D. rewrite metadata_built. destruct (rate_spec (h_deltat h)) as [[_ ->]|(q & _ & N & _)]; [reflexivity|contradiction]. Qed.
(** A station that was not read has all five channels. *)
Theorem C140_not_read_refuted h : word (h_station h) -> ~ (h_deltat h == 0)%Q -> exists m, station_metadata h None None = Ok m /\ s_channels (m_station m) = ["ex"; "ey"; "hx"; "hy"; "hz"].
Proof. intros W D. destruct (station_cases h None None _ W D eq_refl) as (m & E & M). exists m. split; [exact E|]. destruct M as (_ & _ & _ & _ & _ & _ & _ & _ & M & _). exact M. Qed.

Definition ex_header (d : Q) : header := mkHeader "BP05" 32 (-108) 0 d [("outputs", "2"); ("deltat", "0.1")].
Example C140_hyp : word (h_station (ex_header (1 # 10))) /\ ~ (h_deltat (ex_header (1 # 10)) == 0)%Q /\ given (Some [(0, 0); (1, 2)])%Q /\ absent (Some [(0, 0)])%Q.
Proof.
  split; [apply valid_id_spec; reflexivity|]. split; [intros H; discriminate H|]. split; [apply all_zero_spec; reflexivity|apply all_zero_spec; reflexivity].
Qed.
Example C140_name_hyp : ~ word "MT-01" /\ station_metadata (mkHeader "MT-01" 0 0 0 1 []) None None = Err ValueError.
Proof. split; [|vm_compute; reflexivity]. intros W. apply valid_id_spec in W. discriminate W. Qed.

Print Assumptions C140_station.
Print Assumptions C140_fails.
