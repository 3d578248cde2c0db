(** Proofs for C114: runs, stations, filters, surveys. *)
From Verif Require Import PyBase PyFacts PyText TextFacts ValidatorsModel XmlModel XmlSpec XmlProofs XmlProps ExpxModel ExpxSpec ExpxProofs.
From Coq Require Import Lia.
Local Open Scope list_scope.

Lemma channel_tag_text c : channel_tag c = match c with Electric => txt "electric" | Magnetic => txt "magnetic" | Auxiliary => txt "auxiliary" end.
Proof. destruct c; reflexivity. Qed.
Lemma channel_tag_inj a b : channel_tag a = channel_tag b -> a = b.
Proof. rewrite !channel_tag_text. destruct a, b; intros H; try reflexivity; discriminate H. Qed.
Lemma filter_tag_text c : filter_tag c = match c with PoleZero => txt "pole_zero_filter" | Coefficient => txt "coefficient_filter" | TimeDelay => txt "time_delay_filter"
  | ResponseTable => txt "frequency_response_table_filter" | FIR => txt "f_i_r_filter" end.
Proof. destruct c; reflexivity. Qed.
Lemma filter_tag_inj a b : filter_tag a = filter_tag b -> a = b.
Proof. rewrite !filter_tag_text. destruct a, b; intros H; try reflexivity; discriminate H. Qed.
Lemma class_read_tag c : class_read (filter_tag c) = if filter_class_dec c FIR then None else Some c.
Proof. rewrite filter_tag_text. destruct c; reflexivity. Qed.

Lemma app_nil_grouped d : d ++ grouped [] = d.
Proof. apply app_nil_r. Qed.
Lemma read_channel c c' : chan_back c c' -> read (channel_xml c) = Ok (XDict (c_fields c')).
Proof. intros [_ O]. unfold channel_xml. rewrite (element_read _ _ (c_fields c') [] [] O); [cbn [map combine]; rewrite app_nil_grouped; reflexivity|constructor|intros ? ? []|intros []]. Qed.
Lemma read_filter f f' : filt_back f f' -> read (filter_xml f) = Ok (XDict (f_fields f')).
Proof. intros [_ O]. unfold filter_xml. rewrite (element_read _ _ (f_fields f') [] [] O); [cbn [map combine]; rewrite app_nil_grouped; reflexivity|constructor|intros ? ? []|intros []]. Qed.

(** ** Taking an entry *)
Definition is_dict (v : xval) : Prop := exists d, v = XDict d.
Lemma unlist l : Forall is_dict l -> l <> [] -> match one_or_list l with XList l' => l' | x => [x] end = l.
Proof. intros F N. destruct l as [|x [|y l]]; [congruence| |reflexivity]. inversion F as [|? ? [d ->] _]; subst. reflexivity. Qed.
Lemma dget_app_r {V} k (a b : list (text * V)) : ~ In k (map fst a) -> dget text_dec k (a ++ b) = dget text_dec k b.
Proof. intros N. induction a as [|[x v] a IH]; [reflexivity|]. cbn [app dget]. destruct (text_dec k x) as [->|_]; [exfalso; apply N; left; reflexivity|]. apply IH. intros I. apply N. right. exact I. Qed.
Lemma ddel_app_r {V} k (a b : list (text * V)) : ~ In k (map fst a) -> ddel text_dec k (a ++ b) = a ++ ddel text_dec k b.
Proof. intros N. induction a as [|[x v] a IH]; [reflexivity|]. cbn [app ddel]. destruct (text_dec k x) as [->|_]; [exfalso; apply N; left; reflexivity|]. rewrite IH; [reflexivity|]. intros I. apply N. right. exact I. Qed.
Lemma vals_some {V} k (kvs : list (text * V)) : In k (map fst kvs) -> vals k kvs <> [].
Proof.
  intros I X. apply in_map_iff in I. destruct I as ([x v] & E & I). cbn in E. subst x. assert (J : In v (vals k kvs)); [|rewrite X in J; exact J].
  unfold vals. apply in_map_iff. exists (k, v). split; [reflexivity|]. apply filter_In. split; [exact I|]. apply text_eqb_refl.
Qed.
(** The dictionary of an element with the values that are grouped under the tags [ks] left *)
Definition left_over (d : fields) (kvs : list (text * xval)) (ks : list text) : fields := d ++ map (fun k => (k, one_or_list (vals k kvs))) ks.
Definition without (k : text) (ks : list text) : list text := filter (fun y => if text_dec y k then false else true) ks.
Lemma pop_list_left d kvs ks k : NoDup ks -> ~ In k (map fst d) -> In k ks -> In k (map fst kvs) -> Forall is_dict (map snd kvs) ->
  pop_list k (XDict (left_over d kvs ks)) = Ok (vals k kvs, XDict (left_over d kvs (without k ks))).
Proof.
  intros ND NI I J F. unfold pop_list, pop, left_over. rewrite dget_app_r by exact NI. rewrite (dget_map (fun x => one_or_list (vals x kvs))). destruct (in_dec text_dec k ks) as [_|X]; [|contradiction].
  cbn [bindR fst snd]. rewrite ddel_app_r by exact NI. rewrite (ddel_map (fun x => one_or_list (vals x kvs))) by exact ND. rewrite unlist; [reflexivity| |apply vals_some; exact J].
  unfold vals. apply Forall_forall. intros v V. apply in_map_iff in V. destruct V as (kv & <- & V). apply filter_In in V as [V _]. rewrite Forall_forall in F. apply F. apply in_map. exact V.
Qed.
Lemma pop_list_missing d kvs ks k : ~ In k (map fst d) -> ~ In k ks -> pop_list k (XDict (left_over d kvs ks)) = Err KeyError.
Proof.
  intros NI N. unfold pop_list, pop, left_over. rewrite dget_app_r by exact NI. rewrite (dget_map (fun x => one_or_list (vals x kvs))). destruct (in_dec text_dec k ks) as [X|_]; [contradiction|]. reflexivity.
Qed.

(** ** Runs *)
Definition chan_kvs (cs : list chan) : list (text * xval) := map (fun c => (channel_tag (c_class c), XDict (c_fields c))) cs.
Lemma chan_vals c cs : vals (channel_tag c) (chan_kvs cs) = map (fun x => XDict (c_fields x)) (channels_of_class c cs).
Proof.
  unfold vals, chan_kvs, channels_of_class. induction cs as [|x cs IH]; [reflexivity|]. cbn [map filter fst]. destruct (channel_class_dec (c_class x) c) as [->|N].
  - rewrite text_eqb_refl. cbn [map snd]. rewrite IH. reflexivity.
  - destruct (text_eqb (channel_tag (c_class x)) (channel_tag c)) eqn:E; [apply text_eqb_eq in E; apply channel_tag_inj in E; contradiction|]. exact IH.
Qed.
Lemma channels_of_dicts c l : Forall (fun x => c_class x = c) l -> channels_of c (map (fun x => XDict (c_fields x)) l) = Ok l.
Proof. induction 1 as [|x l E _ IH]; [reflexivity|]. cbn [map channels_of]. rewrite IH. cbn [bindR]. destruct x as [k d]. cbn in *. subst k. reflexivity. Qed.
Lemma of_class_all c cs : Forall (fun x => c_class x = c) (channels_of_class c cs).
Proof. apply Forall_forall. intros x X. apply filter_In in X as [_ X]. destruct (channel_class_dec (c_class x) c); [assumption|discriminate X]. Qed.
Lemma kvs_dicts cs : Forall is_dict (map snd (chan_kvs cs)).
Proof. unfold chan_kvs. rewrite map_map. cbn [snd]. apply Forall_forall. intros v V. apply in_map_iff in V. destruct V as (c & <- & _). eexists. reflexivity. Qed.
Lemma without_absent k ks : ~ In k ks -> without k ks = ks.
Proof. intros N. apply filter_id. intros x X. destruct (text_dec x k) as [->|_]; [contradiction|reflexivity]. Qed.
Lemma pop_channels_left c d cs ks : NoDup ks -> ~ In (channel_tag c) (map fst d) -> (In (channel_tag c) ks <-> In (channel_tag c) (map fst (chan_kvs cs))) ->
  pop_channels c (channel_tag c) (XDict (left_over d (chan_kvs cs) ks)) = Ok (channels_of_class c cs, XDict (left_over d (chan_kvs cs) (without (channel_tag c) ks))).
Proof.
  intros ND NI IFF. unfold pop_channels. destruct (in_dec text_dec (channel_tag c) ks) as [I|N].
  - rewrite pop_list_left; [|exact ND|exact NI|exact I|apply IFF; exact I|apply kvs_dicts]. rewrite chan_vals, channels_of_dicts by apply of_class_all. reflexivity.
  - rewrite pop_list_missing by assumption. rewrite without_absent by exact N. assert (X : map (fun x => XDict (c_fields x)) (channels_of_class c cs) = []).
    { rewrite <- chan_vals. apply vals_none. intros I. apply N. apply IFF. exact I. }
    destruct (channels_of_class c cs); [reflexivity|discriminate X].
Qed.
Lemma In_without k x ks : In x (without k ks) <-> In x ks /\ x <> k.
Proof. unfold without. rewrite filter_In. destruct (text_dec x k); intuition congruence. Qed.
Lemma F2_map {A B C} (R : A -> B -> Prop) (f : A -> C) (g : B -> C) l l' : Forall2 R l l' -> (forall a b, R a b -> f a = g b) -> map f l = map g l'.
Proof. induction 1; intros HH; [reflexivity|]. cbn. f_equal; auto. Qed.
Lemma F2_imp {A B A' B'} (R : A -> B -> Prop) (S : A' -> B' -> Prop) (f : A -> A') (g : B -> B') l l' : Forall2 R l l' -> (forall a b, R a b -> S (f a) (g b)) -> Forall2 S (map f l) (map g l').
Proof. induction 1; intros H'; cbn; constructor; auto. Qed.
Lemma combine_map {A B C} (f : A -> B) (g : A -> C) l : combine (map f l) (map g l) = map (fun x => (f x, g x)) l.
Proof. induction l; cbn; congruence. Qed.
Lemma element_tag tag d more : tag_of (element tag d more) = tag.
Proof. reflexivity. Qed.
Lemma read_run_value r r' : run_back r r' -> exists v, read (run_xml r) = Ok v /\ is_dict v /\ read_run v = Ok (sorted_run r').
Proof.
  intros (O & F & D). destruct (own_inv _ _ O) as (_ & _ & _ & K & _).
  assert (T : map tag_of (map channel_xml (r_channels r)) = map (fun c => channel_tag (c_class c)) (r_channels r')).
  { rewrite map_map. apply (F2_map chan_back _ _ _ _ F). intros a b [E _]. unfold channel_xml. rewrite element_tag, E. reflexivity. }
  assert (IN : forall k, In k (map tag_of (map channel_xml (r_channels r))) -> exists c, k = channel_tag c).
  { intros k I. rewrite map_map in I. apply in_map_iff in I. destruct I as (c & <- & _). eexists. reflexivity. }
  eexists. split; [|split].
  - unfold run_xml. apply (element_read _ _ (r_fields r') _ (map (fun c => XDict (c_fields c)) (r_channels r')) O).
    + apply (F2_imp chan_back _ _ _ _ _ F). intros a b. apply read_channel.
    + intros k I J. destruct (IN k J) as (c & ->). apply (D _ I). rewrite channel_tag_text. destruct c; cbn; auto.
    + intros J. destruct (IN _ J) as (c & E). rewrite channel_tag_text in E. destruct c; discriminate E.
  - eexists. reflexivity.
  - rewrite T, combine_map. fold (chan_kvs (r_channels r')). unfold grouped.
    set (cs := r_channels r') in *. set (ks := first_seen text_dec (map fst (chan_kvs cs))).
    change (r_fields r' ++ map (fun k => (k, one_or_list (vals k (chan_kvs cs)))) ks) with (left_over (r_fields r') (chan_kvs cs) ks).
    assert (N0 : NoDup ks) by apply NoDup_first_seen. assert (I0 : forall x, In x ks <-> In x (map fst (chan_kvs cs))) by (intros x; apply In_first_seen).
    assert (ND : forall c, ~ In (channel_tag c) (map fst (r_fields r'))).
    { intros c I. rewrite <- K in I. apply (D _ I). rewrite channel_tag_text. destruct c; cbn; auto. }
    unfold read_run. change (txt "electric") with (channel_tag Electric). change (txt "magnetic") with (channel_tag Magnetic). change (txt "auxiliary") with (channel_tag Auxiliary).
    rewrite pop_channels_left; [|exact N0|apply ND|apply I0]. cbn [bindR fst snd].
    rewrite pop_channels_left; [|apply NoDup_filter; exact N0|apply ND|rewrite In_without, I0; split; [tauto|intros X; split; [exact X|intros Y; apply channel_tag_inj in Y; discriminate Y]]]. cbn [bindR fst snd].
    rewrite pop_channels_left; [|do 2 apply NoDup_filter; exact N0|apply ND|]. 2: { rewrite !In_without, I0. split; [tauto|]. intros X. split; [split; [exact X|]|]; intros Y; apply channel_tag_inj in Y; discriminate Y. }
    cbn [bindR fst snd fields_of]. assert (E : without (channel_tag Auxiliary) (without (channel_tag Magnetic) (without (channel_tag Electric) ks)) = []).
    { apply filter_nil. intros x X. rewrite !In_without, I0 in X. destruct X as [[X N1] N2]. unfold chan_kvs in X. rewrite map_map in X. cbn [fst] in X. apply in_map_iff in X. destruct X as (c & <- & _).
      destruct (text_dec (channel_tag (c_class c)) (channel_tag Auxiliary)) as [_|N3]; [reflexivity|]. destruct (c_class c); congruence. }
    rewrite E. unfold left_over. cbn [map]. rewrite app_nil_r. reflexivity.
Qed.

(** ** Stations *)
Lemma each_F2 {A B} (f : A -> result B) l l' : Forall2 (fun a b => f a = Ok b) l l' -> each f l = Ok l'.
Proof. induction 1 as [|a b l l' E _ IH]; [reflexivity|]. cbn [each]. rewrite E. cbn [bindR]. rewrite IH. reflexivity. Qed.
Lemma vals_same (t : text) (vs : list xval) : vals t (map (fun v => (t, v)) vs) = vs.
Proof. unfold vals. rewrite filter_id; [rewrite map_map; apply map_id|]. intros x X. apply in_map_iff in X. destruct X as (v & <- & _). apply text_eqb_refl. Qed.
Lemma first_seen_same (t : text) {A} (l : list A) : l <> [] -> first_seen text_dec (map (fun _ => t) l) = [t].
Proof.
  intros N. destruct l as [|x l]; [congruence|]. clear N. cbn [map first_seen]. f_equal. apply filter_nil. intros y Y. apply (proj1 (In_first_seen text_dec _ _)) in Y. apply in_map_iff in Y. destruct Y as (? & <- & _).
  destruct (text_dec t t); [reflexivity|congruence].
Qed.
(** Values that the elements are read as *)
Lemma values_of_elements {A B} (R : A -> B -> Prop) (x : A -> xml) (f : xval -> result B) (g : B -> B) l l' :
  Forall2 R l l' -> (forall a b, R a b -> exists v, read (x a) = Ok v /\ is_dict v /\ f v = Ok (g b)) ->
  exists vs, Forall2 (fun e v => read e = Ok v) (map x l) vs /\ Forall is_dict vs /\ each f vs = Ok (map g l').
Proof.
  intros F H. induction F as [|a b l l' AB _ (vs & IH1 & IH2 & IH3)]; [exists []; repeat constructor|]. destruct (H _ _ AB) as (v & V1 & V2 & V3).
  exists (v :: vs). cbn [map each]. split; [constructor; assumption|]. split; [constructor; assumption|]. rewrite V3. cbn [bindR]. rewrite IH3. reflexivity.
Qed.
Lemma combine_same (t : text) (es : list xml) (vs : list xval) : Forall2 (fun e v => read e = Ok v) es vs -> Forall (fun e => tag_of e = t) es -> combine (map tag_of es) vs = map (fun v => (t, v)) vs.
Proof. induction 1 as [|e v es vs E _ IH]; intros F; [reflexivity|]. inversion F; subst. cbn [map combine]. rewrite IH by assumption. reflexivity. Qed.
Lemma tags_same {A} (t : text) (x : A -> xml) l : (forall a, tag_of (x a) = t) -> map tag_of (map x l) = map (fun _ => t) l /\ Forall (fun e => tag_of e = t) (map x l).
Proof. intros H. split; [rewrite map_map; apply map_ext; exact H|]. apply Forall_forall. intros e E. apply in_map_iff in E. destruct E as (a & <- & _). apply H. Qed.
Lemma station_value s s' : station_back s s' -> exists vs, Forall is_dict vs /\ List.length vs = List.length (s_runs s) /\ each read_run vs = Ok (map sorted_run (s_runs s')) /\
  read (station_xml s) = Ok (XDict (left_over (s_fields s') (map (fun v => (txt "run", v)) vs) (first_seen text_dec (map (fun _ => txt "run") vs)))).
Proof.
  intros (O & F & N). destruct (values_of_elements run_back run_xml read_run sorted_run _ _ F read_run_value) as (vs & A & B & C).
  exists vs. split; [exact B|]. split; [rewrite <- (F2_length _ _ _ A), map_length; reflexivity|]. split; [exact C|]. destruct (tags_same (txt "run") run_xml (s_runs s) (fun _ => eq_refl)) as [T1 T2].
  unfold station_xml. rewrite (element_read _ _ (s_fields s') _ vs O A).
  - rewrite (combine_same _ _ _ A T2). unfold grouped, left_over. rewrite map_map. reflexivity.
  - intros k I J. rewrite T1 in J. apply in_map_iff in J. destruct J as (? & <- & _). exact (N I).
  - rewrite T1. intros J. apply in_map_iff in J. destruct J as (? & J & _). discriminate J.
Qed.
Lemma read_station_value s s' : station_back s s' -> s_runs s <> [] -> exists v, read (station_xml s) = Ok v /\ is_dict v /\ read_station v = Ok (sorted_station s').
Proof.
  intros SB NE. destruct (station_value _ _ SB) as (vs & B & L & C & R). eexists. split; [exact R|]. split; [eexists; reflexivity|].
  destruct SB as (O & F & N). destruct (own_inv _ _ O) as (_ & _ & _ & K & _).
  assert (VN : vs <> []) by (intros ->; destruct (s_runs s); [congruence|discriminate L]).
  unfold read_station. rewrite first_seen_same by exact VN. rewrite pop_list_left.
  - cbn [bindR fst snd fields_of]. rewrite vals_same, C. cbn [bindR]. unfold without. cbn [filter]. destruct (text_dec (txt "run") (txt "run")); [|congruence]. unfold left_over. cbn [map]. rewrite app_nil_r. reflexivity.
  - repeat constructor. intros [].
  - rewrite <- K. exact N.
  - left. reflexivity.
  - destruct vs; [congruence|]. left. reflexivity.
  - rewrite map_map. cbn [snd]. rewrite map_id. exact B.
Qed.
Lemma read_station_without s s' : station_back s s' -> s_runs s = [] -> exists v, read (station_xml s) = Ok v /\ is_dict v /\ read_station v = Err KeyError.
Proof.
  intros SB E. destruct (station_value _ _ SB) as (vs & B & L & C & R). eexists. split; [exact R|]. split; [eexists; reflexivity|]. rewrite E in L. destruct vs; [|discriminate L].
  destruct SB as (O & F & N). destruct (own_inv _ _ O) as (_ & _ & _ & K & _). unfold read_station. rewrite pop_list_missing; [reflexivity|rewrite <- K; exact N|intros []].
Qed.
