(** C137: the channels of an AVG object. *)
From Verif Require Import PyBase PyText TextFacts TxlModel TxlSpec TxlProofs ZchModel ZchSpec.
From Coq Require Import Lia.
Local Open Scope list_scope.

Section C137.
Variables (num : Type) (read : text -> option num) (turned : num -> num).
Notation header := (header num). Notation comp := (comp num).
Notation run_channels := (run_channels num read turned).
Notation hz_metadata := (hz_metadata num read).
Notation ex_metadata := (ex_metadata num read).

Lemma component_get : forall (h : header) c k, component_is num h c k -> dget text_dec c (h_comps num h) = Some k.
Proof.
  intros h c k (l1 & l2 & -> & Hn). induction l1 as [|[a x] l1 IH]; cbn in *.
  - destruct (text_dec c c); congruence.
  - destruct (text_dec c a) as [<-|]; [exfalso; apply Hn; now left|]. apply IH. intros K. apply Hn. now right.
Qed.
Lemma get_component : forall (h : header) c k, dget text_dec c (h_comps num h) = Some k -> component_is num h c k.
Proof.
  intros h c k E. unfold component_is. induction (h_comps num h) as [|[a x] l IH]; [discriminate|]. cbn in E. destruct (text_dec c a) as [<-|Hn].
  - injection E as ->. exists [], l. split; [reflexivity|intros []].
  - destruct (IH E) as (l1 & l2 & -> & H1). exists ((a, x) :: l1), l2. split; [reflexivity|]. cbn. intros [K|K]; [now apply Hn|now apply H1].
Qed.
Lemma absent_component : forall (h : header) c, ~ In c (map fst (h_comps num h)) -> dget text_dec c (h_comps num h) = None.
Proof.
  intros h c Hn. induction (h_comps num h) as [|[a x] l IH]; [reflexivity|]. cbn in *. destruct (text_dec c a) as [<-|]; [exfalso; apply Hn; now left|].
  apply IH. intros K. apply Hn. now right.
Qed.
Lemma described_has : forall (h : header) c, described num h -> has_channel num h c = true.
Proof. intros h c (k & Hk & Hc). unfold has_channel. rewrite (component_get _ _ _ Hk). now destruct (k_cmp num k). Qed.
Lemma not_described_has : forall (h : header) c, ~ described num h -> has_channel num h c = false.
Proof.
  intros h c H. unfold has_channel. destruct (dget text_dec (txt "zxx") (h_comps num h)) as [k|] eqn:E; [|reflexivity].
  pose proof (get_component _ _ _ E) as K.
  destruct (k_cmp num k) eqn:Ec; [reflexivity| |]; exfalso; apply H; exists k; (split; [exact K|rewrite Ec; discriminate]).
Qed.
Lemma has_in : forall l c, In c l -> has l c = true.
Proof. intros l c H. unfold has. now destruct (in_dec text_dec c l). Qed.
Lemma has_not : forall l c, ~ In c l -> has l c = false.
Proof. intros l c H. unfold has. now destruct (in_dec text_dec c l). Qed.

(** A file that describes its components: four channels, each with the angles, the number and the length of its own sensor. *)
Theorem C137_channels : forall (h : header) cs kxy kyx ex hy ey hx,
  described num h -> component_is num h (txt "zxy") kxy -> component_is num h (txt "zyx") kyx ->
  describes num read kxy ex hy -> describes num read kyx ey hx ->
  In (txt "zxy") cs \/ In (txt "zxxr") cs -> ~ In (txt "tzx") cs -> ~ In (txt "rxxr") cs ->
  exists c1 c2 c3 c4, run_channels h cs = Ok [c1; c2; c3; c4] /\
    oriented num c1 Ex ex /\ c_id num c1 = s_number num ex /\ c_length num c1 = Some (k_length num kxy) /\
    oriented num c2 Ey ey /\ c_id num c2 = s_number num ey /\ c_length num c2 = Some (k_length num kyx) /\
    oriented num c3 Hx hx /\ c_id num c3 = txt "1" /\ c_sensor num c3 = Some (s_number num hx) /\
    oriented num c4 Hy hy /\ c_id num c4 = txt "2" /\ c_sensor num c4 = Some (s_number num hy) /\
    c_timed num c1 = true /\ c_timed num c2 = true /\ c_timed num c3 = true /\ c_timed num c4 = true.
Proof.
  intros h cs kxy kyx ex hy ey hx Hd Hxy Hyx (a1 & a2 & i1 & i2 & [r1 E1] & E2 & E3 & [r2 E4] & E5 & E6 & [r3 E7])
    (b1 & b2 & j1 & j2 & [q1 F1] & F2 & F3 & [q2 F4] & F5 & F6 & [q3 F7]) Hin Ht Hr.
  unfold ZchModel.run_channels.
  assert (K : (has cs (txt "zxy") || has cs (txt "zxxr"))%bool = true).
  { destruct Hin as [H|H]; rewrite (has_in _ _ H); [reflexivity|apply orb_true_r]. }
  rewrite K, (has_not _ _ Ht), (has_not _ _ Hr). unfold ZchModel.ex_metadata, ZchModel.ey_metadata, ZchModel.hx_metadata, ZchModel.hy_metadata, electric, magnetic.
  rewrite !described_has by exact Hd. unfold comp_of. rewrite !(component_get _ _ _ Hxy), !(component_get _ _ _ Hyx).
  cbn [bindR]. unfold number_at. rewrite E1, E4, E7, F1, F4, F7. cbn [at_ nth_error bindR].
  rewrite E2, E3, E5, E6, F2, F3, F5, F6. cbn [bindR orb]. 
  do 4 eexists. split; [reflexivity|]. repeat split.
Qed.

(** A file that does not: the orientation of the whole array, ninety degrees more in the direction of y. *)
Theorem C137_plain : forall (h : header) cs a r, ~ described num h -> h_hpr num h = a :: r ->
  In (txt "zxy") cs \/ In (txt "zxxr") cs -> ~ In (txt "tzx") cs -> ~ In (txt "rxxr") cs ->
  exists c1 c2 c3 c4, run_channels h cs = Ok [c1; c2; c3; c4] /\
    at_angle num c1 Ex a (txt "4") /\ c_length num c1 = Some (h_length num h) /\
    at_angle num c2 Ey (turned a) (txt "5") /\ c_length num c2 = Some (h_length num h) /\
    at_angle num c3 Hx a (txt "1") /\ at_angle num c4 Hy (turned a) (txt "2").
Proof.
  intros h cs a r Hd Ha Hin Ht Hr. unfold ZchModel.run_channels.
  assert (K : (has cs (txt "zxy") || has cs (txt "zxxr"))%bool = true).
  { destruct Hin as [H|H]; rewrite (has_in _ _ H); [reflexivity|apply orb_true_r]. }
  rewrite K, (has_not _ _ Ht), (has_not _ _ Hr). unfold ZchModel.ex_metadata, ZchModel.ey_metadata, ZchModel.hx_metadata, ZchModel.hy_metadata, electric, magnetic.
  rewrite !not_described_has by exact Hd. rewrite Ha. cbn [hpr_at nth_error bindR orb].
  do 4 eexists. split; [reflexivity|]. repeat split.
Qed.
(** With a tipper there is a fifth channel, at the last angle of the array. *)
Theorem C137_tipper : forall (h : header) cs l a, ~ described num h -> h_hpr num h = l ++ [a] -> In (txt "tzx") cs \/ In (txt "rxxr") cs ->
  ~ In (txt "zxy") cs -> ~ In (txt "zxxr") cs ->
  exists c, run_channels h cs = Ok [c] /\ at_angle num c Hz a (txt "3").
Proof.
  intros h cs l a Hd Ha Hin Ht Hr. unfold ZchModel.run_channels.
  assert (K : (has cs (txt "tzx") || has cs (txt "rxxr"))%bool = true).
  { destruct Hin as [H|H]; rewrite (has_in _ _ H); [reflexivity|apply orb_true_r]. }
  rewrite K, (has_not _ _ Ht), (has_not _ _ Hr). cbn [orb bindR]. unfold ZchModel.hz_metadata. rewrite not_described_has by exact Hd.
  rewrite Ha, rev_app_distr. cbn [rev app bindR]. eexists. split; [reflexivity|]. repeat split.
Qed.
(** No impedance and no tipper: no channel.  No orientation of the array: IndexError. *)
Theorem C137_none : forall (h : header) cs, ~ In (txt "zxy") cs -> ~ In (txt "zxxr") cs -> ~ In (txt "tzx") cs -> ~ In (txt "rxxr") cs ->
  run_channels h cs = Ok [].
Proof. intros h cs H1 H2 H3 H4. unfold ZchModel.run_channels. now rewrite !has_not by assumption. Qed.
Theorem C137_no_orientation : forall (h : header) cs, ~ described num h -> h_hpr num h = [] ->
  In (txt "zxy") cs \/ In (txt "zxxr") cs -> run_channels h cs = Err IndexError.
Proof.
  intros h cs Hd Ha Hin. unfold ZchModel.run_channels.
  assert (K : (has cs (txt "zxy") || has cs (txt "zxxr"))%bool = true).
  { destruct Hin as [H|H]; rewrite (has_in _ _ H); [reflexivity|apply orb_true_r]. }
  rewrite K. unfold ZchModel.ex_metadata, electric. rewrite not_described_has by exact Hd. now rewrite Ha.
Qed.

(** Refuted: one value instead of two, and its first character is the angle. *)
Theorem C137_single_refuted : forall (h : header) k c s x i1 n1 ri rn y, described num h -> component_is num h (txt "zxy") k ->
  k_azimuth num k = OText (c :: s) -> read [c] = Some x -> k_incl num k = OList (i1 :: ri) -> read i1 = Some y -> k_number num k = OList (n1 :: rn) ->
  exists ch, ex_metadata h = Ok ch /\ c_azimuth num ch = Some x.
Proof.
  intros h k c s x i1 n1 ri rn y Hd Hk Ha Hx Hi Hy Hn. unfold ZchModel.ex_metadata, electric. rewrite described_has by exact Hd.
  unfold comp_of. rewrite (component_get _ _ _ Hk). cbn [bindR]. unfold number_at. rewrite Ha, Hi, Hn. cbn [at_ nth_error bindR].
  rewrite Hx, Hy. cbn [bindR]. eexists. split; reflexivity.
Qed.
(** Refuted: a file that describes zxx but not zxy raises KeyError ... *)
Theorem C137_missing_refuted : forall (h : header), described num h -> ~ In (txt "zxy") (map fst (h_comps num h)) -> ex_metadata h = Err KeyError.
Proof.
  intros h Hd Hn. unfold ZchModel.ex_metadata, electric. rewrite described_has by exact Hd. unfold comp_of.
  now rewrite absent_component by exact Hn.
Qed.
(** ... and without zxx what it says of zxy is not used. *)
Theorem C137_zxx_refuted : forall (h : header) k e m a r, ~ described num h -> component_is num h (txt "zxy") k -> describes num read k e m ->
  h_hpr num h = a :: r -> exists ch, ex_metadata h = Ok ch /\ c_azimuth num ch = Some a /\ c_length num ch = Some (h_length num h).
Proof.
  intros h k e m a r Hd _ _ Ha. unfold ZchModel.ex_metadata, electric. rewrite not_described_has by exact Hd. rewrite Ha. cbn. eexists. repeat split.
Qed.
(** Refuted: whatever the texts of the file are, the vertical channel gets no angle and no sensor of them. *)
Theorem C137_hz_refuted : forall show (h : header) k taz tinc tnum, described num h -> component_is num h (txt "tzx") k ->
  validate show ZongeCh (GText taz) = Ok (k_azimuth num k) -> validate show ZongeCh (GText tinc) = Ok (k_incl num k) ->
  validate show ZongeCh (GText tnum) = Ok (k_number num k) ->
  exists ch, hz_metadata h = Ok ch /\ c_azimuth num ch = None /\ c_tr_azimuth num ch = None /\ c_tilt num ch = None /\
    c_tr_tilt num ch = None /\ c_sensor num ch = None.
Proof.
  intros show h k taz tinc tnum Hd Hk H1 H2 H3.
  assert (A : forall t o, validate show ZongeCh (GText t) = Ok o -> second o = Ok None).
  { intros t o Ht. cbn [validate] in Ht. destruct (has_char "," t) eqn:Ec.
    - assert (C : forall x, In x (filter nonempty (cut t)) -> ~ In ","%char x).
      { intros x Hx. apply filter_In in Hx. destruct Hx as [Hx _]. pose proof (cut_clean t) as F. rewrite Forall_forall in F. now apply F. }
      destruct (filter nonempty (cut t)) as [|x [|y l]]; injection Ht as <-; [reflexivity| |].
      + cbn [second]. assert (E : has_char "," x = false) by (apply has_char_notIn; apply C; now left). now rewrite E.
      + cbn [second]. destruct (in_dec text_dec (txt ",") (x :: y :: l)) as [K|K]; [|reflexivity]. exfalso. apply (C _ K). now left.
    - injection Ht as <-. cbn [second]. now rewrite Ec. }
  unfold ZchModel.hz_metadata. rewrite described_has by exact Hd. unfold comp_of. rewrite (component_get _ _ _ Hk). cbn [bindR].
  rewrite (A _ _ H1), (A _ _ H2), (A _ _ H3). cbn. eexists. repeat split.
Qed.
End C137.

(** Concrete cases: a number is its text. *)
Definition rd (s : text) : option text := Some s.
Definition tu (s : text) : text := s ++ txt "+90".
Definition kk (a b : string) : comp text := mkComp text (txt "100") (OList [txt "ex"; txt "hx"]) (OList [txt a; txt b]) (OList [txt "0"; txt "1"]) (OList [txt "22"; txt "2374"]).
Definition hh : header text := mkHeader text [(txt "zxx", kk "11" "11"); (txt "zxy", kk "11" "101"); (txt "zyx", kk "101" "11"); (txt "tzx", kk "0" "11")] (txt "50") [txt "7"; txt "0"; txt "180"] true.
Definition hp : header text := mkHeader text [] (txt "50") [txt "7"; txt "0"; txt "180"] true.
Example C137_channels_hyp : described text hh /\ component_is text hh (txt "zxy") (kk "11" "101") /\ component_is text hh (txt "zyx") (kk "101" "11") /\
  describes text rd (kk "11" "101") (mkSensors text (txt "11") (txt "0") (txt "22")) (mkSensors text (txt "101") (txt "1") (txt "2374")).
Proof.
  split; [|split; [|split]].
  - exists (kk "11" "11"). split; [|discriminate]. eexists [], _. split; [reflexivity|intros []].
  - eexists [_], _. split; [reflexivity|]. intros [K|[]]; discriminate.
  - eexists [_; _], _. split; [reflexivity|]. intros [K|[K|[]]]; discriminate.
  - exists (txt "11"), (txt "101"), (txt "0"), (txt "1"). repeat split; eexists; reflexivity.
Qed.
Example C137_plain_hyp : ~ described text hp /\ h_hpr text hp = [txt "7"; txt "0"] ++ [txt "180"].
Proof. split; [|reflexivity]. intros (k & (l1 & l2 & E & _) & _). destruct l1; discriminate. Qed.
Example C137_hz_hyp : forall show, validate show ZongeCh (GText (txt "0,11")) = Ok (k_azimuth text (kk "0" "11")) /\
  exists ch, ZchModel.hz_metadata text rd hh = Ok ch /\ c_azimuth text ch = None.
Proof. intros show. split; [reflexivity|]. eexists. split; reflexivity. Qed.
Print Assumptions C137_channels. Print Assumptions C137_hz_refuted.
