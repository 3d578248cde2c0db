(** C122: the channels that an EDI object reports. *)
From Coq Require Import QArith Reals Lra.
From Verif Require Import PyBase PyFacts PyText TextFacts PyFloat PyFloatFacts LayModel ZmmModel ZmmProofs EdnModel EdnSpec EdnProofs EchModel EchSpec EchProofs EchProofs2.
From Coq Require Import Lia.
Local Open Scope list_scope.

(** ** What is in the notes about a component *)
Section About.
Variables (comp : text) (rs : list erun) (d0 : notes) (o : ediobj) (rid : text) (c : chan).
Hypothesis ND : ~ In "."%char comp.
Hypothesis T : tidy comp rs.
Hypothesis QT : quiet comp d0.
Hypothesis O : only comp rs rid c.
Hypothesis E : set_runs rs (d0, []) = Ok o.

Lemma only_in x : In x (channels_of rs) -> c_component (snd x) = comp -> x = (rid, c).
Proof.
  destruct O as (_ & l1 & l2 & Ex & H). intros I Ec. rewrite Ex in I. apply in_app_or in I. destruct I as [I|[I|I]]; [|congruence|];
  (exfalso; apply (H x); [apply in_or_app; auto|exact Ec]).
Qed.
Lemma the_channel : In (rid, c) (channels_of rs).
Proof. destruct O as (_ & l1 & l2 & Ex & _). rewrite Ex. apply in_or_app. right. left. reflexivity. Qed.
Lemma the_run : ~ In "."%char rid /\ apart comp rid.
Proof.
  pose proof the_channel as H. apply in_flat_map in H. destruct H as (r & Hr & H). apply in_map_iff in H. destruct H as (c' & Ec & _). injection Ec as <- _.
  destruct T as (H1 & _). destruct (H1 r Hr) as (A & B & _). split; assumption.
Qed.
Lemma about k v : In (k, v) (fst o) -> apart comp k \/ exists f, k = rid ++ txt "." ++ comp ++ txt "." ++ f /\ noted c f v.
Proof.
  intros H. apply set_runs_writes in E. rewrite E in H. cbn [fst] in H. apply In_dupdate in H. destruct H as [H|H]; [left; exact (QT k v H)|].
  apply in_runs_writes in H. destruct T as (H1 & H2). destruct H as [(r & f & Hr & Hf & G & ->)|(x & f & Hx & N & ->)].
  - left. destruct (H1 r Hr) as (_ & A & F). apply apart_key2; [exact ND|exact A|exact (F f v Hf)].
  - destruct (text_dec (c_component (snd x)) comp) as [Q|Q].
    + right. exists f. pose proof (only_in x Hx Q) as Ex. subst x. cbn [fst snd] in *. rewrite Q. split; [reflexivity|exact N].
    + left. destruct (H2 x Hx) as (_ & [A|A] & F); [congruence|]. apply apart_key; [exact ND| |exact A|].
      * apply in_flat_map in Hx. destruct Hx as (r & Hr & Hx). apply in_map_iff in Hx. destruct Hx as (c' & <- & _). exact (proj1 (proj2 (H1 r Hr))).
      * destruct N as (N & _). exact (proj1 (F f v N)).
Qed.
Lemma key_mentions f : ~ apart comp (rid ++ txt "." ++ comp ++ txt "." ++ f).
Proof. intros A. apply A. exists (rid ++ txt "."), (f ++ txt "."). rewrite <- !app_assoc. reflexivity. Qed.
Hypothesis NF : NoDup (map fst (c_fields c)).
Lemma noted_one f v v' : noted c f v -> noted c f v' -> v' = v.
Proof.
  intros (H & _) (H' & _). pose proof (In_dget text_dec _ _ _ NF H) as A. pose proof (In_dget text_dec _ _ _ NF H') as B. congruence.
Qed.
Lemma noted_in f v : noted c f v -> In (rid ++ txt "." ++ comp ++ txt "." ++ f, v) (fst o).
Proof.
  intros N. pose proof E as E'. apply set_runs_writes in E'. cbn [fst] in E'. apply (dget_In text_dec). rewrite E'. apply dupdate_one.
  - apply in_runs_writes. right. exists (rid, c), f. split; [exact the_channel|]. split; [exact N|]. cbn [fst snd]. rewrite (proj1 O). reflexivity.
  - intros v' H. apply in_runs_writes in H. destruct T as (H1 & H2). destruct H as [(r & f' & Hr & Hf & G & Ek)|(x & f' & Hx & N' & Ek)].
    + exfalso. apply (key_mentions f). rewrite Ek. destruct (H1 r Hr) as (_ & A & F). apply apart_key2; [exact ND|exact A|exact (F f' v' Hf)].
    + destruct (text_dec (c_component (snd x)) comp) as [Q|Q].
      * pose proof (only_in x Hx Q) as Ex. subst x. cbn [fst snd] in *. rewrite Q in Ek. do 4 apply app_inv_head in Ek. subst f'. exact (noted_one f v v' N N').
      * exfalso. apply (key_mentions f). rewrite Ek. destruct (H2 x Hx) as (_ & [A|A] & F); [congruence|]. apply apart_key; [exact ND| |exact A|].
        { apply in_flat_map in Hx. destruct Hx as (r & Hr & Hx). apply in_map_iff in Hx. destruct Hx as (c' & <- & _). exact (proj1 (proj2 (H1 r Hr))). }
        { destruct N' as (N' & _). exact (proj1 (F f' v' N')). }
Qed.
Lemma field_ok f v : noted c f v -> apart comp f /\ no_blank f.
Proof. intros (H & _). destruct T as (_ & H2). exact (proj2 (proj2 (H2 _ the_channel)) f v H). Qed.

(** One note and one attribute, for the two loops over the notes *)
Lemma channel_note_effect g x b : In x (fst o) -> dget text_dec g (channel_note comp b x) = dget text_dec g b \/ exists v, noted c g v /\ dget text_dec g (channel_note comp b x) = Some (CNote v).
Proof.
  destruct x as [k v]. intros H. unfold channel_note. cbn [fst snd]. destruct (contains (txt ".type") k); [left; reflexivity|].
  destruct (about k v H) as [A|(f & -> & N)].
  - rewrite apart_after by exact A. left. reflexivity.
  - rewrite own_after by exact (proj1 the_run). destruct (text_dec f g) as [<-|Nf].
    + right. exists v. split; [exact N|]. apply dget_dset_eq.
    + left. apply dget_dset_neq. congruence.
Qed.
Lemma channel_note_own f v b : noted c f v -> contains (txt ".type") (rid ++ txt "." ++ comp ++ txt "." ++ f) = false ->
  dget text_dec f (channel_note comp b (rid ++ txt "." ++ comp ++ txt "." ++ f, v)) = Some (CNote v).
Proof. intros N Ct. unfold channel_note. cbn [fst snd]. rewrite Ct, own_after by exact (proj1 the_run). apply dget_dset_eq. Qed.
End About.

Lemma not_set g k v (a : attrs) : g <> txt k -> dget text_dec g (setc k v a) = dget text_dec g a.
Proof. intros N. unfold setc. apply dget_dset_neq. congruence. Qed.
Lemma electrode_note_other comp g b x : ~ In g (map txt ["positive.manufacturer"; "negative.manufacturer"; "positive.type"; "negative.type"]%string) ->
  dget text_dec g (electrode_note comp b x) = dget text_dec g b.
Proof.
  intros N. unfold electrode_note. destruct (word_after comp (fst x)) as [key|]; [|reflexivity].
  assert (H : forall s, In s ["positive.manufacturer"; "negative.manufacturer"; "positive.type"; "negative.type"]%string -> g <> txt s) by (intros s I ->; apply N, in_map, I).
  destruct (text_eqb key (txt "type")), (text_eqb key (txt "manufacturer")); repeat rewrite not_set by (apply H; cbn; tauto); reflexivity.
Qed.
Lemma digits_nat n : (0 <= n)%Z -> filter is_digit (show_nat n) = show_nat n.
Proof.
  intros P. assert (H : forall x, In x (show_nat n) -> is_digit x = true).
  { intros x I. pose proof (show_nat_digits n P) as D. rewrite forallb_forall in D. exact (D x I). }
  revert H. generalize (show_nat n). induction t as [|x t IH]; intros H; [reflexivity|]. cbn. rewrite (H x (or_introl eq_refl)). f_equal. apply IH. intros y I. apply H. right. exact I.
Qed.
Lemma number_back n : channel_number (show_int n) = Z.abs n.
Proof.
  unfold channel_number. destruct (Z.ltb_spec n 0) as [L|L].
  - assert (S : show_int n = "-"%char :: show_nat (- n)) by (unfold show_int; destruct (Z.ltb_spec n 0); [reflexivity|lia]). rewrite S.
    cbn [filter]. replace (is_digit "-") with false by reflexivity. rewrite digits_nat by lia.
    assert (S2 : show_nat (- n) = show_int (- n)) by (unfold show_int; destruct (Z.ltb_spec (- n) 0); [lia|reflexivity]). rewrite S2, read_int_show. lia.
  - assert (S : show_int n = show_nat n) by (unfold show_int; destruct (Z.ltb_spec n 0); [lia|reflexivity]). rewrite S, digits_nat by lia. rewrite <- S, read_int_show. lia.
Qed.

(** What the measurement of the only channel of a component is *)
Lemma measured comp rs d0 o rid c : lower comp = comp -> only comp rs rid c -> (forall x, In x (channels_of rs) -> lower (c_component (snd x)) = c_component (snd x)) ->
  set_runs rs (d0, []) = Ok o -> exists m0 m1, from_metadata c m0 = Ok m1 /\ dget text_dec comp (snd o) = dget text_dec comp m1 /\ dget text_dec comp m0 = None.
Proof.
  intros Lc (Ec & l1 & l2 & Ex & H) LL E. apply set_runs_measure in E. cbn [snd] in E. rewrite Ex, map_app in E. cbn [map snd] in E.
  assert (N : forall x, In x (map snd l1 ++ map snd l2) -> lower (c_component x) <> lower (c_component c)).
  { intros x I. rewrite <- map_app in I. apply in_map_iff in I. destruct I as (y & <- & I). rewrite LL by (rewrite Ex; apply in_app_or in I; apply in_or_app; cbn; tauto).
    rewrite Ec, Lc. exact (H y I). }
  destruct (measure_only _ _ _ _ E N) as (m0 & m1 & A & B & C). rewrite Ec, Lc in B, C. exists m0, m1. auto.
Qed.
Lemma to_float_id id x : to_float id = Ok x -> id_number id x.
Proof. unfold to_float, id_number. destruct id as [s|]; [|congruence]. destruct (read_float s); congruence. Qed.
Lemma zero_spec x : zero x = true -> x = 0%R.
Proof. unfold zero. destruct (Req_EM_T x 0); [auto|discriminate]. Qed.
Lemma type_in_key rid comp f : ~ In "."%char rid -> begins (txt "e") comp -> ~ In "."%char comp -> ~ mentions (txt ".type") (txt "." ++ f) ->
  contains (txt ".type") (rid ++ txt "." ++ comp ++ txt "." ++ f) = false.
Proof.
  intros N (r & Eb) Nc H. destruct (contains (txt ".type") (rid ++ txt "." ++ comp ++ txt "." ++ f)) eqn:C; [|reflexivity]. exfalso.
  apply contains_spec in C. destruct C as (a & b & E). cbn [txt String.list_ascii_of_string app] in *.
  apply app_eq_app in E. destruct E as (l & [(E1 & E2)|(E1 & E2)]).
  - destruct l as [|x l]; [cbn [app] in E2; injection E2 as E2; rewrite Eb in E2; discriminate|]. injection E2 as <- _. apply N. rewrite E1. apply in_or_app. right. left. reflexivity.
  - destruct l as [|x l]; [cbn [app] in E2; injection E2 as E2; rewrite Eb in E2; discriminate|]. injection E2 as <- E2.
    apply app_eq_app in E2. destruct E2 as (m & [(F1 & F2)|(F1 & F2)]).
    + destruct m as [|y m]; [cbn [app] in F2; apply H; exists [], b; cbn [app]; exact (eq_sym F2)|]. injection F2 as <- _. apply Nc. rewrite F1. apply in_or_app. right. left. reflexivity.
    + apply H. exists m, b. exact F2.
Qed.

(** ** The electric channels *)
Lemma electric_name comp : electric_component comp -> lower comp = comp /\ ~ In "."%char comp /\ begins (txt "e") comp /\ has_char "e" comp = true.
Proof. intros [->| ->]; (repeat split; [cbn; intuition discriminate|eexists; reflexivity]). Qed.
Lemma small_components_lower rs : small_components rs -> forall x, In x (channels_of rs) -> lower (c_component (snd x)) = c_component (snd x).
Proof. intros H x I. apply small_lower. exact (H x I). Qed.
(** The position of the electrodes, and every given field that is written in the notes *)
Theorem C122_electric comp rs d0 o rid c :
  electric_component comp -> small_components rs -> tidy comp rs -> quiet comp d0 -> only comp rs rid c -> NoDup (map fst (c_fields c)) ->
  set_runs rs (d0, []) = Ok o ->
  exists a, get_electric comp o = Ok a /\
    reports a "negative.x" (CReal (coordinate (c_x c))) /\ reports a "negative.y" (CReal (coordinate (c_y c))) /\
    reports a "positive.x2" (CReal (coordinate (c_x2 c))) /\ reports a "positive.y2" (CReal (coordinate (c_y2 c))) /\
    (forall f v, noted c f v -> ~ mentions (txt ".type") (txt "." ++ f) -> dget text_dec f a = Some (CNote v)) /\
    (forall f, ~ In f (map txt ["positive.manufacturer"; "negative.manufacturer"; "positive.type"; "negative.type"]%string) -> (forall v, ~ noted c f v) ->
       forall n e l, n = (coordinate (c_x2 c) - coordinate (c_x c))%R -> e = (coordinate (c_y2 c) - coordinate (c_y c))%R -> has_length l n e ->
       (f = txt "dipole_length" -> dget text_dec f a = Some (CReal l)) /\
       ((f = txt "measurement_azimuth" \/ f = txt "translated_azimuth") -> exists z, has_angle z l n e /\ dget text_dec f a = Some (CReal z)) /\
       (f = txt "channel_number" -> dget text_dec f a = Some (CInt (Z.abs (c_number c)))) /\
       (f = txt "channel_id" -> exists x, id_number (c_id c) x /\ dget text_dec f a = Some (CId x))).
Proof.
  intros EC SC T QT O NF E. destruct (electric_name _ EC) as (Lc & ND & Be & He).
  destruct (measured comp rs d0 o rid c Lc O (small_components_lower _ SC) E) as (m0 & m1 & Fm & Dm & _).
  pose proof (proj1 O) as Ec. unfold from_metadata in Fm. rewrite Ec, He in Fm. destruct (c_kind c); try discriminate.
  destruct (to_float (c_id c)) as [id|er] eqn:Ei; cbn [bindR] in Fm; [|discriminate]. destruct (chtype_ok _ _); [|discriminate]. injection Fm as <-. rewrite Lc, dget_dset_eq in Dm.
  unfold get_electric. rewrite Lc. set (a0 := setc "negative.type" _ _). rewrite Dm. cbv zeta.
  change or_zero with coordinate in *. set (x := coordinate (c_x c)) in *. set (y := coordinate (c_y c)) in *. set (x2 := coordinate (c_x2 c)) in *. set (y2 := coordinate (c_y2 c)) in *.
  set (a6 := setc "positive.y2" _ (setc "negative.y" _ _)). set (a7 := fold_left (electrode_note comp) (fst o) a6). set (a8 := if zero x2 && _ && _ && _ then _ else _).
  eexists. split; [reflexivity|]. set (a := fold_left (channel_note comp) (fst o) a8).
  assert (P7 : forall g, ~ In g (map txt ["positive.manufacturer"; "negative.manufacturer"; "positive.type"; "negative.type"]%string) -> dget text_dec g a7 = dget text_dec g a6).
  { intros g N. unfold a7. apply fold_same. intros kv b _. apply electrode_note_other. exact N. }
  assert (P8 : dget text_dec (txt "positive.x2") a8 = Some (CReal x2) /\ dget text_dec (txt "positive.y2") a8 = Some (CReal y2) /\
               (forall g, g <> txt "positive.x2" -> g <> txt "positive.y2" -> dget text_dec g a8 = dget text_dec g a7)).
  { unfold a8. destruct (zero x2 && zero y2 && zero x && zero y) eqn:Z.
    - apply andb_prop in Z. destruct Z as [Z Z4]. apply andb_prop in Z. destruct Z as [Z Z3]. apply andb_prop in Z. destruct Z as [Z1 Z2].
      apply zero_spec in Z1, Z2, Z3, Z4. rewrite Z1, Z2, Z3, Z4.
      assert (L0 : dipole_length 0 0 0 0 = 0%R) by (unfold dipole_length; replace ((0 - 0) * (0 - 0) + (0 - 0) * (0 - 0))%R with 0%R by ring; apply sqrt_0).
      rewrite L0, !Rmult_0_l. split; [rewrite not_set by discriminate; apply dget_dset_eq|]. split; [apply dget_dset_eq|]. intros g G1 G2. rewrite !not_set by assumption. reflexivity.
    - split; [rewrite P7 by (cbn; intuition discriminate); reflexivity|]. split; [rewrite P7 by (cbn; intuition discriminate); reflexivity|reflexivity]. }
  destruct P8 as (P8x & P8y & P8).
  assert (PA : forall g, (forall v, ~ noted c g v) -> dget text_dec g a = dget text_dec g a8).
  { intros g Ng. unfold a. apply fold_same. intros kv b I. destruct (channel_note_effect comp rs d0 o rid c ND T QT O E g kv b I) as [Q|(v & N & _)]; [exact Q|exfalso; exact (Ng v N)]. }
  assert (SK : forall g, In g not_noted -> forall v, ~ noted c g v) by (intros g I v (_ & _ & N); exact (N I)).
  unfold reports.
  assert (P : forall g, In g not_noted -> g <> txt "positive.x2" -> g <> txt "positive.y2" -> ~ In g (map txt ["positive.manufacturer"; "negative.manufacturer"; "positive.type"; "negative.type"]%string) -> dget text_dec g a = dget text_dec g a6).
  { intros g I G1 G2 G3. rewrite PA by (exact (SK g I)). rewrite P8 by assumption. apply P7. exact G3. }
  split; [rewrite P; [reflexivity|cbn; tauto|discriminate|discriminate|cbn; intuition discriminate]|].
  split; [rewrite P; [reflexivity|cbn; tauto|discriminate|discriminate|cbn; intuition discriminate]|].
  split; [rewrite PA by (apply SK; cbn; tauto); exact P8x|].
  split; [rewrite PA by (apply SK; cbn; tauto); exact P8y|].
  split.
  - intros f v N NT. unfold a. apply (fold_found _ f (CNote v) (fst o) (rid ++ txt "." ++ comp ++ txt "." ++ f, v)).
    + exact (noted_in comp rs d0 o rid c ND T O E NF f v N).
    + intros b. apply (channel_note_own comp rs rid c T O); [exact N|]. apply type_in_key; [exact (proj1 (the_run comp rs rid c T O))|exact Be|exact ND|exact NT].
    + intros kv b I. destruct (channel_note_effect comp rs d0 o rid c ND T QT O E f kv b I) as [Q|(v' & N' & Q)]; [left; exact Q|right]. rewrite Q. rewrite (noted_one c NF f v v' N N'). reflexivity.
  - intros f Nm Nn n e l -> -> HL.
    assert (El : l = dipole_length x y x2 y2).
    { destruct HL as (L1 & L2). destruct (length_spec x y x2 y2) as (L3 & L4). rewrite <- L4 in L2. apply Rsqr_inj; [exact L1|exact L3|exact L2]. }
    assert (R6 : f <> txt "positive.x2" -> f <> txt "positive.y2" -> dget text_dec f a = dget text_dec f a6) by (intros G1 G2; rewrite PA by exact Nn; rewrite P8 by assumption; apply P7; exact Nm).
    repeat split.
    + intros ->. rewrite R6 by discriminate. rewrite El. reflexivity.
    + intros [->| ->]; (rewrite R6 by discriminate; exists (azimuth x y x2 y2); split; [rewrite El; apply azimuth_spec|reflexivity]).
    + intros ->. rewrite R6 by discriminate. rewrite <- number_back. reflexivity.
    + intros ->. rewrite R6 by discriminate. exists id. split; [apply to_float_id; exact Ei|reflexivity].
Qed.

(** ** The magnetic channels *)
Lemma magnetic_name comp : magnetic_component comp -> lower comp = comp /\ ~ In "."%char comp /\ has_char "e" comp = false /\ has_char "h" comp = true.
Proof. intros H. unfold magnetic_component in H. cbn in H. destruct H as [<-|[<-|[<-|[<-|[<-|[]]]]]]; (repeat split; cbn; intuition discriminate). Qed.
Lemma translated_kept c : given_azimuth c = coordinate (c_translated c).
Proof. unfold given_azimuth, same_angle. destruct (c_azimuth c) as [p|], (c_translated c) as [q|]; try reflexivity. destruct (Req_EM_T p q); [subst; reflexivity|reflexivity]. Qed.
Lemma sensor_note_other comp g b x : ~ begins (txt "sensor.") g -> dget text_dec g (sensor_note comp b x) = dget text_dec g b.
Proof.
  intros N. unfold sensor_note. destruct (word_after comp (fst x)) as [key|]; [|reflexivity].
  assert (H1 : g <> txt "sensor.manufacturer") by (intros ->; apply N; eexists; reflexivity). assert (H2 : g <> txt "sensor.type") by (intros ->; apply N; eexists; reflexivity).
  assert (H3 : prefix_of (txt "sensor.") key = true -> key <> g) by (intros P ->; apply N, prefix_of_spec, P).
  destruct (prefix_of (txt "sensor.") key) eqn:P; [rewrite dget_dset_neq by (pose proof (H3 eq_refl); congruence)|];
  destruct (text_eqb key (txt "type")), (text_eqb key (txt "manufacturer")); repeat rewrite not_set by assumption; reflexivity.
Qed.
Lemma sensor_key comp b key v g : begins (txt "sensor.") g -> g <> txt "sensor.type" -> (g <> txt "sensor.manufacturer" \/ key <> txt "manufacturer") -> forall k, word_after comp k = Some key ->
  dget text_dec g (sensor_note comp b (k, v)) = if text_dec key g then Some (CNote v) else dget text_dec g b.
Proof.
  intros B NT NM k W. unfold sensor_note. cbn [fst snd]. rewrite W. destruct (text_dec key g) as [->|Nk].
  - rewrite (proj2 (prefix_of_spec _ _) B). apply dget_dset_eq.
  - destruct (prefix_of (txt "sensor.") key); [rewrite dget_dset_neq by congruence|];
    (destruct (text_eqb key (txt "type")); [rewrite not_set by exact NT|]; destruct (text_eqb key (txt "manufacturer")) eqn:M; try reflexivity;
     (apply text_eqb_eq in M; destruct NM as [NM|NM]; [rewrite not_set by exact NM; reflexivity|contradiction])).
Qed.
(** The azimuth is the translated one; sensors keep all but their type *)
Theorem C122_magnetic comp rs d0 o rid c :
  magnetic_component comp -> small_components rs -> tidy comp rs -> quiet comp d0 -> only comp rs rid c -> NoDup (map fst (c_fields c)) ->
  set_runs rs (d0, []) = Ok o ->
  exists a x, get_magnetic comp o = Ok a /\
    reports a "measurement_azimuth" (CReal (coordinate (c_translated c))) /\ reports a "translated_azimuth" (CReal (coordinate (c_translated c))) /\
    reports a "location.x" (CReal (coordinate (c_x c))) /\ reports a "location.y" (CReal (coordinate (c_y c))) /\
    reports a "component" (CText comp) /\ reports a "channel_number" (CInt (Z.abs (c_number c))) /\
    id_number (c_id c) x /\ reports a "channel_id" (CId x) /\
    (forall f v, noted c f v -> begins (txt "sensor.") f -> f <> txt "sensor.type" -> (f = txt "sensor.manufacturer" -> forall w, ~ noted c (txt "manufacturer") w) -> dget text_dec f a = Some (CNote v)) /\
    (forall f, ~ In f (map txt ["measurement_azimuth"; "translated_azimuth"; "location.x"; "location.y"; "component"; "channel_number"; "channel_id"]%string) -> ~ begins (txt "sensor.") f -> dget text_dec f a = None).
Proof.
  intros EC SC T QT O NF E. destruct (magnetic_name _ EC) as (Lc & ND & He & Hh).
  destruct (measured comp rs d0 o rid c Lc O (small_components_lower _ SC) E) as (m0 & m1 & Fm & Dm & _).
  pose proof (proj1 O) as Ec. unfold from_metadata in Fm. rewrite Ec, He, Hh in Fm.
  assert (Fm' : exists id, to_float (c_id c) = Ok id /\ m1 = dset text_dec (lower comp) (HMeas (or_zero (c_x c)) (or_zero (c_y c)) (given_azimuth c) comp id (show_int (c_number c))) m0).
  { destruct (to_float (c_id c)) as [id|er] eqn:Ei; [|destruct (c_kind c); discriminate]. exists id. split; [reflexivity|].
    destruct (c_kind c); try discriminate; (cbn [bindR] in Fm; destruct (chtype_ok _ _); [|discriminate]; injection Fm as <-; reflexivity). }
  clear Fm. destruct Fm' as (id & Ei & ->). rewrite Lc, dget_dset_eq in Dm. unfold get_magnetic. rewrite Dm. cbv zeta beta iota. set (a5 := setc "location.y" _ _).
  set (a := fold_left (sensor_note comp) (fst o) a5). exists a, id. split; [reflexivity|].
  assert (P : forall g, ~ begins (txt "sensor.") g -> dget text_dec g a = dget text_dec g a5) by (intros g N; unfold a; apply fold_same; intros kv b _; apply sensor_note_other; exact N).
  assert (NB : forall s : string, (forall r, txt s <> txt "sensor." ++ r) -> ~ begins (txt "sensor.") (txt s)) by (intros s H (r & Q); exact (H r Q)).
  unfold reports. rewrite <- translated_kept.
  split; [rewrite P by (apply NB; intros r; discriminate); reflexivity|]. split; [rewrite P by (apply NB; intros r; discriminate); reflexivity|].
  split; [rewrite P by (apply NB; intros r; discriminate); reflexivity|]. split; [rewrite P by (apply NB; intros r; discriminate); reflexivity|].
  split; [rewrite P by (apply NB; intros r; discriminate); reflexivity|]. split; [rewrite P by (apply NB; intros r; discriminate); rewrite <- number_back; reflexivity|].
  split; [apply to_float_id; exact Ei|]. split; [rewrite P by (apply NB; intros r; discriminate); reflexivity|].
  split.
  - intros f v N B NT NM. unfold a.
    assert (AW : apart comp rid) by exact (proj2 (the_run comp rs rid c T O)).
    assert (W : forall g w, noted c g w -> word_after comp (rid ++ txt "." ++ comp ++ txt "." ++ g) = Some g).
    { intros g w Ng. destruct (field_ok comp rs rid c T O g w Ng) as (A1 & A2). apply own_word; assumption. }
    assert (SKEY : forall key w, noted c key w -> f <> txt "sensor.manufacturer" \/ key <> txt "manufacturer").
    { intros key w Nk. destruct (text_dec f (txt "sensor.manufacturer")) as [Q|Q]; [right|left; exact Q]. intros ->. exact (NM Q w Nk). }
    apply (fold_found _ f (CNote v) (fst o) (rid ++ txt "." ++ comp ++ txt "." ++ f, v)).
    + exact (noted_in comp rs d0 o rid c ND T O E NF f v N).
    + intros b. etransitivity; [exact (sensor_key comp b f v f B NT (SKEY f v N) _ (W f v N))|]. destruct (text_dec f f); [reflexivity|contradiction].
    + intros [k w] b I. destruct (about comp rs d0 o rid c ND T QT O E k w I) as [A|(g & -> & Ng)].
      * left. unfold sensor_note. cbn [fst]. rewrite apart_word by exact A. reflexivity.
      * pose proof (sensor_key comp b g w f B NT (SKEY g w Ng) _ (W g w Ng)) as K. destruct (text_dec g f) as [->|Nf]; [right|left; exact K].
        etransitivity; [exact K|]. rewrite (noted_one c NF f v w N Ng). reflexivity.
  - intros f Nf B. rewrite P by exact B. unfold a5. rewrite !not_set; [|intros ->; first [apply Nf; cbn; tauto|apply B; eexists; reflexivity]..].
    cbn [dget]. destruct (text_dec f (txt "component")) as [->|_]; [exfalso; apply Nf; cbn; tauto|reflexivity].
Qed.

(** The azimuth of the measurement of an electric channel, the one that is written in its line of the file: the translated azimuth, or that of the positions if it is 0 *)
Theorem C122_measurement comp rs d0 o rid c :
  electric_component comp -> small_components rs -> only comp rs rid c -> set_runs rs (d0, []) = Ok o ->
  exists z id, dget text_dec comp (snd o) = Some (EMeas (coordinate (c_x c)) (coordinate (c_y c)) (coordinate (c_x2 c)) (coordinate (c_y2 c)) z comp id (show_int (c_number c))) /\ id_number (c_id c) id /\
    (coordinate (c_translated c) <> 0%R -> z = coordinate (c_translated c)) /\
    (coordinate (c_translated c) = 0%R -> forall l n e, n = (coordinate (c_x2 c) - coordinate (c_x c))%R -> e = (coordinate (c_y2 c) - coordinate (c_y c))%R -> has_length l n e -> has_angle z l n e).
Proof.
  intros EC SC O E. destruct (electric_name _ EC) as (Lc & ND & Be & He).
  destruct (measured comp rs d0 o rid c Lc O (small_components_lower _ SC) E) as (m0 & m1 & Fm & Dm & _).
  pose proof (proj1 O) as Ec. unfold from_metadata in Fm. rewrite Ec, He in Fm. destruct (c_kind c); try discriminate.
  destruct (to_float (c_id c)) as [id|er] eqn:Ei; cbn [bindR] in Fm; [|discriminate]. destruct (chtype_ok _ _); [|discriminate]. injection Fm as <-. rewrite Lc, dget_dset_eq in Dm.
  change or_zero with coordinate in *. eexists. exists id. split; [exact Dm|]. split; [apply to_float_id; exact Ei|]. rewrite translated_kept.
  set (x := coordinate (c_x c)) in *. set (y := coordinate (c_y c)) in *. set (x2 := coordinate (c_x2 c)) in *. set (y2 := coordinate (c_y2 c)) in *. set (t := coordinate (c_translated c)) in *.
  unfold azm_kept. split.
  - intros N. assert (Z : zero t = false) by (unfold zero; destruct (Req_EM_T t 0); [contradiction|reflexivity]). rewrite Z, andb_false_r. reflexivity.
  - intros Zt l n e -> -> (L1 & L2).
    assert (El : l = dipole_length x y x2 y2) by (destruct (length_spec x y x2 y2) as (L3 & L4); rewrite <- L4 in L2; apply Rsqr_inj; [exact L1|exact L3|exact L2]).
    assert (Z : zero t = true) by (unfold zero; destruct (Req_EM_T t 0); [reflexivity|contradiction]). rewrite Z, andb_true_r.
    destruct (zero x && zero y && zero x2 && zero y2) eqn:A; cbn [negb]; [|rewrite El; apply azimuth_spec].
    apply andb_prop in A. destruct A as [A A4]. apply andb_prop in A. destruct A as [A A3]. apply andb_prop in A. destruct A as [A1 A2].
    apply zero_spec in A1, A2, A3, A4. rewrite El, Zt, A1, A2, A3, A4.
    assert (L0 : dipole_length 0 0 0 0 = 0%R) by (unfold dipole_length; replace ((0 - 0) * (0 - 0) + (0 - 0) * (0 - 0))%R with 0%R by ring; apply sqrt_0).
    rewrite L0. unfold has_angle. rewrite !Rmult_0_l. repeat split; lra.
Qed.

(** ** What is not kept *)
Lemma last_note comp l k v f m : lower comp = comp -> contains (txt ".type") k = false -> after (txt "." ++ comp ++ txt ".") k = Some f ->
  forall ms x y x2 y2 az t i q, m = EMeas x y x2 y2 az t i q -> dget text_dec comp ms = Some m -> exists a, get_electric comp (l ++ [(k, v)], ms) = Ok a /\ dget text_dec f a = Some (CNote v).
Proof.
  intros Lc C A ms x y x2 y2 az t i q -> D. unfold get_electric. rewrite Lc. cbn [fst snd]. rewrite D. eexists. split; [reflexivity|].
  cbv zeta. rewrite fold_left_app. cbn [fold_left]. unfold channel_note at 1. cbn [fst snd]. rewrite C, A. apply dget_dset_eq.
Qed.
Lemma last_sensor comp l k v key f ms m : word_after comp k = Some key -> (key = f /\ begins (txt "sensor.") f \/ key = txt "type" /\ f = txt "sensor.type") -> dget text_dec comp ms = Some m ->
  exists a, get_magnetic comp (l ++ [(k, v)], ms) = Ok a /\ dget text_dec f a = Some (CNote v).
Proof.
  intros W K D. unfold get_magnetic. cbn [fst snd]. rewrite D. set (t := match m with EMeas _ _ _ _ _ _ _ _ => _ | _ => _ end). destruct t as [[[[[x y] azm] ch] id] q].
  eexists. split; [reflexivity|]. cbv zeta. rewrite fold_left_app. cbn [fold_left]. unfold sensor_note at 1. cbn [fst snd]. rewrite W. destruct K as [(-> & B)|(-> & ->)].
  - rewrite (proj2 (prefix_of_spec _ _) B). apply dget_dset_eq.
  - cbn [text_eqb prefix_of]. apply dget_dset_eq.
Qed.
(** Channels of two runs with the same component: the later run wins for both *)
Theorem C122_two_runs_refuted v w : given v -> given w -> v <> w ->
  exists o a, set_runs [mkERun (txt "a") [] [plain Electric (txt "ex") [(txt "dipole_length", v)] None]; mkERun (txt "b") [] [plain Electric (txt "ex") [(txt "dipole_length", w)] None]] ([], []) = Ok o /\
    get_electric (txt "ex") o = Ok a /\ reports a "dipole_length" (CNote w) /\ ~ reports a "dipole_length" (CNote v).
Proof.
  intros G1 G2 N.
  assert (S : exists m, set_runs [mkERun (txt "a") [] [plain Electric (txt "ex") [(txt "dipole_length", v)] None]; mkERun (txt "b") [] [plain Electric (txt "ex") [(txt "dipole_length", w)] None]] ([], []) =
              Ok ([(txt "a.ex.dipole_length", v)] ++ [(txt "b.ex.dipole_length", w)], [(txt "ex", EMeas 0 0 0 0 m (txt "ex") (Fin 0%Q) (txt "0"))])).
  { cbn - [null EchModel.from_metadata]. unfold put_channel. cbn - [null EchModel.from_metadata]. rewrite (given_null v G1). cbn - [null EchModel.from_metadata].
    unfold from_metadata at 1. cbn - [null azm_kept EchModel.from_metadata]. rewrite (given_null w G2). cbn - [null azm_kept]. eexists. reflexivity. }
  destruct S as (m & S). eexists. destruct (last_note (txt "ex") [(txt "a.ex.dipole_length", v)] (txt "b.ex.dipole_length") w (txt "dipole_length") _ eq_refl eq_refl eq_refl _ _ _ _ _ _ _ _ _ eq_refl (eq_refl : dget text_dec (txt "ex") [(txt "ex", EMeas 0 0 0 0 m (txt "ex") (Fin 0%Q) (txt "0"))] = Some _)) as (a & E & D).
  exists a. split; [exact S|]. split; [exact E|]. unfold reports. split; [exact D|]. rewrite D. congruence.
Qed.
(** The type of the electrodes is that of the channel, whatever it was *)
Theorem C122_electrode_type_refuted comp rs d0 o rid c t w :
  electric_component comp -> small_components rs -> tidy comp rs -> quiet comp d0 -> only comp rs rid c -> NoDup (map fst (c_fields c)) ->
  set_runs rs (d0, []) = Ok o -> noted c (txt "type") t -> noted c (txt "positive.type") w -> w <> t ->
  exists a, get_electric comp o = Ok a /\ reports a "positive.type" (CNote t) /\ reports a "negative.type" (CNote t) /\ ~ reports a "positive.type" (CNote w).
Proof.
  intros EC SC T QT O NF E Nt Nw Nwt. destruct (electric_name _ EC) as (Lc & ND & Be & He).
  destruct (measured comp rs d0 o rid c Lc O (small_components_lower _ SC) E) as (m0 & m1 & Fm & Dm & _).
  pose proof (proj1 O) as Ec. unfold from_metadata in Fm. rewrite Ec, He in Fm. destruct (c_kind c); try discriminate.
  destruct (to_float (c_id c)) as [id|er] eqn:Ei; cbn [bindR] in Fm; [|discriminate]. destruct (chtype_ok _ _); [|discriminate]. injection Fm as <-. rewrite Lc, dget_dset_eq in Dm.
  unfold get_electric. rewrite Lc. set (a0 := setc "negative.type" _ _). rewrite Dm. cbv zeta.
  set (a6 := setc "positive.y2" _ (setc "negative.y" _ _)). set (a7 := fold_left (electrode_note comp) (fst o) a6). set (a8 := if _ && _ && _ && _ then _ else _).
  eexists. split; [reflexivity|]. set (a := fold_left (channel_note comp) (fst o) a8).
  assert (G : forall g, g = txt "positive.type" \/ g = txt "negative.type" -> dget text_dec g a = Some (CNote t)).
  { intros g Hg. assert (G8 : dget text_dec g a = dget text_dec g a8).
    { unfold a. apply fold_same. intros [k v] b I. unfold channel_note. cbn [fst snd]. destruct (contains (txt ".type") k) eqn:C; [reflexivity|].
      destruct (about comp rs d0 o rid c ND T QT O E k v I) as [A|(f & -> & N)]; [rewrite apart_after by exact A; reflexivity|].
      rewrite own_after by exact (proj1 (the_run comp rs rid c T O)). destruct (text_dec f g) as [->|Nf]; [|apply dget_dset_neq; congruence]. exfalso.
      assert (C' : contains (txt ".type") (rid ++ txt "." ++ comp ++ txt "." ++ g) = true); [|congruence].
      apply contains_spec. exists (rid ++ txt "." ++ comp ++ txt "." ++ firstn 8 g), []. rewrite app_nil_r, <- !app_assoc. destruct Hg as [->| ->]; reflexivity. }
    rewrite G8. assert (G7 : dget text_dec g a8 = dget text_dec g a7).
    { unfold a8. destruct (_ && _ && _ && _)%bool; [|reflexivity]. rewrite !not_set; [reflexivity|destruct Hg as [->| ->]; discriminate..]. }
    rewrite G7. unfold a7.
    assert (AW : apart comp rid) by exact (proj2 (the_run comp rs rid c T O)).
    assert (W : forall k v, noted c k v -> word_after comp (rid ++ txt "." ++ comp ++ txt "." ++ k) = Some k).
    { intros k v Ng. destruct (field_ok comp rs rid c T O k v Ng) as (A1 & A2). apply own_word; assumption. }
    apply (fold_found _ g (CNote t) (fst o) (rid ++ txt "." ++ comp ++ txt "." ++ txt "type", t)).
    - exact (noted_in comp rs d0 o rid c ND T O E NF _ t Nt).
    - intros b. unfold electrode_note. cbn [fst snd]. rewrite (W _ _ Nt). change (text_eqb (txt "type") (txt "manufacturer")) with false. change (text_eqb (txt "type") (txt "type")) with true. cbv iota zeta. destruct Hg as [->| ->]; [|rewrite not_set by discriminate]; apply dget_dset_eq.
    - intros [k v] b I. destruct (about comp rs d0 o rid c ND T QT O E k v I) as [A|(f & -> & N)].
      + left. unfold electrode_note. cbn [fst]. rewrite apart_word by exact A. reflexivity.
      + unfold electrode_note. cbn [fst snd]. rewrite (W _ _ N). destruct (text_eqb f (txt "type")) eqn:Ef.
        * apply text_eqb_eq in Ef. subst f. right. rewrite (noted_one c NF _ t v Nt N). change (text_eqb (txt "type") (txt "manufacturer")) with false. cbv iota zeta. destruct Hg as [->| ->]; [|rewrite not_set by discriminate]; apply dget_dset_eq.
        * left. destruct (text_eqb f (txt "manufacturer")); [|reflexivity]. rewrite !not_set; [reflexivity|destruct Hg as [->| ->]; discriminate..]. }
  unfold reports. split; [apply G; left; reflexivity|]. split; [apply G; right; reflexivity|]. rewrite (G _ (or_introl eq_refl)). congruence.
Qed.
(** Of a magnetic channel without translated azimuth, the azimuth is lost; so are all other fields but those of the sensor, and the sign of its number *)
Theorem C122_azimuth_refuted comp rs d0 o rid c z :
  magnetic_component comp -> small_components rs -> tidy comp rs -> quiet comp d0 -> only comp rs rid c -> NoDup (map fst (c_fields c)) ->
  set_runs rs (d0, []) = Ok o -> c_azimuth c = Some z -> c_translated c = None -> z <> 0%R ->
  exists a, get_magnetic comp o = Ok a /\ reports a "measurement_azimuth" (CReal 0) /\ ~ reports a "measurement_azimuth" (CReal z).
Proof.
  intros EC SC T QT O NF E Ez Et Nz. destruct (C122_magnetic comp rs d0 o rid c EC SC T QT O NF E) as (a & x & Ga & Ra & _). rewrite Et in Ra. cbn [coordinate] in Ra.
  exists a. split; [exact Ga|]. split; [exact Ra|]. unfold reports in *. rewrite Ra. congruence.
Qed.
Theorem C122_tilt_refuted comp rs d0 o rid c v :
  magnetic_component comp -> small_components rs -> tidy comp rs -> quiet comp d0 -> only comp rs rid c -> NoDup (map fst (c_fields c)) ->
  set_runs rs (d0, []) = Ok o -> noted c (txt "measurement_tilt") v ->
  exists a, get_magnetic comp o = Ok a /\ dget text_dec (txt "measurement_tilt") a = None.
Proof.
  intros EC SC T QT O NF E _. destruct (C122_magnetic comp rs d0 o rid c EC SC T QT O NF E) as (a & x & Ga & H). exists a. split; [exact Ga|].
  apply H; [cbn; intuition discriminate|]. intros (r & Q). discriminate.
Qed.
Theorem C122_number_refuted comp rs d0 o rid c :
  magnetic_component comp -> small_components rs -> tidy comp rs -> quiet comp d0 -> only comp rs rid c -> NoDup (map fst (c_fields c)) ->
  set_runs rs (d0, []) = Ok o -> (c_number c < 0)%Z ->
  exists a, get_magnetic comp o = Ok a /\ ~ reports a "channel_number" (CInt (c_number c)).
Proof.
  intros EC SC T QT O NF E L. destruct (C122_magnetic comp rs d0 o rid c EC SC T QT O NF E) as (a & x & Ga & _ & _ & _ & _ & _ & H & _). exists a. split; [exact Ga|].
  unfold reports in *. rewrite H. intros Q. injection Q as Q. lia.
Qed.
(** The type of the sensor is that of the channel: the fields of a channel come in alphabetical order *)
Theorem C122_sensor_type_refuted t : given t -> t <> VText (txt "magnetic") ->
  exists o a, set_runs [mkERun (txt "a") [] [plain Magnetic (txt "hx") [(txt "sensor.type", t); (txt "type", VText (txt "magnetic"))] None]] ([], []) = Ok o /\
    get_magnetic (txt "hx") o = Ok a /\ reports a "sensor.type" (CNote (VText (txt "magnetic"))) /\ ~ reports a "sensor.type" (CNote t).
Proof.
  intros G N.
  assert (S : set_runs [mkERun (txt "a") [] [plain Magnetic (txt "hx") [(txt "sensor.type", t); (txt "type", VText (txt "magnetic"))] None]] ([], []) =
              Ok ([(txt "a.hx.sensor.type", t)] ++ [(txt "a.hx.type", VText (txt "magnetic"))], [(txt "hx", HMeas 0 0 0 (txt "hx") (Fin 0%Q) (txt "0"))])).
  { cbn - [null EchModel.from_metadata]. unfold put_channel. cbn - [null EchModel.from_metadata]. rewrite (given_null t G). reflexivity. }
  eexists. destruct (last_sensor (txt "hx") [(txt "a.hx.sensor.type", t)] (txt "a.hx.type") (VText (txt "magnetic")) (txt "type") (txt "sensor.type") _ _ eq_refl (or_intror (conj eq_refl eq_refl))
    (eq_refl : dget text_dec (txt "hx") [(txt "hx", HMeas 0 0 0 (txt "hx") (Fin 0%Q) (txt "0"))] = Some _)) as (a & E & D).
  exists a. split; [exact S|]. split; [exact E|]. unfold reports. split; [exact D|]. rewrite D. congruence.
Qed.
(** The sensor of the remote channel is taken for that of the local one *)
Theorem C122_remote_refuted v w : given v -> given w -> v <> w ->
  exists o a, set_runs [mkERun (txt "a") [] [plain Magnetic (txt "hx") [(txt "sensor.id", v)] None; plain Magnetic (txt "rrhx") [(txt "sensor.id", w)] None]] ([], []) = Ok o /\
    get_magnetic (txt "hx") o = Ok a /\ reports a "sensor.id" (CNote w) /\ ~ reports a "sensor.id" (CNote v).
Proof.
  intros G1 G2 N.
  assert (S : set_runs [mkERun (txt "a") [] [plain Magnetic (txt "hx") [(txt "sensor.id", v)] None; plain Magnetic (txt "rrhx") [(txt "sensor.id", w)] None]] ([], []) =
              Ok ([(txt "a.hx.sensor.id", v)] ++ [(txt "a.rrhx.sensor.id", w)], [(txt "hx", HMeas 0 0 0 (txt "hx") (Fin 0%Q) (txt "0")); (txt "rrhx", HMeas 0 0 0 (txt "rrhx") (Fin 0%Q) (txt "0"))])).
  { cbn - [null EchModel.from_metadata]. unfold put_channel. cbn - [null EchModel.from_metadata]. rewrite (given_null v G1), (given_null w G2). reflexivity. }
  eexists. destruct (last_sensor (txt "hx") [(txt "a.hx.sensor.id", v)] (txt "a.rrhx.sensor.id") w (txt "sensor.id") (txt "sensor.id") _ _ eq_refl (or_introl (conj eq_refl (ex_intro _ (txt "id") eq_refl)))
    (eq_refl : dget text_dec (txt "hx") [(txt "hx", HMeas 0 0 0 (txt "hx") (Fin 0%Q) (txt "0")); (txt "rrhx", HMeas 0 0 0 (txt "rrhx") (Fin 0%Q) (txt "0"))] = Some _)) as (a & E & D).
  exists a. split; [exact S|]. split; [exact E|]. unfold reports. split; [exact D|]. rewrite D. congruence.
Qed.
(** ** Stations that cannot be given to an EDI object *)
Lemma measure_fails cs c : In c cs -> (forall ms, exists e, from_metadata c ms = Err e) -> forall ms, exists e, measure cs ms = Err e.
Proof.
  intros I H. induction cs as [|c' cs IH]; [destruct I|]. intros ms. cbn. destruct I as [->|I].
  - destruct (H ms) as (e & ->). exists e. reflexivity.
  - destruct (from_metadata c' ms) as [m|e]; [exact (IH I m)|exists e; reflexivity].
Qed.
Lemma set_fails rs x : In x (channels_of rs) -> (forall ms, exists e, from_metadata (snd x) ms = Err e) -> forall o o', set_runs rs o <> Ok o'.
Proof.
  intros I H o o' E. apply set_runs_measure in E. destruct (measure_fails (map snd (channels_of rs)) (snd x) (in_map snd _ _ I) H (snd o)) as (e & Q). congruence.
Qed.
(** A channel that is not electric and has an e in its name, such as the temperature *)
Theorem C122_letter_refuted rs x o o' : In x (channels_of rs) -> c_kind (snd x) <> Electric -> In "e"%char (c_component (snd x)) -> set_runs rs o <> Ok o'.
Proof.
  intros I K H. apply (set_fails rs x I). intros ms. exists AttributeError. unfold from_metadata. rewrite (proj2 (has_char_In _ _) H). destruct (c_kind (snd x)); [contradiction|reflexivity|reflexivity].
Qed.
(** A channel id that is not a number *)
Theorem C122_id_refuted rs x o o' s : In x (channels_of rs) -> In "e"%char (c_component (snd x)) \/ In "h"%char (c_component (snd x)) -> c_id (snd x) = Some s -> read_float s = None -> set_runs rs o <> Ok o'.
Proof.
  intros I H Ei Er. apply (set_fails rs x I). intros ms. unfold from_metadata, to_float. rewrite Ei, Er.
  destruct (has_char "e" (c_component (snd x))) eqn:He; [destruct (c_kind (snd x)); eexists; reflexivity|].
  destruct H as [H|H]; [apply has_char_In in H; congruence|]. rewrite (proj2 (has_char_In _ _) H). destruct (c_kind (snd x)); eexists; reflexivity.
Qed.
(** A magnetic channel that is called bx, by or bz is not kept *)
Theorem C122_b_refuted comp rs d0 o rid c : lower comp = comp -> ~ In "e"%char comp -> ~ In "h"%char comp -> small_components rs -> only comp rs rid c -> set_runs rs (d0, []) = Ok o ->
  get_magnetic comp o = Ok [(txt "component", CText comp); (txt "sensor.type", CText (txt "magnetic"))].
Proof.
  intros Lc Ne Nh SC O E. destruct (measured comp rs d0 o rid c Lc O (small_components_lower _ SC) E) as (m0 & m1 & Fm & Dm & D0).
  unfold from_metadata in Fm. rewrite (proj1 O) in Fm. rewrite (proj2 (has_char_notIn _ _) Ne), (proj2 (has_char_notIn _ _) Nh) in Fm. injection Fm as <-.
  unfold get_magnetic. rewrite Dm, D0. reflexivity.
Qed.

(** ** A station that meets the hypotheses: an electric and a magnetic channel *)
Definition ex_chan : chan := mkCh Electric (txt "ex") [(txt "comments", VText (txt "dry")); (txt "dipole_length", VNum (txt "100.0")); (txt "positive.type", VText (txt "AgCl")); (txt "type", VText (txt "electric"))]
  None None 2 (Some (txt "3")) None None (Some 100%R) None.
Definition hx_chan : chan := mkCh Magnetic (txt "hx") [(txt "comments", VText (txt "buried")); (txt "measurement_tilt", VNum (txt "90.0")); (txt "sensor.id", VText (txt "bf4-1")); (txt "type", VText (txt "magnetic"))]
  (Some 12%R) None (-4) None None (Some 5%R) None None.
Definition ex_runs : list erun := [mkERun (txt "mt01a") [(txt "id", VText (txt "mt01a"))] [ex_chan; hx_chan]].
Lemma apart_check comp w : contains (comp ++ txt ".") (w ++ txt ".") = false -> apart comp w.
Proof. intros H (a & b & Q). assert (C : contains (comp ++ txt ".") (w ++ txt ".") = true) by (apply contains_spec; eauto). congruence. Qed.
Lemma no_blank_check w : forallb (fun c => negb (is_space c)) w = true -> no_blank w.
Proof. intros H c I. rewrite forallb_forall in H. specialize (H c I). destruct (is_space c); [discriminate|reflexivity]. Qed.
Lemma ex_tidy comp : comp = txt "ex" \/ comp = txt "hx" -> tidy comp ex_runs.
Proof.
  intros Hc. split.
  - intros r [<-|[]]. split; [cbn; intuition discriminate|]. split; [destruct Hc as [->| ->]; apply apart_check; reflexivity|].
    intros f v [Q|[]]. injection Q as <- <-. destruct Hc as [->| ->]; apply apart_check; reflexivity.
  - intros x [<-|[<-|[]]]; (split; [cbn; intuition discriminate|]; split; [destruct Hc as [->| ->]; first [left; reflexivity|right; apply apart_check; reflexivity]|]);
    intros f v I; cbn in I; repeat (destruct I as [I|I]; [injection I as <- <-; split; [destruct Hc as [->| ->]; apply apart_check; reflexivity|apply no_blank_check; reflexivity]|]); destruct I.
Qed.
Lemma ex_small : small_components ex_runs.
Proof. intros x [<-|[<-|[]]] a I; cbn in I; repeat (destruct I as [I|I]; [subst a; reflexivity|]); destruct I. Qed.
Lemma ex_only : only (txt "ex") ex_runs (txt "mt01a") ex_chan.
Proof. split; [reflexivity|]. exists [], [(txt "mt01a", hx_chan)]. split; [reflexivity|]. intros x [<-|[]]. discriminate. Qed.
Lemma hx_only : only (txt "hx") ex_runs (txt "mt01a") hx_chan.
Proof. split; [reflexivity|]. exists [(txt "mt01a", ex_chan)], []. split; [reflexivity|]. intros x [<-|[]]. discriminate. Qed.
Fixpoint all_new (l : list text) : bool := match l with [] => true | x :: r => negb (existsb (text_eqb x) r) && all_new r end.
Lemma texts_nodup (l : list text) : all_new l = true -> NoDup l.
Proof.
  induction l as [|x l IH]; intros H; [constructor|]. cbn [all_new] in H. apply andb_prop in H. destruct H as [X H]. constructor; [|apply IH; exact H].
  intros I. assert (Y : existsb (text_eqb x) l = true) by (apply existsb_exists; exists x; split; [exact I|apply text_eqb_eq; reflexivity]). rewrite Y in X. discriminate.
Qed.
Example C122_electric_hyp : exists o, electric_component (txt "ex") /\ small_components ex_runs /\ tidy (txt "ex") ex_runs /\ quiet (txt "ex") [(txt "project", VText (txt "test"))] /\
  only (txt "ex") ex_runs (txt "mt01a") ex_chan /\ NoDup (map fst (c_fields ex_chan)) /\ set_runs ex_runs ([(txt "project", VText (txt "test"))], []) = Ok o /\
  noted ex_chan (txt "dipole_length") (VNum (txt "100.0")) /\ noted ex_chan (txt "type") (VText (txt "electric")) /\ noted ex_chan (txt "positive.type") (VText (txt "AgCl")) /\
  (forall v, ~ noted ex_chan (txt "measurement_azimuth") v).
Proof.
  eexists. split; [left; reflexivity|]. split; [exact ex_small|]. split; [apply ex_tidy; left; reflexivity|].
  split; [intros k v [Q|[]]; injection Q as <- <-; apply apart_check; reflexivity|]. split; [exact ex_only|]. split; [apply texts_nodup; reflexivity|].
  split; [reflexivity|]. unfold noted.
  split; [split; [cbn; tauto|split; [reflexivity|cbn; intuition discriminate]]|]. split; [split; [cbn; tauto|split; [reflexivity|cbn; intuition discriminate]]|].
  split; [split; [cbn; tauto|split; [reflexivity|cbn; intuition discriminate]]|]. intros v (H & _). cbn in H. repeat (destruct H as [H|H]; [discriminate|]). destruct H.
Qed.
Example C122_magnetic_hyp : exists o, magnetic_component (txt "hx") /\ small_components ex_runs /\ tidy (txt "hx") ex_runs /\ quiet (txt "hx") [] /\
  only (txt "hx") ex_runs (txt "mt01a") hx_chan /\ NoDup (map fst (c_fields hx_chan)) /\ set_runs ex_runs ([], []) = Ok o /\
  noted hx_chan (txt "sensor.id") (VText (txt "bf4-1")) /\ noted hx_chan (txt "measurement_tilt") (VNum (txt "90.0")) /\ c_azimuth hx_chan = Some 12%R /\ c_translated hx_chan = None /\ (c_number hx_chan < 0)%Z.
Proof.
  eexists. split; [left; reflexivity|]. split; [exact ex_small|]. split; [apply ex_tidy; right; reflexivity|]. split; [intros k v []|]. split; [exact hx_only|]. split; [apply texts_nodup; reflexivity|].
  split; [reflexivity|]. unfold noted. split; [split; [cbn; tauto|split; [reflexivity|cbn; intuition discriminate]]|].
  split; [split; [cbn; tauto|split; [reflexivity|cbn; intuition discriminate]]|]. repeat split; reflexivity.
Qed.
Example C122_given_hyp : given (VNum (txt "100.0")) /\ given (VNum (txt "50.0")) /\ VNum (txt "100.0") <> VNum (txt "50.0") /\ given (VText (txt "fluxgate")). Proof. repeat split; discriminate. Qed.
Example C122_letter_hyp : let rs := [mkERun (txt "a") [] [plain Auxiliary (txt "temperature") [] None]] in exists x, In x (channels_of rs) /\ c_kind (snd x) <> Electric /\ In "e"%char (c_component (snd x)).
Proof. exists (txt "a", plain Auxiliary (txt "temperature") [] None). split; [left; reflexivity|]. split; [discriminate|]. cbn. tauto. Qed.
Example C122_id_hyp : read_float (txt "mt01.3") = None. Proof. reflexivity. Qed.
Example C122_b_hyp : let c := plain Magnetic (txt "bx") [] None in let rs := [mkERun (txt "a") [] [c]] in exists o, only (txt "bx") rs (txt "a") c /\ small_components rs /\ set_runs rs ([], []) = Ok o.
Proof.
  eexists. split; [split; [reflexivity|]; exists [], []; split; [reflexivity|intros x []]|]. split; [|reflexivity].
  intros x [<-|[]] a I; cbn in I; repeat (destruct I as [I|I]; [subst a; reflexivity|]); destruct I.
Qed.

Print Assumptions C122_electric.
Print Assumptions C122_magnetic.
Print Assumptions C122_letter_refuted.
