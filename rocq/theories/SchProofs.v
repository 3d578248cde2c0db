(** Proofs for C120: channels in StationXML. *)
From Coq Require Import QArith Qround.
From Verif Require Import PyBase PyFacts PyText TextFacts PyFloat PyRepr PyReprFacts EdiProofs FdsnModel SxmlModel SxmlSpec SxmlProps3 SchModel SchSpec.
From Coq Require Import Lia Lqa.
Local Open Scope list_scope.

Lemma first_word_split s w : first_word s w -> exists r, split_ws s = w :: r.
Proof.
  intros (a & b & -> & A & (NW & W) & B).
  assert (A' : forallb is_space a = true) by (apply forallb_forall; rewrite Forall_forall in A; exact A).
  assert (W' : forallb (fun c => negb (is_space c)) w = true) by (apply forallb_forall; rewrite Forall_forall in W; intros x I; rewrite (W x I); reflexivity).
  rewrite (split_ws_lead a _ A'). destruct B as [-> | (c & r & -> & C)].
  - rewrite app_nil_r. exists []. unfold split_ws. rewrite <- (app_nil_r w). rewrite (split_ws_word w [] [] W'). cbn [rev app]. rewrite ?app_nil_r.
    cbn. destruct w; [congruence|]. destruct (rev (a0 :: w) ) eqn:E; [apply (f_equal (@List.length _)) in E; rewrite rev_length in E; discriminate E|].
    rewrite <- E, rev_involutive. reflexivity.
  - exists (split_ws r). unfold split_ws. rewrite (split_ws_word w [] (c :: r) W'). cbn [rev app]. rewrite ?app_nil_r. cbn. rewrite C.
    destruct w; [congruence|]. destruct (rev (a0 :: w)) eqn:E; [apply (f_equal (@List.length _)) in E; rewrite rev_length in E; discriminate E|].
    rewrite <- E, rev_involutive. reflexivity.
Qed.
Lemma first_word_nonempty s w : first_word s w -> exists c r, s = c :: r.
Proof. intros (a & b & -> & _ & (NW & _) & _). destruct a as [|c a]; [destruct w as [|c w]; [congruence|]|]; cbn [app]; eauto. Qed.

(** Angles *)
Lemma mod_360_direction a : same_direction a (mod_360 a).
Proof.
  unfold same_direction, mod_360. pose proof (Qfloor_le (a / 360)) as L. pose proof (Qlt_floor (a / 360)) as U.
  rewrite inject_Z_plus in U. assert (E : (a == 360 * (a / 360))%Q) by field. rewrite inject_Z_mult.
  set (f := inject_Z (Qfloor (a / 360))) in *. set (g := (a / 360)%Q) in *. change (inject_Z 360) with 360%Q. change (inject_Z 1) with 1%Q in U.
  split; [lra|]. split; [lra|]. exists (Qfloor (a / 360)). rewrite inject_Z_mult. fold g. fold f. change (inject_Z 360) with 360%Q. lra.
Qed.
Lemma mod_360_same a : (0 <= a)%Q -> (a < 360)%Q -> (mod_360 a == a)%Q.
Proof.
  intros L U. unfold mod_360. replace (Qfloor (a / 360)) with 0%Z; [change (inject_Z (360 * 0)) with 0%Q; lra|].
  assert (P : (0 <= a / 360)%Q) by (apply Qle_shift_div_l; lra). assert (H : (a / 360 < 1)%Q) by (apply Qlt_shift_div_r; lra).
  pose proof (Qfloor_le (a / 360)) as FL. pose proof (Qlt_floor (a / 360)) as FU.
  assert (A1 : (inject_Z (Qfloor (a / 360)) < inject_Z 1)%Q) by (change (inject_Z 1) with 1%Q; lra). rewrite <- Zlt_Qlt in A1.
  assert (A2 : (inject_Z 0 < inject_Z (Qfloor (a / 360) + 1))%Q) by (change (inject_Z 0) with 0%Q; lra). rewrite <- Zlt_Qlt in A2. lia.
Qed.

(** Codes *)
Lemma direction_code d : In d ["x"%char; "y"%char; "z"%char] ->
  exists o, code_of_direction (lower [d]) = Ok (Some o) /\ In o ["N"%char; "E"%char; "Z"%char].
Proof. intros [<-|[<-|[<-|[]]]]; eexists; (split; [reflexivity|cbn; tauto]). Qed.
Lemma electric_code r d : In d ["x"%char; "y"%char; "z"%char] -> exists code b o,
  make_channel_code r (txt "electric") (ADirection (lower [d])) Horizontal = Ok code
  /\ read_channel_code code = Ok (mkInfo b (txt "electric") o) /\ exists e, create_mt_component code = Ok (txt "e" ++ [e]) /\ In e ["x"%char; "y"%char; "z"%char].
Proof.
  intros I. unfold make_channel_code. cbv zeta. remember (get_period_code r) as p eqn:EP. clear EP.
  destruct I as [<-|[<-|[<-|[]]]]; (eexists; eexists; eexists; split; [reflexivity|split; [reflexivity|eexists; split; [reflexivity|cbn; tauto]]]).
Qed.
Lemma magnetic_code r d : In d ["x"%char; "y"%char; "z"%char] -> exists code b o,
  make_channel_code r (txt "magnetic") (ADirection (lower [d])) Horizontal = Ok code
  /\ read_channel_code code = Ok (mkInfo b (txt "magnetic") o) /\ exists e, create_mt_component code = Ok (txt "h" ++ [e]) /\ In e ["x"%char; "y"%char; "z"%char].
Proof.
  intros I. unfold make_channel_code. cbv zeta. remember (get_period_code r) as p eqn:EP. clear EP.
  destruct I as [<-|[<-|[<-|[]]]]; (eexists; eexists; eexists; split; [reflexivity|split; [reflexivity|eexists; split; [reflexivity|cbn; tauto]]]).
Qed.
Lemma other_direction d : ~ In d ["x"%char; "y"%char; "z"%char] -> is_upper d = false -> code_of_direction (lower [d]) = Err ValueError.
Proof.
  intros N U. unfold code_of_direction. assert (E : lower [d] = [d]) by (unfold lower; cbn [map]; f_equal; unfold to_lower; rewrite U; reflexivity).
  rewrite !E. cbn [dget forced_orientation].
  repeat match goal with |- context [text_dec ?a ?b] => let H := fresh "H" in destruct (text_dec a b) as [H|H]; [exfalso; injection H as H; apply N; rewrite H; cbn; tauto|] end. reflexivity.
Qed.

(** Names *)
Lemma name_char_word c : name_char c -> word_char c = true /\ to_lower c = c.
Proof.
  intros N. assert (B : (is_lower c || is_digit c || Ascii.eqb c "_")%bool = true).
  { destruct N as [->|[-> | ->]]; rewrite ?orb_true_r; reflexivity. }
  assert (G : implb (is_lower c || is_digit c || Ascii.eqb c "_") (word_char c && Ascii.eqb (to_lower c) c) = true).
  { clear. revert c. apply ascii_forall. vm_compute. reflexivity. }
  rewrite B in G. cbn [implb] in G. apply andb_prop in G as [G1 G2]. apply Ascii.eqb_eq in G2. auto.
Qed.
Lemma named_lower firsts s : Forall name_char firsts -> named firsts s -> lower s = s.
Proof.
  intros F (c & r & -> & I & R). unfold lower. cbn [map]. rewrite Forall_forall in F. f_equal; [exact (proj2 (name_char_word c (F c I)))|].
  clear I. induction R as [|x r X R IH]; [reflexivity|]. cbn [map]. rewrite IH, (proj2 (name_char_word x X)). reflexivity.
Qed.
Lemma name_chars r : Forall name_char r -> forallb word_char r = true.
Proof. intros R. induction R as [|x r X R IH]; [reflexivity|]. cbn [forallb]. rewrite (proj1 (name_char_word x X)). exact IH. Qed.
Lemma electric_component p n d s : named ["e"%char] s -> set_component (Electric p n d) s = Ok s.
Proof.
  intros N. unfold set_component. rewrite (named_lower ["e"%char] s ltac:(repeat (apply Forall_cons; [left; reflexivity|]); apply Forall_nil) N).
  destruct N as (c & r & -> & [<-|[]] & R). cbn [component_ok]. rewrite (name_chars r R). reflexivity.
Qed.
Lemma magnetic_component x p s : named ["h"%char; "b"%char; "r"%char] s -> set_component (Magnetic x p) s = Ok s.
Proof.
  intros N. unfold set_component. rewrite (named_lower ["h"%char; "b"%char; "r"%char] s ltac:(repeat (apply Forall_cons; [left; reflexivity|]); apply Forall_nil) N).
  destruct N as (c & r & -> & I & R). cbn [component_ok]. rewrite (name_chars r R). destruct I as [<-|[<-|[<-|[]]]]; reflexivity.
Qed.

(** Comments *)
Lemma listing_text runs : listing runs = run_text runs. Proof. reflexivity. Qed.
Lemma lists_comments comment runs : lists comment runs -> channel_comments comment = Ok (run_comments runs).
Proof.
  intros [[-> ->]|[-> F]]; [reflexivity|]. destruct runs as [|r runs]; [reflexivity|]. rewrite listing_text. apply C83_runs; [discriminate|exact F].
Qed.

(** Sensors *)
Lemma one_of_In s l : one_of s l = true <-> In s l.
Proof.
  unfold one_of. rewrite existsb_exists. split; [intros (x & I & E); apply text_eqb_eq in E; subst; exact I|]. intros I. exists s. split; [exact I|]. apply text_eqb_eq. reflexivity.
Qed.
Lemma given_stated v : stated v (given v).
Proof. destruct v as [[|c s]|]; cbn; [left; auto|right; split; [discriminate|reflexivity]|reflexivity]. Qed.
Lemma trimmed_id_trimmed s : trimmed_id s -> trimmed s.
Proof. intros (A & B & _). split; [intros c r E; exact (A c r E)|intros c r E]. first [exact (B c r E)|exact (B r c E)]. Qed.

(** Electric channels *)
Lemma electric_sensor e p0 n0 p q pi ni :
  deduce_sensor_type e = Some (txt "dipole") -> q_serial e = Some (electrode_text pi ni) -> q_desc e = Some (dipole_text q) -> q_maker e = given (l_maker p) ->
  q_model e = given (l_model p) -> decimal q -> trimmed_id pi -> trimmed_id ni ->
  exists v, (v == q)%Q /\ forall d, sensor_to_mt e (Electric p0 n0 d)
    = Ok (Electric (mkElectrode (Some pi) (given (l_maker p)) (given (l_model p)) (l_place p0)) (mkElectrode (Some ni) (given (l_maker p)) (given (l_model p)) (l_place n0)) (Fin v)).
Proof.
  intros D S L M O DQ PI NI. destruct (C83_dipole q DQ) as (v & EV & VQ). exists v. split; [exact VQ|]. intros d. unfold sensor_to_mt. rewrite D.
  change (txt "dipole") with ("d"%char :: txt "ipole"). cbv iota zeta. change (one_of (lower ("d"%char :: txt "ipole")) coil_types) with false.
  change (one_of (lower ("d"%char :: txt "ipole")) electrode_types) with true. cbv iota. rewrite S. change (given (Some (electrode_text pi ni))) with (Some (electrode_text pi ni)). cbv iota.
  rewrite (C83_electrodes pi ni (trimmed_id_trimmed pi PI) (trimmed_id_trimmed ni NI) (proj1 (proj2 (proj2 PI))) (proj2 (proj2 (proj2 PI))) (proj1 (proj2 (proj2 NI))) (proj2 (proj2 (proj2 NI)))).
  cbn [bindR fst snd]. rewrite L, EV. cbn [bindR]. rewrite M, O. reflexivity.
Qed.
Definition electric_channel (c : channel) (pi ni : text) (p : electrode) (v : Q) (runs : list text) : channel :=
  mkChannel (c_comp c)
    (Electric (mkElectrode (Some pi) (given (l_maker p)) (given (l_model p)) (l_place p)) (mkElectrode (Some ni) (given (l_maker p)) (given (l_model p)) (l_place p)) (Fin v))
    (mod_360 (c_azimuth c)) (mod_360 (c_tilt c)) (c_rate c) (c_start c) (if (c_end c <? c_start c)%Z then far_end else c_end c) (Some (listing runs)) (Some [txt "GEOPHYSICAL"]).
Lemma electric_trip c p n q pi ni runs :
  c_kind c = Electric p n (Fin q) -> decimal q -> l_id p = Some pi -> l_id n = Some ni -> trimmed_id pi -> trimmed_id ni ->
  electric_name (c_comp c) -> lists (c_comment c) runs ->
  exists v, (v == q)%Q /\ trip c = Ok (electric_channel c pi ni p v runs).
Proof.
  intros K DQ EP EN PI NI (NM & r & d & EC & ID) LI. destruct (electric_code (c_rate c) d ID) as (code & b & o & MC & RC & e & CM & IE).
  destruct (electric_sensor (mkEquipment (Some (txt "dipole")) (Some (dipole_text q)) (given (l_maker p)) (given (l_model p)) (Some (electrode_text pi ni)))
              (new_electrode (l_place p)) (new_electrode (l_place p)) p q pi ni eq_refl eq_refl eq_refl eq_refl eq_refl DQ PI NI) as (v & VQ & SE).
  exists v. split; [exact VQ|]. unfold trip, write_channel. rewrite EC at 1. rewrite rev_app_distr. cbn [rev app]. rewrite K. cbn [type_of]. rewrite MC. cbn [bindR mt_to_sensor length_text].
  rewrite (lists_comments _ _ LI). cbn [bindR]. unfold read_channel. cbn [x_code x_place x_comments x_sensor x_alternate x_azimuth x_dip x_rate x_start x_end x_types].
  rewrite RC. cbn [bindR i_measurement]. change (new_kind (txt "electric") (l_place p)) with (Electric (new_electrode (l_place p)) (new_electrode (l_place p)) (Fin 0)).
  rewrite CM. cbn [bindR]. rewrite electric_component.
  2:{ exists "e"%char, [e]. split; [reflexivity|]. split; [left; reflexivity|]. constructor; [|constructor]. left. destruct IE as [<-|[<-|[<-|[]]]]; reflexivity. }
  cbn [bindR]. rewrite (C83_runs_read runs). rewrite EP, EN. cbn [show_opt]. rewrite SE. cbn [bindR].
  unfold electric_channel. revert NM. clear. destruct (c_comp c) as [|a w]; intros NM; [destruct NM as (? & ? & E & _); discriminate E|].
  rewrite electric_component by exact NM. reflexivity.
Qed.

(** Magnetic channels *)
Definition model_word (m : option text) : result (option text) :=
  match m with Some (c :: r) => match split_ws (c :: r) with w :: _ => Ok (Some w) | [] => Err IndexError end | _ => Ok None end.
Lemma magnetic_read c s p runs m : c_kind c = Magnetic s p -> magnetic_name (c_comp c) -> lists (c_comment c) runs -> model_word (s_model s) = Ok m ->
  trip c = bindR (sensor_to_mt (mkEquipment (s_type s) (s_name s) (s_maker s) m (s_id s)) (Magnetic new_sensor p)) (fun k =>
    bindR (set_component k (c_comp c)) (fun comp =>
    Ok (mkChannel comp k (mod_360 (c_azimuth c)) (mod_360 (c_tilt c)) (c_rate c) (c_start c) (if (c_end c <? c_start c)%Z then far_end else c_end c) (Some (listing runs))
          (Some [txt "GEOPHYSICAL"])))).
Proof.
  intros K (NM & r & d & EC & ID) LI EM. destruct (magnetic_code (c_rate c) d ID) as (code & b & o & MC & RC & e & CM & IE).
  unfold trip, write_channel. rewrite EC at 1. rewrite rev_app_distr. cbn [rev app]. rewrite K. cbn [type_of]. rewrite MC. cbn [bindR mt_to_sensor].
  fold (model_word (s_model s)). rewrite EM. cbn [bindR]. rewrite (lists_comments _ _ LI). cbn [bindR].
  unfold read_channel. cbn [x_code x_place x_comments x_sensor x_alternate x_azimuth x_dip x_rate x_start x_end x_types].
  rewrite RC. cbn [bindR i_measurement]. change (new_kind (txt "magnetic") p) with (Magnetic new_sensor p).
  rewrite CM. cbn [bindR]. rewrite magnetic_component.
  2:{ exists "h"%char, [e]. split; [reflexivity|]. split; [left; reflexivity|]. constructor; [|constructor]. left. destruct IE as [<-|[<-|[<-|[]]]]; reflexivity. }
  cbn [bindR]. rewrite (C83_runs_read runs). destruct NM as (a & w & EW & _). rewrite EW. reflexivity.
Qed.
