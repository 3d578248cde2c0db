(** C120: channels written as StationXML channels and read again. *)
From Coq Require Import QArith Qround.
From Verif Require Import PyBase PyFacts PyText TextFacts PyFloat PyRepr PyReprFacts EdiProofs FdsnModel SxmlModel SxmlSpec SxmlProps3 SchModel SchSpec SchProofs.
From Coq Require Import Lia Lqa.
Local Open Scope list_scope.

(** An electric channel comes back with its name, directions, rate, times, runs, length and ids of its electrodes; both electrodes have the place, the
    manufacturer and the model of the positive one. *)
Theorem C120_electric c p n q pi ni runs :
  c_kind c = Electric p n (Fin q) -> decimal q -> l_id p = Some pi -> l_id n = Some ni -> trimmed_id pi -> trimmed_id ni ->
  electric_name (c_comp c) -> lists (c_comment c) runs -> (c_start c <= c_end c)%Z ->
  exists d p' n' v, trip c = Ok d /\ rest_kept runs c d /\ c_kind d = Electric p' n' (Fin v) /\ (v == q)%Q
    /\ l_id p' = Some pi /\ l_id n' = Some ni /\ l_place p' = l_place p /\ l_place n' = l_place p
    /\ stated (l_maker p) (l_maker p') /\ stated (l_maker p) (l_maker n') /\ stated (l_model p) (l_model p') /\ stated (l_model p) (l_model n').
Proof.
  intros K DQ EP EN PI NI NM LI SE. destruct (electric_trip c p n q pi ni runs K DQ EP EN PI NI NM LI) as (v & VQ & T).
  eexists. eexists. eexists. exists v. split; [exact T|]. unfold electric_channel. rewrite (proj2 (Z.ltb_ge _ _) SE).
  split; [repeat (split; [try reflexivity; apply mod_360_direction|]); reflexivity|]. split; [reflexivity|]. split; [exact VQ|].
  repeat (split; [try reflexivity; apply given_stated|]). apply given_stated.
Qed.
Definition demo_electric : channel :=
  mkChannel (txt "ex")
    (Electric (mkElectrode (Some (txt "e1")) (Some (txt "Borin")) (Some (txt "Ag-AgCl")) (mkPlace 45 (-110) 1200))
       (mkElectrode (Some (txt "e2")) (Some (txt "home")) None (mkPlace 46 (-111) 1250)) (Fin (1015 # 10)))
    (-10) 0 8 100 200 (Some (txt "run_ids: [a,b]")) None.
Example C120_electric_hyp : decimal (1015 # 10) /\ trimmed_id (txt "e1") /\ trimmed_id (txt "e2") /\ electric_name (c_comp demo_electric)
  /\ lists (c_comment demo_electric) [txt "a"; txt "b"] /\ (c_start demo_electric <= c_end demo_electric)%Z.
Proof.
  assert (T : forall a b, is_space a = false -> is_space b = false -> ~ In ":"%char [a; b] -> ~ In ","%char [a; b] -> trimmed_id [a; b]).
  { intros a b A B C D. split; [intros x r E; injection E as <- _; exact A|]. split; [|split; assumption]. intros r x E. destruct r as [|y [|z r]]; [discriminate E|injection E as _ <-; exact B|].
    injection E as _ _ E. destruct r; discriminate E. }
  assert (R : forall a, is_space a = false -> a <> ","%char -> a <> ":"%char -> a <> "["%char -> a <> "]"%char -> run_name [a]).
  { intros a A N1 N2 N3 N4. split; [|repeat split; intros [I|[]]; congruence]. split; [discriminate|]. split; [intros x r E; injection E as <- _; exact A|]. intros r x E.
    destruct r as [|y r]; [injection E as <-; exact A|]. injection E as _ E. destruct r; discriminate E. }
  split; [exists 1015%Z, (-1)%Z; reflexivity|]. split; [apply T; try reflexivity; intros [I|[I|[]]]; discriminate I|]. split; [apply T; try reflexivity; intros [I|[I|[]]]; discriminate I|].
  split; [split; [exists "e"%char, (txt "x"); split; [reflexivity|]; split; [left; reflexivity|]; constructor; [left; reflexivity|constructor]|exists (txt "e"), "x"%char; split; [reflexivity|left; reflexivity]]|].
  split; [right; split; [reflexivity|]; constructor; [apply R; try reflexivity; discriminate|]; constructor; [apply R; try reflexivity; discriminate|constructor]|].
  vm_compute. discriminate.
Qed.

(** Where the negative electrode stood and who made it is lost: the claim that a channel comes back is false. *)
Theorem C120_negative_refuted : exists c d p n p' n' x y, trip c = Ok d /\ c_kind c = Electric p n x /\ c_kind d = Electric p' n' y
  /\ l_place n' <> l_place n /\ l_maker n' <> l_maker n /\ l_place n' = l_place p.
Proof.
  exists demo_electric. eexists. eexists. eexists. eexists. eexists. eexists. eexists. split; [vm_compute; reflexivity|]. split; [reflexivity|]. split; [reflexivity|].
  split; [discriminate|]. split; [discriminate|reflexivity].
Qed.

(** A magnetic channel whose sensor has one of the types understood comes back with the sensor; its model is then the first word of the model and the name. *)
Theorem C120_magnetic c s p t runs :
  c_kind c = Magnetic s p -> s_type s = Some t -> coil_type t -> (forall m, s_model s = Some m -> m = [] \/ exists w, first_word m w) ->
  magnetic_name (c_comp c) -> lists (c_comment c) runs -> (c_start c <= c_end c)%Z ->
  exists d m, trip c = Ok d /\ rest_kept runs c d /\ c_kind d = Magnetic (mkSensor (s_id s) (s_maker s) (Some m) (Some t) (s_name s)) p /\ model_after (s_model s) (s_name s) m.
Proof.
  intros K ET CT MD NM LI SE.
  assert (W : exists m, model_word (s_model s) = Ok m /\ model_after (s_model s) (s_name s) (show_opt m ++ txt " " ++ show_opt (s_name s))).
  { destruct (s_model s) as [[|a r]|] eqn:EM.
    - exists None. split; [reflexivity|]. exists (txt "None"). split; [reflexivity|left; auto].
    - destruct (MD _ eq_refl) as [E|(w & FW)]; [discriminate E|]. exists (Some w). destruct (first_word_split _ _ FW) as (ws & EW). cbn [model_word]. rewrite EW. split; [reflexivity|].
      exists w. split; [reflexivity|right; exact FW].
    - exists None. split; [reflexivity|]. exists (txt "None"). split; reflexivity. }
  destruct W as (m & EM & MA). rewrite (magnetic_read c s p runs m K NM LI EM). unfold sensor_to_mt.
  assert (DD : deduce_sensor_type (mkEquipment (s_type s) (s_name s) (s_maker s) m (s_id s)) = Some t).
  { unfold deduce_sensor_type. cbn [q_type q_desc]. rewrite ET. cbn [or_empty]. cbv zeta.
    replace (one_of (lower t) understood_sensor_types) with true; [reflexivity|]. symmetry. apply one_of_In. unfold coil_type in CT. cbn [In] in CT. cbn [In understood_sensor_types]. tauto. }
  rewrite DD. destruct t as [|a t]; [destruct CT as [E|[E|[E|[]]]]; discriminate E|]. cbv zeta. replace (one_of (lower (a :: t)) coil_types) with true by (symmetry; apply one_of_In; exact CT).
  cbn [bindR q_serial q_maker q_desc]. rewrite (magnetic_component _ _ _ (proj1 NM)). cbn [bindR].
  eexists. exists (show_opt m ++ txt " " ++ show_opt (s_name s)). split; [reflexivity|]. rewrite (proj2 (Z.ltb_ge _ _) SE).
  split; [repeat (split; [try reflexivity; apply mod_360_direction|]); reflexivity|]. split; [reflexivity|exact MA].
Qed.
Definition demo_magnetic : channel :=
  mkChannel (txt "bz") (Magnetic (mkSensor (Some (txt "2593")) (Some (txt "Barry Narod")) (Some (txt "fluxgate NIMS")) (Some (txt "Magnetometer")) (Some (txt "NIMS"))) (mkPlace 45 (-110) 1200))
    20 90 (1 # 10) 100 200 None None.
Example C120_magnetic_hyp : coil_type (txt "Magnetometer") /\ first_word (txt "fluxgate NIMS") (txt "fluxgate") /\ magnetic_name (c_comp demo_magnetic) /\ lists (c_comment demo_magnetic) []
  /\ exists d, trip demo_magnetic = Ok d /\ c_kind d = c_kind demo_magnetic.
Proof.
  split; [left; reflexivity|]. split; [exists [], (txt " NIMS"); split; [reflexivity|]; split; [constructor|]; split; [split; [discriminate|apply Forall_forall; intros x I; apply (proj1 (Forall_forall _ _) (ltac:(repeat constructor) : Forall (fun c => is_space c = false) (txt "fluxgate"))); exact I]|]; right; exists " "%char, (txt "NIMS"); split; reflexivity|].
  split; [split; [exists "b"%char, (txt "z"); split; [reflexivity|]; split; [right; left; reflexivity|]; constructor; [left; reflexivity|constructor]|exists (txt "b"), "z"%char; split; [reflexivity|cbn; tauto]]|].
  split; [left; split; reflexivity|]. eexists. split; [vm_compute; reflexivity|reflexivity].
Qed.

(** So a sensor with a type understood comes back unchanged exactly when its model is a word and the name. *)
Theorem C120_magnetic_kept c s p t runs :
  c_kind c = Magnetic s p -> s_type s = Some t -> coil_type t -> (forall m, s_model s = Some m -> m = [] \/ exists w, first_word m w) ->
  magnetic_name (c_comp c) -> lists (c_comment c) runs -> (c_start c <= c_end c)%Z ->
  ((exists d, trip c = Ok d /\ c_kind d = c_kind c) <-> exists w, no_space w /\ s_model s = Some (w ++ txt " " ++ shown (s_name s))).
Proof.
  intros K ET CT MD NM LI SE. destruct (C120_magnetic c s p t runs K ET CT MD NM LI SE) as (d & m & T & _ & KD & (w & -> & MW)).
  assert (FW : forall w n, no_space w -> first_word (w ++ txt " " ++ n) w).
  { intros w0 n N. exists [], (txt " " ++ n). split; [reflexivity|]. split; [constructor|]. split; [exact N|]. right. exists " "%char, n. split; reflexivity. }
  split.
  - intros (d' & T' & E). rewrite T in T'. injection T' as <-. rewrite KD, K in E. injection E as E. rewrite <- E in *. cbn [s_model s_name] in *. exists w. split; [|reflexivity].
    destruct MW as [[E0 _]|(a & b & _ & _ & N & _)]; [|exact N]. destruct w; discriminate E0.
  - intros (x & N & EM). exists d. split; [exact T|]. rewrite KD, K, EM in *. assert (EX : w = x).
    { destruct MW as [[E0 _]|F]; [destruct x; discriminate E0|]. apply first_word_split in F as (r1 & F). destruct (first_word_split _ _ (FW x (shown (s_name s)) N)) as (r2 & F2). rewrite F in F2. injection F2 as ->. reflexivity. }
    rewrite EX. destruct s as [i k mo ty na]. cbn [s_id s_maker s_model s_type s_name] in *. rewrite EM, ET. reflexivity.
Qed.

(** A type not understood: the channel cannot be read. *)
Theorem C120_unknown_type_refuted c s p t runs m :
  c_kind c = Magnetic s p -> s_type s = Some t -> t <> [] -> ~ coil_type t -> lower t <> txt "bartington" -> (s_model s = None \/ (s_model s = Some m /\ exists w, first_word m w)) ->
  magnetic_name (c_comp c) -> lists (c_comment c) runs -> trip c = Err ValueError.
Proof.
  intros K ET NT NC NB MD NM LI.
  assert (W : exists m, model_word (s_model s) = Ok m).
  { destruct MD as [-> | (-> & w & F)]; [exists None; reflexivity|]. destruct (first_word_nonempty _ _ F) as (a & r & ->). destruct (first_word_split _ _ F) as (ws & EW). exists (Some w). cbn [model_word]. rewrite EW. reflexivity. }
  destruct W as (m0 & EM). rewrite (magnetic_read c s p runs m0 K NM LI EM). unfold sensor_to_mt.
  assert (DD : deduce_sensor_type (mkEquipment (s_type s) (s_name s) (s_maker s) m0 (s_id s)) = Some t).
  { unfold deduce_sensor_type. cbn [q_type q_desc]. rewrite ET. cbn [or_empty]. cbv zeta. destruct (one_of (lower t) understood_sensor_types); [reflexivity|].
    destruct (text_eqb (lower t) (txt "bartington")) eqn:EB; [apply text_eqb_eq in EB; contradiction|]. destruct t; [congruence|reflexivity]. }
  rewrite DD. destruct t as [|a t]; [congruence|]. cbv zeta. destruct (one_of (lower (a :: t)) coil_types) eqn:E1; [apply one_of_In in E1; contradiction|].
  destruct (one_of (lower (a :: t)) electrode_types); reflexivity.
Qed.
Example C120_unknown_type_refuted_hyp : ~ coil_type (txt "fluxgate") /\ lower (txt "fluxgate") <> txt "bartington".
Proof. split; [intros [E|[E|[E|[]]]]; discriminate E|discriminate]. Qed.

(** The type "Bartington" is read as a magnetometer. *)
Theorem C120_bartington c s p t runs :
  c_kind c = Magnetic s p -> s_type s = Some t -> lower t = txt "bartington" -> s_model s = None -> magnetic_name (c_comp c) -> lists (c_comment c) runs ->
  exists d s', trip c = Ok d /\ c_kind d = Magnetic s' p /\ s_type s' = Some (txt "magnetometer") /\ s_id s' = s_id s /\ s_maker s' = s_maker s /\ s_name s' = s_name s.
Proof.
  intros K ET EB MD NM LI. rewrite (magnetic_read c s p runs None K NM LI ltac:(rewrite MD; reflexivity)). unfold sensor_to_mt.
  assert (DD : deduce_sensor_type (mkEquipment (s_type s) (s_name s) (s_maker s) None (s_id s)) = Some (txt "magnetometer")).
  { unfold deduce_sensor_type. cbn [q_type q_desc]. rewrite ET. cbn [or_empty]. cbv zeta. rewrite EB. reflexivity. }
  rewrite DD. change (txt "magnetometer") with ("m"%char :: txt "agnetometer"). cbv beta iota zeta. change (one_of (lower ("m"%char :: txt "agnetometer")) coil_types) with true.
  cbv iota. cbn [bindR q_serial q_maker q_desc]. rewrite (magnetic_component _ _ _ (proj1 NM)). cbn [bindR]. eexists. eexists. split; [reflexivity|]. repeat (split; [reflexivity|]). reflexivity.
Qed.

(** Without a type, and with no telling name, all that was known of the sensor is lost. *)
Theorem C120_no_type_refuted c s p runs :
  c_kind c = Magnetic s p -> s_type s = None \/ s_type s = Some [] -> (forall n, s_name s = Some n -> ~ telling n) -> s_model s = None -> magnetic_name (c_comp c) -> lists (c_comment c) runs ->
  exists d s', trip c = Ok d /\ c_kind d = Magnetic s' p /\ s_id s' = Some [] /\ s_maker s' = Some [] /\ s_type s' = Some [] /\ s_model s' = None /\ s_name s' = None.
Proof.
  intros K ET TL MD NM LI. rewrite (magnetic_read c s p runs None K NM LI ltac:(rewrite MD; reflexivity)). unfold sensor_to_mt.
  assert (DD : deduce_sensor_type (mkEquipment (s_type s) (s_name s) (s_maker s) None (s_id s)) = s_type s).
  { assert (OE : or_empty (s_type s) = []) by (destruct ET as [-> | ->]; reflexivity). unfold deduce_sensor_type. cbn [q_type q_desc]. rewrite OE. cbv zeta.
    change (one_of (lower []) understood_sensor_types) with false. change (text_eqb (lower []) (txt "bartington")) with false. cbv iota.
    destruct (s_name s) as [n|] eqn:EN; [|reflexivity]. cbn [or_empty]. pose proof (TL n eq_refl) as NT.
    destruct (text_eqb n (txt "Bartington 3-Axis Fluxgate Sensor")) eqn:E1; [apply text_eqb_eq in E1; exfalso; apply NT; left; exact E1|].
    destruct (nonempty n); [|reflexivity].
    destruct (contains (txt "bf-4") (lower n)) eqn:E2; destruct (contains (txt "schlumberger") (lower n)) eqn:E3; destruct (contains (txt "electric") (lower n)) eqn:E4; destruct (contains (txt "dipole") (lower n)) eqn:E5;
      try reflexivity; exfalso; apply NT; right; (left; split; assumption) || (right; split; assumption). }
  rewrite DD. destruct ET as [-> | ->]; cbn [bindR]; rewrite (magnetic_component _ _ _ (proj1 NM)); cbn [bindR]; eexists; eexists; (split; [reflexivity|]); repeat (split; [reflexivity|]); reflexivity.
Qed.

(** No auxiliary channel can be written and read. *)
Theorem C120_auxiliary_refuted c s p : c_kind c = Auxiliary s p -> exists e, trip c = Err e.
Proof.
  intros K. unfold trip, write_channel. destruct (rev (c_comp c)) as [|d r]; [exists IndexError; reflexivity|]. rewrite K. cbn [type_of].
  unfold make_channel_code. cbv zeta. change (get_measurement_code (txt "auxiliary")) with "Y"%char. cbn [get_orientation_code].
  destruct (code_of_direction (lower [d])) as [o|e] eqn:EO; [|exists e; reflexivity]. cbn [bindR mt_to_sensor].
  destruct (channel_comments (c_comment c)) as [cs|e]; [|exists e; reflexivity]. cbn [bindR]. unfold read_channel. cbn [x_code].
  exists ValueError. assert (OS : exists a, o = Some a).
  { unfold code_of_direction in EO. destruct (dget text_dec (lower (lower [d])) forced_orientation) as [a|]; [|discriminate EO]. injection EO as <-. exists a. reflexivity. }
  destruct OS as (a & ->). cbn [show_code]. assert (RC : forall q, read_channel_code [q; "Y"%char; a] = Err ValueError).
  { intros q. unfold read_channel_code. cbv zeta. change (dget ascii_dec "Y"%char measurement_code_dict_reverse) with (@None text). reflexivity. }
  rewrite RC. reflexivity.
Qed.

(** A channel whose name does not end in x, y or z cannot be written. *)
Theorem C120_numbered_refuted c r d : c_comp c = r ++ [d] -> name_char d -> ~ In d ["x"%char; "y"%char; "z"%char] -> write_channel c = Err ValueError.
Proof.
  intros E N I. unfold write_channel. rewrite E at 1. rewrite rev_app_distr. cbn [rev app]. unfold make_channel_code. cbv zeta. cbn [get_orientation_code].
  rewrite other_direction; [reflexivity|exact I|]. destruct (name_char_word d N) as [_ L]. unfold to_lower in L. destruct (is_upper d) eqn:U; [|reflexivity]. exfalso. revert L U. clear.
  intros L U. assert (G : implb (is_upper d) (negb (Ascii.eqb (to_lower d) d)) = true) by (clear; revert d; apply ascii_forall; vm_compute; reflexivity).
  rewrite U in G. cbn [implb] in G. unfold to_lower in G. rewrite U, L in G. rewrite Ascii.eqb_refl in G. discriminate G.
Qed.
Example C120_numbered_refuted_hyp : txt "ex01" = txt "ex0" ++ ["1"%char] /\ name_char "1"%char /\ ~ In "1"%char ["x"%char; "y"%char; "z"%char].
Proof. split; [reflexivity|]. split; [right; left; reflexivity|]. intros [E|[E|[E|[]]]]; discriminate E. Qed.

(** A model of spaces cannot be written. *)
Theorem C120_blank_model_refuted c s p m r d :
  c_kind c = Magnetic s p -> c_comp c = r ++ [d] -> In d ["x"%char; "y"%char; "z"%char] -> s_model s = Some m -> m <> [] -> Forall (fun x => is_space x = true) m -> write_channel c = Err IndexError.
Proof.
  intros K EC ID EM NM SP. unfold write_channel. rewrite EC at 1. rewrite rev_app_distr. cbn [rev app]. rewrite K. cbn [type_of]. destruct (magnetic_code (c_rate c) d ID) as (code & b & o & MC & _).
  rewrite MC. cbn [bindR mt_to_sensor]. rewrite EM. destruct m as [|a m]; [congruence|].
  replace (split_ws (a :: m)) with (@nil text); [reflexivity|]. symmetry. rewrite <- (app_nil_r (a :: m)). rewrite split_ws_lead; [reflexivity|]. apply forallb_forall. rewrite Forall_forall in SP. exact SP.
Qed.

(** A channel that ends before it starts is read with the end 2200-01-01. *)
Theorem C120_period c d : trip c = Ok d -> (c_end c < c_start c)%Z -> c_start d = c_start c /\ c_end d = 7258118400%Z.
Proof.
  intros T L. unfold trip in T. destruct (write_channel c) as [x|e] eqn:W; [|discriminate T]. cbn [bindR] in T.
  assert (X : x_start x = c_start c /\ x_end x = c_end c).
  { unfold write_channel in W. destruct (rev (c_comp c)); [discriminate W|]. destruct (make_channel_code _ _ _ _); [|discriminate W]. cbn [bindR] in W. destruct (mt_to_sensor _); [|discriminate W]. cbn [bindR] in W.
    destruct (channel_comments _); [|discriminate W]. cbn [bindR] in W. injection W as <-. split; reflexivity. }
  destruct X as [X1 X2]. unfold read_channel in T. destruct (read_channel_code _); [|discriminate T]. cbn [bindR] in T.
  match type of T with bindR ?a _ = _ => destruct a; [|discriminate T] end. cbn [bindR] in T. destruct (channel_runs (x_comments x)) as [? cm].
  match type of T with bindR ?a _ = _ => destruct a; [|discriminate T] end. cbn [bindR] in T.
  match type of T with bindR ?a _ = _ => destruct a; [|discriminate T] end. cbn [bindR] in T. injection T as <-. cbn [c_start c_end]. rewrite X1, X2, (proj2 (Z.ltb_lt _ _) L). split; reflexivity.
Qed.
Example C120_period_hyp : exists d, trip (mkChannel (txt "ey") (c_kind demo_electric) 90 0 1 200 100 None None) = Ok d.
Proof. eexists. vm_compute. reflexivity. Qed.

(** A second trip changes nothing more. *)
Theorem C120_electric_again c p n q pi ni runs d :
  c_kind c = Electric p n (Fin q) -> decimal q -> l_id p = Some pi -> l_id n = Some ni -> trimmed_id pi -> trimmed_id ni ->
  electric_name (c_comp c) -> lists (c_comment c) runs -> trip c = Ok d -> exists e, trip d = Ok e /\ same_channel d e.
Proof.
  intros K DQ EP EN PI NI NM LI T. destruct (electric_trip c p n q pi ni runs K DQ EP EN PI NI NM LI) as (v & VQ & T'). rewrite T in T'. injection T' as ->.
  assert (L2 : lists (Some (listing runs)) runs) by (right; split; [reflexivity|]; destruct LI as [[_ ->]|[_ F]]; [constructor|exact F]).
  assert (DV : decimal v) by (destruct DQ as (a & b & E); exists a, b; rewrite VQ; exact E).
  destruct (electric_trip (electric_channel c pi ni p v runs) _ _ v pi ni runs eq_refl DV eq_refl eq_refl PI NI NM L2) as (u & UV & T2).
  eexists. split; [exact T2|]. unfold electric_channel, same_channel. cbn [c_comp c_kind c_azimuth c_tilt c_rate c_start c_end c_comment c_special l_maker l_model l_place same_kind].
  assert (G : forall v, given (given v) = given v) by (intros [[|? ?]|]; reflexivity). rewrite !G.
  destruct (mod_360_direction (c_azimuth c)) as (A1 & A2 & _). destruct (mod_360_direction (c_tilt c)) as (B1 & B2 & _).
  split; [reflexivity|]. split; [split; [reflexivity|]; split; [reflexivity|symmetry; exact UV]|]. split; [symmetry; apply mod_360_same; assumption|]. split; [symmetry; apply mod_360_same; assumption|].
  split; [reflexivity|]. split; [reflexivity|]. split; [|split; reflexivity].
  destruct (c_end c <? c_start c)%Z eqn:EE; [destruct (far_end <? c_start c)%Z; reflexivity|rewrite EE; reflexivity].
Qed.
Theorem C120_magnetic_again c s p t runs d :
  c_kind c = Magnetic s p -> s_type s = Some t -> coil_type t -> (forall m, s_model s = Some m -> m = [] \/ exists w, first_word m w) ->
  magnetic_name (c_comp c) -> lists (c_comment c) runs -> (c_start c <= c_end c)%Z -> trip c = Ok d -> exists e, trip d = Ok e /\ c_kind e = c_kind d /\ rest_kept runs d e.
Proof.
  intros K ET CT MD NM LI SE T. destruct (C120_magnetic c s p t runs K ET CT MD NM LI SE) as (d' & m & T' & RK & KD & MA). rewrite T in T'. injection T' as <-.
  destruct RK as (RC & RA & RT & RR & RS & RE & RM). destruct MA as (w & -> & MW).
  assert (NW : no_space w).
  { destruct (s_model s) as [x|]; [|subst w; split; [discriminate|repeat constructor]]. destruct MW as [[_ ->]|(a & b & _ & _ & N & _)]; [split; [discriminate|repeat constructor]|exact N]. }
  assert (FW : first_word (w ++ txt " " ++ shown (s_name s)) w).
  { exists [], (txt " " ++ shown (s_name s)). split; [reflexivity|]. split; [constructor|]. split; [exact NW|]. right. exists " "%char, (shown (s_name s)). split; reflexivity. }
  assert (MD2 : forall x, s_model (mkSensor (s_id s) (s_maker s) (Some (w ++ txt " " ++ shown (s_name s))) (Some t) (s_name s)) = Some x -> x = [] \/ exists w, first_word x w).
  { intros x E. injection E as <-. right. exists w. exact FW. }
  assert (L2 : lists (c_comment d) runs) by (rewrite RM; right; split; [reflexivity|]; destruct LI as [[_ ->]|[_ F]]; [constructor|exact F]).
  assert (NM2 : magnetic_name (c_comp d)) by (rewrite RC; exact NM). assert (SE2 : (c_start d <= c_end d)%Z) by (rewrite RS, RE; exact SE).
  destruct (C120_magnetic d _ p t runs KD eq_refl CT MD2 NM2 L2 SE2) as (e & m2 & T2 & RK2 & KE & _).
  exists e. split; [exact T2|]. split; [|exact RK2]. destruct (C120_magnetic_kept d _ p t runs KD eq_refl CT MD2 NM2 L2 SE2) as [_ BK].
  destruct (BK (ex_intro _ w (conj NW eq_refl))) as (e' & T3 & E3). rewrite T2 in T3. injection T3 as <-. exact E3.
Qed.

(** A comment that does not list runs is replaced by an empty list of runs. *)
Theorem C120_comment_refuted c d s : c_comment c = Some s -> ~ In ":"%char s -> ~ In "["%char s -> trip c = Ok d -> c_comment d = Some (txt "run_ids: []").
Proof.
  intros EC N1 N2 T. unfold trip in T. destruct (write_channel c) as [x|e] eqn:W; [|discriminate T]. cbn [bindR] in T.
  assert (X : x_comments x = []).
  { unfold write_channel in W. destruct (rev (c_comp c)); [discriminate W|]. destruct (make_channel_code _ _ _ _); [|discriminate W]. cbn [bindR] in W. destruct (mt_to_sensor _); [|discriminate W]. cbn [bindR] in W.
    assert (E0 : channel_comments (c_comment c) = Ok []) by (rewrite EC; exact (C83_comment_refuted s N1 N2)). rewrite E0 in W. cbn [bindR] in W. injection W as <-. reflexivity. }
  unfold read_channel in T. destruct (read_channel_code _); [|discriminate T]. cbn [bindR] in T.
  match type of T with bindR ?a _ = _ => destruct a; [|discriminate T] end. cbn [bindR] in T. rewrite X in T. change (channel_runs []) with (@nil text, txt "run_ids: []") in T. cbv beta iota in T.
  match type of T with bindR ?a _ = _ => destruct a; [|discriminate T] end. cbn [bindR] in T.
  match type of T with bindR ?a _ = _ => destruct a; [|discriminate T] end. cbn [bindR] in T. injection T as <-. reflexivity.
Qed.
Example C120_comment_refuted_hyp : exists d, trip (mkChannel (txt "ey") (c_kind demo_electric) 90 0 1 100 200 (Some (txt "noisy")) None) = Ok d.
Proof. eexists. vm_compute. reflexivity. Qed.

(** A negative tilt, and an attribute that no channel had. *)
Theorem C120_tilt_refuted : exists c d, trip c = Ok d /\ (c_tilt c == -90)%Q /\ (c_tilt d == 270)%Q /\ c_special c = None /\ c_special d = Some [txt "GEOPHYSICAL"].
Proof.
  exists (mkChannel (txt "ez") (c_kind demo_electric) 0 (-90) 1 100 200 None None). eexists. split; [vm_compute; reflexivity|]. split; [reflexivity|]. split; [reflexivity|]. split; reflexivity.
Qed.

(** The units are the longer of the name and the description of the units of the last stage, the name if they are as long. *)
Theorem C120_units name description u : units_of name description = Some u <->
  u <> [] /\ ((name = Some u /\ forall v, description = Some v -> (length v <= length u)%nat) \/ (description = Some u /\ forall v, name = Some v -> (length v < length u)%nat)).
Proof.
  unfold units_of. split.
  - destruct description as [[|a d]|], name as [[|b n]|]; cbn [given]; try discriminate; intros E;
      try (injection E as <-; split; [discriminate|]; (left; split; [reflexivity|]; intros v V; (discriminate V || injection V as <-; cbn; lia)) || (right; split; [reflexivity|]; intros v V; (discriminate V || injection V as <-; cbn; lia))).
    destruct (Nat.ltb_spec (length (b :: n)) (length (a :: d))); injection E as <-; (split; [discriminate|]); [right|left]; (split; [reflexivity|]; intros v V; injection V as <-; assumption).
  - intros (NU & [[-> H]|[-> H]]).
    + destruct u as [|b n]; [congruence|]. cbn [given]. destruct description as [[|a d]|]; try reflexivity. cbn [given]. pose proof (H _ eq_refl) as L. rewrite (proj2 (Nat.ltb_ge _ _) L). reflexivity.
    + destruct u as [|b n]; [congruence|]. cbn [given]. destruct name as [[|a d]|]; try reflexivity. cbn [given]. pose proof (H _ eq_refl) as L. rewrite (proj2 (Nat.ltb_lt _ _) L). reflexivity.
Qed.
Example C120_units_hyp : units_of (Some (txt "mV/km")) (Some (txt "milliVolt per kilometer")) = Some (txt "milliVolt per kilometer"). Proof. reflexivity. Qed.

Print Assumptions C120_electric.
Print Assumptions C120_magnetic_kept.
Print Assumptions C120_auxiliary_refuted.
