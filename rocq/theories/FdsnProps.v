(** C34-C36: FDSN channel codes. *)
From Coq Require Import Reals Lra.
From Verif Require Import PyBase PyText TextFacts PyNum PySort FdsnModel FdsnSpec FdsnProofs.

(* ================================================================ C34 *)
Local Open Scope Q_scope.

(** The letter of a sample rate is exactly the one of the table in [rate_of_letter]; the letter A stands
    for the rates that the table leaves out. *)
Theorem C34_letter_of_rate :
  forall r c, get_period_code r = c <-> (rate_of_letter c r \/ (c = "A"%char /\ uncovered r)).
Proof.
  intros r c. split.
  - intros <-. destruct (rate_cases r) as [U|(c & H)].
    + right. split; [now apply letter_of_uncovered|assumption].
    + left. now rewrite (letter_of_rate c r H).
  - intros [H|(-> & U)]; [now apply letter_of_rate|now apply letter_of_uncovered].
Qed.
(** The band that reading the letter gives contains the rate. *)
Theorem C34_letter_is_read_as_its_band :
  forall r, ~ uncovered r ->
  exists lo hi, dget ascii_dec (get_period_code r) period_code_dict = Some (lo, hi) /\ lo <= r <= hi.
Proof.
  intros r H. destruct (rate_cases r) as [U|(c & L)]; [contradiction|].
  pose proof (letter_of_rate c r L) as E.
  destruct (first_band_in sorted_codes r c E (letter_not_A c r L)) as ((lo & hi) & I & B).
  exists lo, hi. rewrite E. split; [now apply band_in_dict|exact B].
Qed.
(** No rate has two letters. *)
Theorem C34_one_letter : forall r c d, rate_of_letter c r -> rate_of_letter d r -> c = d.
Proof. intros r c d H K. apply letter_of_rate in H. apply letter_of_rate in K. congruence. Qed.
(** A higher rate never gets a band below that of a lower one. *)
Theorem C34_bands_follow_the_rate :
  forall r s lo hi lo' hi', ~ uncovered r -> ~ uncovered s -> r <= s ->
  dget ascii_dec (get_period_code r) period_code_dict = Some (lo, hi) ->
  dget ascii_dec (get_period_code s) period_code_dict = Some (lo', hi') -> lo <= hi'.
Proof.
  intros r s lo hi lo' hi' U V L E F.
  destruct (C34_letter_is_read_as_its_band r U) as (a & b & E' & B). rewrite E in E'. injection E' as <- <-.
  destruct (C34_letter_is_read_as_its_band s V) as (a' & b' & F' & B'). rewrite F in F'. injection F' as <- <-. lra.
Qed.
Example C34_hyp :
  get_period_code (inject_Z 8) = "M"%char /\ get_period_code (inject_Z 1) = "L"%char
  /\ get_period_code (inject_Z 150) = "E"%char /\ get_period_code (inject_Z 4096) = "F"%char
  /\ ~ uncovered (inject_Z 8).
Proof.
  split; [vm_compute; reflexivity|]. split; [vm_compute; reflexivity|]. split; [vm_compute; reflexivity|].
  split; [vm_compute; reflexivity|]. unfold uncovered, inject_Z. intros H.
  repeat match type of H with _ \/ _ => destruct H as [H|H] end; lra.
Qed.
(** Refuted as stated: positive rates are left to the letter A, also common ones (one sample in two
    seconds, 8192 and 24000 samples per second), and the standard letters D, G, H and S are never given. *)
Theorem C34_uncovered_rates_refuted :
  get_period_code (1 # 2) = "A"%char /\ get_period_code (inject_Z 8192) = "A"%char /\ get_period_code (inject_Z 24000) = "A"%char.
Proof. repeat split; vm_compute; reflexivity. Qed.
Theorem C34_letters_never_given :
  forall r, ~ In (get_period_code r) ["D"%char; "G"%char; "H"%char; "S"%char].
Proof.
  intros r I. destruct (proj1 (C34_letter_of_rate r _) eq_refl) as [H|(H & _)].
  - cbn [In] in I. unfold rate_of_letter in H. set (c := get_period_code r) in *. clearbody c.
    repeat match type of H with _ \/ _ => destruct H as [(H & _)|H] end; try destruct H as (H & _); subst c;
    repeat (destruct I as [I|I]; [discriminate|]); destruct I.
  - cbn [In] in I. rewrite H in I. repeat (destruct I as [I|I]; [discriminate|]). destruct I.
Qed.

(* ================================================================ C35 *)
Local Open Scope R_scope.

(** The code of a horizontal channel tells the angle between its line and north: N up to 15 degrees,
    1 up to 45, 2 below 75, E from 75. *)
Theorem C35_horizontal :
  forall a t, line_angle a t ->
  (t <= 15 -> code_of_azimuth a Horizontal = Some "N"%char)
  /\ (15 < t <= 45 -> code_of_azimuth a Horizontal = Some "1"%char)
  /\ (45 < t < 75 -> code_of_azimuth a Horizontal = Some "2"%char)
  /\ (75 <= t -> code_of_azimuth a Horizontal = Some "E"%char).
Proof.
  intros a t H. rewrite (horizontal_code a t H).
  destruct (Rle_dec t 15); destruct (Rle_dec t 45); destruct (Rlt_dec t 75);
  repeat split; intros; try reflexivity; exfalso; Lra.lra.
Qed.
Theorem C35_vertical :
  forall a t, line_angle a t ->
  (t <= 15 -> code_of_azimuth a Vertical = Some "Z"%char) /\ (15 < t -> code_of_azimuth a Vertical = Some "3"%char).
Proof.
  intros a t H. rewrite (vertical_code a t H).
  destruct (Rle_dec t 15); split; intros; try reflexivity; exfalso; Lra.lra.
Qed.
(** Every azimuth has such an angle, so every azimuth gets a code. *)
Theorem C35_every_azimuth :
  forall a, (exists t, line_angle a t)
  /\ (exists c, code_of_azimuth a Horizontal = Some c) /\ (exists c, code_of_azimuth a Vertical = Some c).
Proof.
  intros a. destruct (line_angle_exists a) as (t & T). split; [now exists t|].
  split; eexists; [apply (horizontal_code a t T)|apply (vertical_code a t T)].
Qed.
(** Turning the sensor round, or mirroring it, does not change the code. *)
Theorem C35_direction_insensitive :
  forall a o, code_of_azimuth (a + 180) o = code_of_azimuth a o /\ code_of_azimuth (- a) o = code_of_azimuth a o
  /\ forall k, code_of_azimuth (a + 360 * IZR k) o = code_of_azimuth a o.
Proof.
  intros a o. unfold code_of_azimuth. rewrite !value_mod.
  assert (E1 : angle (a + 180) = angle a) by (rewrite <- (angle_shift a 1); f_equal; Lra.lra).
  rewrite E1, angle_opp. split; [reflexivity|]. split; [reflexivity|]. intros k. rewrite value_mod.
  assert (E2 : angle (a + 360 * IZR k) = angle a) by (rewrite <- (angle_shift a (2 * k)); f_equal; rewrite mult_IZR; Lra.lra).
  now rewrite E2.
Qed.
Example C35_hyp : line_angle 190 10 /\ line_angle (-75) 75 /\ line_angle 135 45
  /\ code_of_azimuth 190 Horizontal = Some "N"%char /\ code_of_azimuth (-75) Horizontal = Some "E"%char
  /\ code_of_azimuth 135 Horizontal = Some "1"%char.
Proof.
  assert (A : line_angle 190 10) by (split; [Lra.lra|exists 1%Z; left; Lra.lra]).
  assert (B : line_angle (-75) 75) by (split; [Lra.lra|exists 0%Z; right; Lra.lra]).
  assert (C : line_angle 135 45) by (split; [Lra.lra|exists 1%Z; right; Lra.lra]).
  repeat split; try (split; Lra.lra); try Lra.lra; try (apply A || apply B || apply C).
  - apply (proj1 (C35_horizontal _ _ A)). Lra.lra.
  - apply (proj2 (proj2 (proj2 (C35_horizontal _ _ B)))). Lra.lra.
  - apply (proj1 (proj2 (C35_horizontal _ _ C))). Lra.lra.
Qed.
(** Refuted as stated for other orientations than "horizontal" and "vertical": no code is given, and the
    channel code ends in "None". *)
Theorem C35_other_orientation_refuted :
  forall a r m, code_of_azimuth a OtherFacing = None
  /\ exists p s, make_channel_code r m (ANumber a) OtherFacing = Ok (p :: s :: txt "None").
Proof. intros a r m. split; [reflexivity|]. eexists _, _. reflexivity. Qed.

(* ================================================================ C36 *)

(** Reading the code made for a horizontal channel gives a band that contains the rate, the kind of
    measurement, and an angle that is right to the variance given with it. *)
Theorem C36_round_trip_partial :
  forall r m a t, ~ uncovered r -> In (lower m) measurements -> line_angle a t ->
  exists code lo hi ang var,
    make_channel_code r m (ANumber a) Horizontal = Ok code
    /\ read_channel_code code = Ok (mkInfo (lo, hi) (lower m) (ang, var))
    /\ (lo <= r <= hi)%Q /\ Rabs (t - IZR ang) <= IZR var.
Proof.
  intros r m a t U M T. destruct (C34_letter_is_read_as_its_band r U) as (lo & hi & D & B).
  destruct (measurement_round_trip m (lower m) eq_refl M) as (s & S & R & N).
  unfold make_channel_code, get_orientation_code. rewrite (horizontal_code a t T). cbn [bindR show_code].
  rewrite S. set (o := if Rle_dec t 15 then _ else _). exists [get_period_code r; s; o], lo, hi.
  assert (O : exists ang var, dget ascii_dec o orientation_code_dict = Some (ang, var) /\ Rabs (t - IZR ang) <= IZR var).
  { pose proof (proj1 T) as T0. unfold o. destruct (Rle_dec t 15); [|destruct (Rle_dec t 45); [|destruct (Rlt_dec t 75)]];
    eexists _, _; (split; [reflexivity|]); apply Rabs_le; Lra.lra. }
  destruct O as (ang & var & O & V). exists ang, var. split; [reflexivity|]. split; [|split; assumption].
  cbn [read_channel_code]. rewrite D, R, N, O. reflexivity.
Qed.
Example C36_round_trip_hyp :
  In (lower (txt "Electric")) measurements /\ line_angle 190 10 /\ ~ uncovered (inject_Z 8).
Proof.
  split; [cbn; tauto|]. split; [split; [Lra.lra|exists 1%Z; left; Lra.lra]|]. apply C34_hyp.
Qed.
(** The same for a channel whose direction is named x, y or z. *)
Theorem C36_named_direction :
  forall r m d, ~ uncovered r -> In (lower m) measurements -> In (lower d) [txt "x"; txt "y"; txt "z"] ->
  exists code lo hi o,
    make_channel_code r m (ADirection d) Horizontal = Ok code
    /\ read_channel_code code = Ok (mkInfo (lo, hi) (lower m) o) /\ (lo <= r <= hi)%Q
    /\ (forall x, (lower m = txt "electric" /\ x = txt "e") \/ (lower m = txt "magnetic" /\ x = txt "h") ->
        create_mt_component code = Ok (x ++ lower d)%list).
Proof.
  intros r m d U M I. destruct (C34_letter_is_read_as_its_band r U) as (lo & hi & D & B).
  destruct (measurement_round_trip m (lower m) eq_refl M) as (s & S & R & N).
  unfold make_channel_code, get_orientation_code, code_of_direction. rewrite S.
  assert (O : exists c o, dget text_dec (lower d) forced_orientation = Some c /\ dget ascii_dec c orientation_code_dict = Some o
     /\ dget ascii_dec c mt_orientation_dict = Some (lower d)).
  { destruct I as [<-|[<-|[<-|[]]]]; eexists _, _; (split; [vm_compute; reflexivity|]; split; vm_compute; reflexivity). }
  destruct O as (c & o & O1 & O2 & O3). rewrite O1. cbn [bindR show_code].
  exists [get_period_code r; s; c], lo, hi, o. split; [reflexivity|].
  assert (RC : read_channel_code [get_period_code r; s; c] = Ok (mkInfo (lo, hi) (lower m) o)).
  { cbn [read_channel_code]. rewrite D, R, N, O2. reflexivity. }
  split; [exact RC|]. split; [exact B|]. intros x X. unfold create_mt_component. rewrite RC. cbn [bindR i_measurement].
  rewrite N. cbn [bindR i_measurement].
  assert (C : dget text_dec (lower m) mt_components_dict = Some x).
  { destruct X as [(-> & ->)|(-> & ->)]; vm_compute; reflexivity. }
  rewrite C, O3. reflexivity.
Qed.
(** The channel name made from the code of a horizontal electric or magnetic channel: x within 45 degrees
    of north, y beyond; and z for vertical ones. *)
Theorem C36_channel_name :
  forall r m a t x, line_angle a t ->
  (lower m = txt "electric" /\ x = txt "e") \/ (lower m = txt "magnetic" /\ x = txt "h") ->
  (exists code, make_channel_code r m (ANumber a) Horizontal = Ok code
     /\ create_mt_component code = Ok (x ++ if Rle_dec t 45 then txt "x" else txt "y")%list)
  /\ (exists code, make_channel_code r m (ANumber a) Vertical = Ok code
     /\ create_mt_component code = Ok (x ++ txt "z")%list).
Proof.
  intros r m a t x T X.
  assert (M : In (lower m) measurements) by (destruct X as [(-> & _)|(-> & _)]; cbn; tauto).
  destruct (measurement_round_trip m (lower m) eq_refl M) as (s & S & R & N).
  assert (G : forall p o w, dget ascii_dec o mt_orientation_dict = Some w -> (exists v, dget ascii_dec o orientation_code_dict = Some v) ->
     create_mt_component [p; s; o] = Ok (x ++ w)%list).
  { intros p o w W (v & V). unfold create_mt_component. cbn [read_channel_code]. rewrite R, N, V. cbn [bindR i_measurement].
    rewrite N. cbn [bindR i_measurement].
    assert (C : dget text_dec (lower m) mt_components_dict = Some x).
    { destruct X as [(-> & ->)|(-> & ->)]; vm_compute; reflexivity. }
    rewrite C, W. reflexivity. }
  unfold make_channel_code, get_orientation_code. rewrite (horizontal_code a t T), (vertical_code a t T), S. cbn [bindR show_code].
  split; (eexists; split; [reflexivity|]); apply G.
  - destruct (Rle_dec t 15); destruct (Rle_dec t 45); destruct (Rlt_dec t 75); try reflexivity; exfalso; Lra.lra.
  - destruct (Rle_dec t 15); [|destruct (Rle_dec t 45); [|destruct (Rlt_dec t 75)]]; eexists; reflexivity.
  - destruct (Rle_dec t 15); reflexivity.
  - destruct (Rle_dec t 15); eexists; reflexivity.
Qed.
(** A code that does not have three characters is refused. *)
Theorem C36_three_characters : forall c, length c <> 3%nat -> read_channel_code c = Err ValueError.
Proof.
  intros c H. destruct c as [|a [|b [|o [|d r]]]]; try reflexivity. cbn in H. congruence.
Qed.
(** Location codes have two characters: the letter of the component and the last digit of the number. *)
Theorem C36_location_code :
  forall component number code, create_location_code component number = Ok code ->
  exists c r d, component = c :: r /\ code = [to_upper c; d] /\ is_digit d = true
    /\ Z.of_N (PyText.code d) = (48 + number mod 10)%Z.
Proof.
  intros component number code0 H. destruct component as [|c r]; [discriminate|]. injection H as <-.
  exists c, r, (ascii_of_N (48 + Z.to_N (number mod 10))). split; [reflexivity|]. split; [reflexivity|].
  pose proof (Z.mod_pos_bound number 10 ltac:(lia)) as B. set (k := (number mod 10)%Z) in *. clearbody k.
  assert (K : In k [0;1;2;3;4;5;6;7;8;9]%Z) by (cbn; lia).
  cbn [In] in K. repeat (destruct K as [<-|K]; [split; reflexivity|]). destruct K.
Qed.
(** Refuted as stated: tide comes back as magnetic, part of a name finds another measurement, a rate
    without a letter comes back as 1 sample per second, an unknown measurement or a vertical channel that
    is tilted by more than the variance is not described by what is read. *)
Theorem C36_losses_refuted :
  (exists code info, make_channel_code (inject_Z 8) (txt "tide") (ADirection (txt "x")) Horizontal = Ok code
     /\ read_channel_code code = Ok info /\ i_measurement info = txt "magnetic")
  /\ (exists code info, make_channel_code (inject_Z 8) (txt "rain") (ADirection (txt "x")) Horizontal = Ok code
     /\ read_channel_code code = Ok info /\ i_measurement info = txt "linear_strain")
  /\ (exists code info, make_channel_code (1 # 2) (txt "electric") (ADirection (txt "x")) Horizontal = Ok code
     /\ read_channel_code code = Ok info /\ i_band info = (inject_Z 1, inject_Z 1))
  /\ (exists code, make_channel_code (inject_Z 8) (txt "voltage") (ADirection (txt "x")) Horizontal = Ok code
     /\ read_channel_code code = Err ValueError).
Proof.
  split; [|split; [|split]].
  - eexists _, _. split; [vm_compute; reflexivity|]. split; vm_compute; reflexivity.
  - eexists _, _. split; [vm_compute; reflexivity|]. split; vm_compute; reflexivity.
  - eexists _, _. split; [vm_compute; reflexivity|]. split; vm_compute; reflexivity.
  - eexists. split; [vm_compute; reflexivity|]. vm_compute; reflexivity.
Qed.
Theorem C36_tilted_vertical_refuted :
  forall r a t, 15 < t -> line_angle a t ->
  exists code info, make_channel_code r (txt "magnetic") (ANumber a) Vertical = Ok code
    /\ read_channel_code code = Ok info
    /\ IZR (snd (i_orientation info)) < Rabs (t - IZR (fst (i_orientation info))).
Proof.
  intros r a t H T. unfold make_channel_code, get_orientation_code. rewrite (vertical_code a t T).
  destruct (Rle_dec t 15); [exfalso; Lra.lra|]. cbn [bindR show_code].
  destruct (measurement_round_trip (txt "magnetic") (txt "magnetic") eq_refl ltac:(cbn; tauto)) as (s & S & R & N).
  rewrite S. eexists _, _. split; [reflexivity|]. cbn [read_channel_code]. rewrite R, N.
  split; [reflexivity|]. cbn [i_orientation fst snd]. rewrite Rabs_pos_eq; Lra.lra.
Qed.

Print Assumptions C34_letter_of_rate.
Print Assumptions C35_horizontal.
Print Assumptions C36_round_trip_partial.
