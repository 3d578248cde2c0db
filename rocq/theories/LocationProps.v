(** C32 and C33: positions as texts, and their limits. *)
From Coq Require Import Qabs.
From Verif Require Import PyBase PyText TextFacts PyNum IsoModel IsoProofs PyFloat PyFloatFacts LocationModel LocationSpec LocationProofs.
Local Open Scope Q_scope.

(* ================================================================ C32 *)

(** A position written as degrees, minutes and seconds is read back, sign included, to half of the last
    decimal kept, unless it lies strictly between -1 and 0. *)
Theorem C32_round_trip_partial :
  forall q, q <= inject_Z (-1) \/ 0 <= q ->
  exists v, str2float (float2str q) = Ok (Fin v) /\ close_position v q /\ (q < 0 -> v < 0).
Proof.
  intros q H. destruct (round_trip q) as (v & R & V). exists v. split; [assumption|].
  destruct (py_int q <? 0)%Z eqn:N.
  - apply py_int_sign in N. change (inject_Z (-1)) with (-1 # 1) in N.
    assert (A : Qabs q == - q) by (apply Qabs_neg; lra).
    pose proof (nearest_close (Qabs q)) as C.
    split.
    + rewrite V. unfold close_position in *. rewrite A in C at 2.
      assert (E : (-1 # 1) * nearest (Qabs q) - q == - (nearest (Qabs q) - - q)) by ring.
      rewrite E, Qabs_opp. exact C.
    + intros _. rewrite V. unfold close_position in C. apply Qabs_Qle_condition in C. rewrite A in C at 2 4.
      change ((5 # 100000) / inject_Z 3600) with ((5 # 100000) * (1 # 3600)) in C. set (n := nearest (Qabs q)) in *. clearbody n. lra.
  - assert (P : 0 <= q).
    { destruct H as [H|H]; [|assumption]. apply py_int_sign in H. congruence. }
    assert (A : Qabs q == q) by now apply Qabs_pos.
    split; [|intros; lra]. rewrite V. pose proof (nearest_close (Qabs q)) as C. rewrite A in C at 2.
    assert (E : 1 * nearest (Qabs q) == nearest (Qabs q)) by ring. rewrite E. exact C.
Qed.
Example C32_round_trip_hyp :
  float2str (-118125 # 1000) = txt "-118:07:30.000000" /\ float2str (34999999999 # 1000000000) = txt "35:00:0.000000"
  /\ str2float (txt "-118:07:30.000000") = Ok (Fin (inject_Z (-1) * (Qabs (inject_Z (-118) * 1) + inject_Z 7 * 1 / inject_Z 60 + inject_Z 30000000 * (1 # 1000000) / inject_Z 3600)))
  /\ -118125 # 1000 <= inject_Z (-1).
Proof. split; [vm_compute; reflexivity|]. split; [vm_compute; reflexivity|]. split; [vm_compute; reflexivity|]. discriminate. Qed.

(** The minutes and seconds written are below 60. *)
Theorem C32_minutes_and_seconds_below_60 : forall q, proper_dms (float2str q).
Proof.
  intros q. destruct (dms_parts q) as (((sign & deg) & m) & s) eqn:E.
  now destruct (float2str_read _ _ _ _ _ E) as (v & _ & _ & P).
Qed.

(** Refuted as stated: between -1 and 0 the sign is lost, for every such position. *)
Theorem C32_sign_refuted :
  forall q, inject_Z (-1) < q -> q < 0 ->
  exists v, str2float (float2str q) = Ok (Fin v) /\ close_position v (- q) /\ 0 <= v.
Proof.
  intros q A B. destruct (round_trip q) as (v & R & V). exists v. split; [assumption|].
  destruct (py_int q <? 0)%Z eqn:N; [apply py_int_sign in N; lra|].
  assert (AB : Qabs q == - q) by (apply Qabs_neg; lra).
  assert (E : 1 * nearest (Qabs q) == nearest (Qabs q)) by ring. rewrite E in V.
  split.
  - rewrite V. pose proof (nearest_close (Qabs q)) as C. rewrite AB in C at 2. exact C.
  - rewrite V. apply nearest_nonneg, Qabs_nonneg.
Qed.
Example C32_sign_hyp :
  float2str (-1 # 2) = txt "0:30:0.000000" /\ inject_Z (-1) < -1 # 2 /\ -1 # 2 < 0.
Proof. split; [vm_compute; reflexivity|]. split; reflexivity. Qed.

(** Two positions with the same text differ by no more than the rounding, or in sign only. *)
Theorem C32_same_text :
  forall p q, float2str p = float2str q -> 0 <= p -> 0 <= q -> Qabs (p - q) <= (1 # 10000) / inject_Z 3600.
Proof.
  intros p q E P Q. destruct (C32_round_trip_partial p (or_intror P)) as (v & R1 & C1 & _).
  destruct (C32_round_trip_partial q (or_intror Q)) as (w & R2 & C2 & _).
  rewrite E, R2 in R1. injection R1 as <-. unfold close_position in *.
  apply Qabs_Qle_condition in C1. apply Qabs_Qle_condition in C2. apply Qabs_Qle_condition.
  change (inject_Z 3600) with (3600 # 1) in *.
  assert (E1 : (5 # 100000) / (3600 # 1) == 1 # 72000000) by reflexivity.
  assert (E2 : (1 # 10000) / (3600 # 1) == 1 # 36000000) by reflexivity.
  rewrite E1 in *. rewrite E2. split; lra.
Qed.

(** A text that does not have three parts is refused. *)
Theorem C32_three_parts :
  forall s, s <> txt "None" -> length (split_on ":" s) <> 3%nat -> str2float s = Err ValueError.
Proof.
  intros s N L. unfold str2float. destruct (text_eqb s (txt "None")) eqn:E; [apply text_eqb_eq in E; congruence|].
  destruct (split_on ":" s) as [|a [|b [|c [|d r]]]]; try reflexivity. cbn in L. congruence.
Qed.

(* ================================================================ C33 *)

Definition bound (a : axis) : Q := match a with Latitude => inject_Z 90 | Longitude => inject_Z 180 end.

(** Whatever is accepted is a number within the limits. *)
Theorem C33_accepted_is_in_range :
  forall a v x, validate_position a v = Ok x -> exists q, x = Fin q /\ - bound a <= q <= bound a.
Proof.
  intros a v x. unfold validate_position.
  assert (Z : exists q, Fin 0 = Fin q /\ - bound a <= q <= bound a).
  { exists 0. split; [reflexivity|]. destruct a; split; discriminate. }
  assert (G : forall o, match o with None => Ok (Fin 0) | Some y => if in_limit (limit a) y then Ok y else Err ValueError end = Ok x ->
     exists q, x = Fin q /\ - bound a <= q <= bound a).
  { intros [y|] H; [|injection H as <-; exact Z].
    destruct (in_limit (limit a) y) eqn:L; [|discriminate]. injection H as <-.
    destruct y as [q|]; [|discriminate]. exists q. split; [reflexivity|]. cbn in L. apply Qle_bool_iff, Qabs_Qle_condition in L.
    destruct a; exact L. }
  destruct (match v with GNone => _ | GText s => _ | GNum y => _ end) as [o|e]; cbn [bindR]; [apply G|discriminate].
Qed.
Theorem C33_in_range_number_unchanged :
  forall a q, - bound a <= q <= bound a -> validate_position a (GNum (Fin q)) = Ok (Fin q).
Proof.
  intros a q H. unfold validate_position. cbn [bindR]. unfold in_limit.
  assert (B : Qle_bool (Qabs q) (limit a) = true).
  { apply Qle_bool_iff, Qabs_Qle_condition. destruct a; exact H. }
  now rewrite B.
Qed.
Theorem C33_out_of_range_refused :
  forall a q, q < - bound a \/ bound a < q -> validate_position a (GNum (Fin q)) = Err ValueError.
Proof.
  intros a q H. unfold validate_position. cbn [bindR]. unfold in_limit.
  destruct (Qle_bool (Qabs q) (limit a)) eqn:B; [|reflexivity].
  apply Qle_bool_iff, Qabs_Qle_condition in B. destruct a; cbn [limit bound] in *; lra.
Qed.
Theorem C33_none_is_zero :
  forall a, validate_position a GNone = Ok (Fin 0) /\ validate_position a (GText (txt "None")) = Ok (Fin 0)
  /\ validate_position a (GNum NonFinite) = Err ValueError.
Proof. intros []; repeat split; reflexivity. Qed.
(** A text without ":" counts as the number it shows, and is refused when it shows none. *)
Theorem C33_text_counts_as_its_number :
  forall a s, ~ In ":"%char s -> s <> txt "None" ->
  validate_position a (GText s)
  = match read_float s with Some x => validate_position a (GNum x) | None => Err ValueError end.
Proof.
  intros a s C N. unfold validate_position. destruct (text_eqb s (txt "None")) eqn:E; [apply text_eqb_eq in E; congruence|].
  apply has_char_notIn in C. rewrite C. destruct (read_float s); reflexivity.
Qed.
(** The text of a position within the limits is accepted, as that position. *)
Theorem C33_written_position_is_accepted_partial :
  forall a q, - bound a <= q <= bound a -> q <= inject_Z (-1) \/ 0 <= q ->
  exists v, validate_position a (GText (float2str q)) = Ok (Fin v) /\ close_position v q.
Proof.
  intros a q B H. destruct (C32_round_trip_partial q H) as (v & R & C & _). exists v. split; [|assumption].
  unfold validate_position.
  assert (HC : has_char ":" (float2str q) = true).
  { destruct (C32_minutes_and_seconds_below_60 q) as (d & m & c & dv & mv & cv & E & _). rewrite E.
    apply has_char_In, in_or_app. right. now left. }
  destruct (text_eqb (float2str q) (txt "None")) eqn:E.
  { apply text_eqb_eq in E. rewrite E in HC. discriminate. }
  rewrite HC, R. cbn [bindR]. unfold in_limit.
  assert (L : Qle_bool (Qabs v) (limit a) = true); [|now rewrite L].
  apply Qle_bool_iff. destruct (round_trip q) as (v' & R' & V). rewrite R in R'. injection R' as <-.
  assert (A : Qabs v == nearest (Qabs q)).
  { rewrite V, Qabs_Qmult. rewrite (Qabs_pos (nearest (Qabs q))) by apply nearest_nonneg, Qabs_nonneg.
    destruct (py_int q <? 0)%Z; [change (Qabs (-1 # 1)) with 1|change (Qabs 1) with 1]; ring. }
  rewrite A. assert (Qabs q <= limit a) by (apply Qabs_Qle_condition; destruct a; exact B).
  destruct a; apply nearest_le; assumption.
Qed.
Example C33_hyp :
  is_ok (validate_position Latitude (GText (txt "40:30:00.5"))) = true
  /\ validate_position Latitude (GText (txt "90.1")) = Err ValueError
  /\ is_ok (validate_position Longitude (GText (txt "90.1"))) = true
  /\ is_ok (validate_position Longitude (GText (float2str (179999999999999 # 1000000000000)))) = true
  /\ validate_position Longitude (GText (txt "east")) = Err ValueError
  /\ validate_position Longitude (GText (txt "nan")) = Err ValueError.
Proof. repeat (split; [vm_compute; reflexivity|]). vm_compute. reflexivity. Qed.

Print Assumptions C32_round_trip_partial.
Print Assumptions C33_written_position_is_accepted_partial.
