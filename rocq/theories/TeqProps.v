(** C131: comparing transfer functions. *)
From Coq Require Import QArith.
From Verif Require Import PyBase PyFacts PyText TextFacts TfModel TfSpec TfProofs TfProps TeqModel TeqSpec TeqProofs.
From Coq Require Import Lia.
Local Open Scope nat_scope.
Local Open Scope list_scope.

Section Eq.
Variables (num : nums) (station survey : Type).
Variables (alike : val num -> val num -> bool) (station_ne : station -> station -> bool) (survey_ne : survey -> survey -> bool).
Notation subject := (subject num station survey).
Notation mkSubject := (mkSubject num station survey).
Notation ATF := (ATF num station survey).
Notation s_tf := (s_tf num station survey).
Notation s_station := (s_station num station survey).
Notation s_survey := (s_survey num station survey).
Notation tf_eq := (tf_eq num station survey alike station_ne survey_ne).
Notation tf_ne := (tf_ne num station survey alike station_ne survey_ne).

(** Two TF objects are equal if and only if the metadata of station and survey are, and either both have a transfer function, with the same
    channels, periods and values, or both have none; [!=] is the opposite. *)
Theorem C131_equal (s s' : subject) : consistent num (s_tf s) -> consistent num (s_tf s') ->
  exists b, tf_eq s (ATF s') = Ok b /\ tf_ne s (ATF s') = Ok (negb b) /\
  (b = true <-> station_ne (s_station s) (s_station s') = false /\ survey_ne (s_survey s) (s_survey s') = false /\
     ((there num ATf (s_tf s) /\ there num ATf (s_tf s') /\ same_function num alike (s_tf s) (s_tf s')) \/
      (~ there num ATf (s_tf s) /\ ~ there num ATf (s_tf s')))).
Proof.
  intros C C'. destruct (eq_spec num station survey alike station_ne survey_ne s s' C C') as (b & E & H).
  exists b. split; [exact E|]. split; [unfold TeqModel.tf_ne; now rewrite E|exact H].
Qed.

(** If metadata and numbers are compared by equivalence relations, so are TF objects. *)
Theorem C131_equivalence : equivalence (fun a b => negb (station_ne a b)) -> equivalence (fun a b => negb (survey_ne a b)) -> equivalence alike ->
  (forall s, consistent num (s_tf s) -> tf_eq s (ATF s) = Ok true) /\
  (forall s s' b, consistent num (s_tf s) -> consistent num (s_tf s') -> tf_eq s (ATF s') = Ok b -> tf_eq s' (ATF s) = Ok b) /\
  (forall s s' s'', consistent num (s_tf s) -> consistent num (s_tf s') -> consistent num (s_tf s'') ->
     tf_eq s (ATF s') = Ok true -> tf_eq s' (ATF s'') = Ok true -> tf_eq s (ATF s'') = Ok true).
Proof.
  intros (R1 & S1 & T1) (R2 & S2 & T2) EA. cbn beta in *.
  setoid_rewrite negb_true_iff in R1. setoid_rewrite negb_true_iff in S1. setoid_rewrite negb_true_iff in T1.
  setoid_rewrite negb_true_iff in R2. setoid_rewrite negb_true_iff in S2. setoid_rewrite negb_true_iff in T2.
  assert (SY : forall s s', consistent num (s_tf s) -> consistent num (s_tf s') -> tf_eq s (ATF s') = Ok true -> tf_eq s' (ATF s) = Ok true).
  { intros s s' C C' E. destruct (eq_spec num station survey alike station_ne survey_ne s s' C C') as (b & E1 & H).
    destruct (eq_spec num station survey alike station_ne survey_ne s' s C' C) as (b' & E2 & H').
    rewrite E1 in E. injection E as ->. rewrite E2. f_equal. apply H'. destruct (proj1 H eq_refl) as (A & B & D).
    split; [now apply S1|]. split; [now apply S2|]. destruct D as [(D1 & D2 & D3)|(D1 & D2)]; [left|now right].
    split; [assumption|]. split; [assumption|]. now apply same_sym. }
  split; [|split].
  - intros s C. destruct (eq_spec num station survey alike station_ne survey_ne s s C C) as (b & -> & H). f_equal. apply H.
    split; [apply R1|]. split; [apply R2|]. destruct (there_dec_em num (s_tf s) C) as [T|T]; [left|right; now split].
    split; [assumption|]. split; [assumption|]. now apply same_refl.
  - intros s s' b C C' E. destruct b; [now apply SY|].
    destruct (eq_spec num station survey alike station_ne survey_ne s' s C' C) as (b' & E2 & _). rewrite E2. f_equal.
    destruct b'; [|reflexivity]. rewrite (SY s' s C' C E2) in E. discriminate E.
  - intros s s' s'' C C' C'' E E'.
    destruct (eq_spec num station survey alike station_ne survey_ne s s' C C') as (b & E1 & H). rewrite E1 in E. injection E as ->.
    destruct (eq_spec num station survey alike station_ne survey_ne s' s'' C' C'') as (b & E2 & H'). rewrite E2 in E'. injection E' as ->.
    destruct (eq_spec num station survey alike station_ne survey_ne s s'' C C'') as (b & -> & H''). f_equal. apply H''.
    destruct (proj1 H eq_refl) as (A & B & D). destruct (proj1 H' eq_refl) as (A' & B' & D').
    split; [now apply (T1 _ (s_station s'))|]. split; [now apply (T2 _ (s_survey s'))|].
    destruct D as [(D1 & D2 & D3)|(D1 & D2)]; destruct D' as [(F1 & F2 & F3)|(F1 & F2)]; try contradiction; [left|now right].
    split; [assumption|]. split; [assumption|]. now apply (same_trans num alike _ (s_tf s')).
Qed.

(** The comparison is blind to errors and covariances: an object that differs from another one only by an array set for one of them is equal to it. *)
Theorem C131_errors_refuted (s : subject) a shape f t' e :
  (forall x, station_ne x x = false) -> (forall x, survey_ne x x = false) -> equivalence alike ->
  consistent num (s_tf s) -> a <> ATfModel -> part a <> VTf -> fits num (s_tf s) a shape ->
  set num a (GArray num shape f) (s_tf s) = (t', e) ->
  tf_eq s (ATF (mkSubject (s_station s) (s_survey s) t')) = Ok true.
Proof.
  intros R1 R2 EA C NA PA F E. destruct (C89_set num (s_tf s) a shape f C NA F) as (u & e' & E' & L & C' & _ & V & _).
  rewrite E in E'. injection E' as <- _.
  assert (V' : forall p o i, entry num t' VTf p o i = entry num (s_tf s) VTf p o i).
  { intros p o i. apply V; [|intros (X & _); discriminate X]. unfold place. destruct (var_dec VTf (part a)) as [X|X]; [now destruct PA|reflexivity]. }
  destruct (eq_spec num station survey alike station_ne survey_ne s (mkSubject (s_station s) (s_survey s) t') C C') as (b & -> & H). f_equal.
  apply H. cbn [TeqModel.s_station TeqModel.s_survey TeqModel.s_tf]. split; [apply R1|]. split; [apply R2|].
  pose proof (there_like num _ _ L V') as TL.
  destruct (there_dec_em num (s_tf s) C) as [T|T]; [left|right; tauto]. split; [assumption|]. split; [tauto|]. now apply same_like.
Qed.
(** Two objects without data are equal whatever their periods and channel names are. *)
Theorem C131_periods_refuted (s s' : subject) : consistent num (s_tf s) -> consistent num (s_tf s') ->
  station_ne (s_station s) (s_station s') = false -> survey_ne (s_survey s) (s_survey s') = false ->
  (forall p o i, is_zero num (entry num (s_tf s) VTf p o i) = true) -> (forall p o i, is_zero num (entry num (s_tf s') VTf p o i) = true) ->
  tf_eq s (ATF s') = Ok true.
Proof.
  intros C C' A B Z Z'. destruct (eq_spec num station survey alike station_ne survey_ne s s' C C') as (b & -> & H). f_equal. apply H.
  split; [assumption|]. split; [assumption|]. right.
  split; intros (p & o & i & _ & _ & _ & N); apply N; left; [apply Z|apply Z'].
Qed.
(** A comparison with anything else raises instead of being false. *)
Theorem C131_other_refuted (s : subject) :
  tf_eq s (Thing num station survey) = Err AttributeError /\ tf_ne s (Thing num station survey) = Err AttributeError.
Proof. split; reflexivity. Qed.
End Eq.

(** Cases: two periods with an impedance, and the same with another value. *)
Definition filled (z : Z) : tf z_nums :=
  fst (set z_nums AImp (GArray z_nums [2; 2; 2] (fun p r c => Some (z + Z.of_nat (p + r + c))%Z)) (mkTf z_nums default_names [] (initialize z_nums default_names [1%Q; 2%Q]))).
Definition unit_ne (_ _ : unit) : bool := false.
Definition sub (t : tf z_nums) : subject z_nums unit unit := mkSubject z_nums unit unit tt tt t.
Definition same_z (t t' : tf z_nums) : result bool := tf_eq z_nums unit unit z_alike unit_ne unit_ne (sub t) (ATF z_nums unit unit (sub t')).
Lemma filled_consistent z : consistent z_nums (filled z).
Proof.
  split.
  - intros [] []; cbn; intros H; try reflexivity; discriminate H.
  - intros []; cbn; tauto.
Qed.
Example C131_equal_hyp : consistent z_nums (filled 5) /\ consistent z_nums (filled 6) /\ there z_nums ATf (filled 5) /\
  same_z (filled 5) (filled 5) = Ok true /\ same_z (filled 5) (filled 6) = Ok false.
Proof.
  split; [apply filled_consistent|]. split; [apply filled_consistent|]. split.
  - exists 0, Ex, Hx. cbn. repeat split; try lia; try (now left). intros [H|(H & _)]; discriminate.
  - split; vm_compute; reflexivity.
Qed.
Example C131_equivalence_hyp : equivalence z_alike /\ equivalence (fun a b => negb (unit_ne a b)).
Proof.
  split; [|repeat split]. split; [|split].
  - intros [a|]; cbn; [apply Z.eqb_refl|reflexivity].
  - intros [a|] [b|]; cbn; try discriminate; try reflexivity. now rewrite Z.eqb_sym.
  - intros [a|] [b|] [c|]; cbn; try discriminate; try reflexivity. rewrite !Z.eqb_eq. congruence.
Qed.
Example C131_errors_refuted_hyp : exists t', set z_nums AImpErr (GArray z_nums [2; 2; 2] (fun _ _ _ => Some 9%Z)) (filled 5) = (t', None) /\
  fits z_nums (filled 5) AImpErr [2; 2; 2] /\ entry z_nums t' VErr 0 Ex Hx <> entry z_nums (filled 5) VErr 0 Ex Hx /\ same_z (filled 5) t' = Ok true.
Proof. eexists. split; [reflexivity|]. split; [reflexivity|]. split; [discriminate|vm_compute; reflexivity]. Qed.
Example C131_periods_refuted_hyp :
  let empty l := mkTf z_nums default_names [] (initialize z_nums default_names l) in
  consistent z_nums (empty [1%Q]) /\ consistent z_nums (empty [2%Q; 3%Q]) /\ same_z (empty [1%Q]) (empty [2%Q; 3%Q]) = Ok true.
Proof.
  cbn zeta. split; [|split; [|reflexivity]]; (split; [intros [] []; cbn; intros H; try reflexivity; discriminate H|intros []; cbn; tauto]).
Qed.

Print Assumptions C131_equal.
Print Assumptions C131_equivalence.
Print Assumptions C131_errors_refuted.
