(** C96: TF objects and Z files. *)
From Coq Require Import QArith Qabs Reals Qreals.
From Verif Require Import PyBase PyText TextFacts PyNum PyFloat Cplx TfModel TfSpec TfProofs TfEffects TfZmmModel TfZmmSpec TfZmmProofs TfZmmFile TfZmmRead TfZmmTurn TfZmmBack.
From Verif Require ZmmModel ZmmSpec ZmmFile ZheadModel ZheadSpec ZheadFile ZheadProps ZrotModel ZrotSpec ZrotProps TfEmtfModel.
From Coq Require Import Lra.
Local Open Scope nat_scope.

Lemma outputs_incl ht hi : incl (outputs ht hi) [Ex; Ey; Hz].
Proof. intros o. destruct ht, hi; cbn; intuition (subst; auto). Qed.
Lemma or_bool ht hi : ht = true \/ hi = true -> (ht || hi)%bool = true.
Proof. intros [->| ->]; [reflexivity|apply orb_true_r]. Qed.

Section Props.
Variable spr : cpair -> cpair -> cpair.
Notation cells := (TfEmtfModel.cells spr).

(** The azimuths as they are read. *)
Lemma sensors_ok t ht hi f az tilt head g : channels_are ht hi f az tilt -> ZheadSpec.kept (full_head spr head (obj spr t ht hi f)) g ->
  exists az', sensors ht hi g az' /\ forall c k, number_in (dict ht hi) (cc c) <> None -> (az c * 100 == inject_Z k)%Q -> az' c = Q2R (az c).
Proof.
  intros A K. destruct K as (_ & _ & _ & _ & _ & _ & _ & _ & _ & K). specialize (fun c => K c _ eq_refl). cbn [full_head ZheadModel.zh_channel obj zo_channel] in K.
  exists (fun c => match ZheadModel.zg_channel g (cc c) with Some ch => match ZheadModel.zn_azimuth ch with Fin q => Q2R q | NonFinite => 0%R end | None => 0%R end). split.
  - intros c. specialize (K (cc c)). rewrite A in K. destruct (number_in (dict ht hi) (cc c)) as [n|] eqn:E; cbn [option_map ZheadSpec.channel_kept] in K; destruct (ZheadModel.zg_channel g (cc c)) as [y|]; try contradiction; [|reflexivity].
    destruct K as (N & _). unfold zchan_of. rewrite N. cbn [ZheadModel.zn_number ZheadSpec.in_file]. unfold ZheadSpec.as_number. destruct (Z.eq_dec n 0) as [->|_]; [exfalso; destruct ht, hi, c; discriminate E|reflexivity].
  - intros c k D E. specialize (K (cc c)). rewrite A in K. destruct (number_in (dict ht hi) (cc c)) as [n|]; [|contradiction]. cbn [option_map ZheadSpec.channel_kept] in K. destruct (ZheadModel.zg_channel g (cc c)) as [y|]; [|contradiction].
    destruct K as (_ & (_ & T) & _). cbn [ZheadModel.zn_azimuth] in T. destruct (T k E) as (v & -> & B). apply Qeq_eqR. assert (Z : (Qabs (v - az c) == 0)%Q) by (apply Qle_antisym; [exact B|apply Qabs_nonneg]).
    destruct (Qlt_le_dec (v - az c) 0) as [L|L]; [rewrite Qabs_neg in Z by (apply Qlt_le_weak, L)|rewrite Qabs_pos in Z by exact L]; [|]; apply (Qplus_inj_r _ _ (- az c)); rewrite Qplus_opp_r; [|exact Z].
    assert (Y : (- (- (v - az c)) == - 0)%Q) by (rewrite Z; reflexivity). rewrite Qopp_involutive in Y. exact Y.
Qed.
Lemma numbers_kept t ht hi f az tilt head g : channels_are ht hi f az tilt -> ZheadSpec.kept (full_head spr head (obj spr t ht hi f)) g ->
  (forall c, ZheadSpec.number_of (ZheadModel.zg_channel g) c = number_in (dict ht hi) c) /\ ZheadModel.zg_channels g = Some (Z.of_nat (2 + length (outputs ht hi))).
Proof.
  intros A K. destruct (ZheadProps.kept_own _ _ K (own_are ht hi f az tilt A)) as (_ & N & _); [discriminate|]. split.
  - intros c. rewrite <- N. exact (number_are ht hi f az tilt A c).
  - destruct K as (_ & _ & _ & _ & _ & _ & _ & K & _). exact K.
Qed.
Lemma read_steps rotate ud s g rows t0 : ZheadModel.read_zmm s = Some (Ok (g, rows)) ->
  read_tf rotate ud s t0 = Some (match fill_dataset rotate (ZrotModel.read_angle ud (match ZheadModel.zg_declination g with Fin q => Q2R q | NonFinite => 0%R end)) g rows with Ok z => from_zmm z t0 | Err e => (t0, Some e) end).
Proof. intros E. unfold read_tf, read_object. rewrite E. reflexivity. Qed.
Lemma tf_near t outs rs z : finite_data spr t outs -> length rs = length (periods cells t) -> (forall p r, nth_error rs p = Some r -> row_ok spr t outs p r) ->
  filled (length (periods cells t)) z outs (row_at (map Some rs) ZmmModel.zr_tf) (row_at (map Some rs) ZmmModel.zr_sig) (row_at (map Some rs) ZmmModel.zr_res) ->
  forall p o i, p < length (periods cells t) -> In o outs -> In i inputs -> near (entry cells t VTf p o i) (ent (wrap (zf_data z)) VTf p o i).
Proof.
  intros FD LR ROWS (_ & _ & _ & T & _) p o i Hp Ho Hi. destruct (at_place_some o outs Ho) as (r & Er). destruct (at_place_some i inputs Hi) as (c & Ec). rewrite (T p o i r c Hp Er Ec).
  destruct (row_here spr t outs rs LR ROWS p Hp) as (x & E & (_ & R & _)). rewrite (row_in rs _ p x) by exact E. apply near_value; [apply (proj1 (FD p Hp)); assumption|].
  specialize (R r c (at_place_lt _ _ _ Er) (at_place_lt _ _ _ Ec)). rewrite (at_place_nth' _ _ _ Er), (at_place_nth' _ _ _ Ec) in R. exact R.
Qed.

(** An object that has impedance or tipper, with covariances, converted, written and read without rotation: every
    transfer function and every covariance comes back to five digits, the periods to five decimals, the errors are
    those that belong to the covariances, and everything else is zero. *)
Theorem C96_file t run ht hi head dec t0 ud : convertible spr t ht hi head dec -> run = [] \/ described (t_names cells t) run (inputs ++ outputs ht hi) ->
  has_power spr t -> TfZmmSpec.has_residual spr t (outputs ht hi) -> fresh t0 ->
  exists z s t1, to_zmm spr run t = Ok z /\ write_object spr head dec z = Ok s /\ read_tf false ud s t0 = Some (t1, None) /\
    tf_back spr t (outputs ht hi) t1 /\ rest_back spr t (outputs ht hi) t1.
Proof.
  intros (C & B & O & K & R & W & G & FD & NP) RUN HP HR FR. apply or_bool in O.
  destruct (to_zmm_ok spr t run ht hi C B O K RUN) as (f & az & tilt & EZ & A & _). destruct (file_ok spr t ht hi f az tilt head dec C O A R W G FD NP) as (s & g & rs & WS & RZ & KG & LR & ROWS).
  destruct (numbers_kept t ht hi f az tilt head g A KG) as [NUM NC].
  destruct (fill_plain (length (periods cells t)) (ZrotModel.read_angle ud (match ZheadModel.zg_declination g with Fin q => Q2R q | NonFinite => 0%R end)) g (map Some rs) ht hi O NUM NC) as (z & EF & EP & FL).
  pose proof FL as (ZI & ZO & CZ & _ & SIG & RES).
  destruct (read_back spr t (outputs ht hi) rs z t0 FD LR ROWS FR EP ZI ZO CZ SIG RES (outputs_incl ht hi) HP HR) as (t1 & EB & RB & TF).
  exists (obj spr t ht hi f), s, t1. split; [exact EZ|]. split; [exact WS|]. split; [rewrite (read_steps false ud s g (map Some rs) t0 RZ), EF, EB; reflexivity|].
  split; [|exact RB]. intros p o i Hp Ho Hi. rewrite TF by assumption. apply (tf_near t (outputs ht hi) rs z FD LR ROWS FL); assumption.
Qed.

(** With the default rotation the same holds for sensors along the axes. *)
Theorem C96_default t run ht hi head dec t0 : convertible spr t ht hi head dec -> described (t_names cells t) run (inputs ++ outputs ht hi) -> along_axes (t_names cells t) run ->
  has_power spr t -> TfZmmSpec.has_residual spr t (outputs ht hi) -> fresh t0 ->
  exists z s t1, to_zmm spr run t = Ok z /\ write_object spr head dec z = Ok s /\ read_tf true false s t0 = Some (t1, None) /\
    tf_back spr t (outputs ht hi) t1 /\ rest_back spr t (outputs ht hi) t1.
Proof.
  intros (C & B & O & K & R & W & G & FD & NP) RUN AX HP HR FR. apply or_bool in O.
  destruct (to_zmm_ok spr t run ht hi C B O K (or_intror RUN)) as (f & az & tilt & EZ & A & _ & AZ). destruct (file_ok spr t ht hi f az tilt head dec C O A R W G FD NP) as (s & g & rs & WS & RZ & KG & LR & ROWS).
  destruct (numbers_kept t ht hi f az tilt head g A KG) as [NUM NC]. destruct (sensors_ok t ht hi f az tilt head g A KG) as (az' & SE & EX).
  assert (RN : run <> []). { destruct RUN as (_ & _ & HN). destruct run; [|discriminate]. destruct (HN Hx ltac:(left; reflexivity)) as [[] _]. }
  destruct (fill_turned (length (periods cells t)) g (map Some rs) ht hi az' O NUM NC SE) as (z & EF & EP & FL).
  { intros c Hc NH. assert (Q1 : (az c == azimuth_of c)%Q) by (exact (AX c _ NH (AZ RN c Hc))).
    rewrite (EX c (match c with Hy | Ey => 9000%Z | _ => 0%Z end)).
    - rewrite (Qeq_eqR _ _ Q1). destruct c; unfold Q2R; cbn; lra.
    - destruct ht, hi; try discriminate O; destruct c; cbn in Hc |- *; try discriminate; exfalso; intuition discriminate.
    - rewrite Q1. destruct c; reflexivity. }
  { intros p r c Hp Hr Hc. destruct (row_here spr t (outputs ht hi) rs LR ROWS p Hp) as (x & E & (_ & R0 & _)). rewrite (row_in rs _ p x) by exact E.
    apply (near_some (entry cells t VTf p (nth r (outputs ht hi) Ex) (nth c inputs Ex))). apply near_value; [apply (proj1 (FD p Hp)); apply nth_In; assumption|apply R0; assumption]. }
  pose proof FL as (ZI & ZO & CZ & _ & SIG & RES).
  destruct (read_back spr t (outputs ht hi) rs z t0 FD LR ROWS FR EP ZI ZO CZ SIG RES (outputs_incl ht hi) HP HR) as (t1 & EB & RB & TF).
  exists (obj spr t ht hi f), s, t1. split; [exact EZ|]. split; [exact WS|]. split; [rewrite (read_steps true false s g (map Some rs) t0 RZ); change (ZrotModel.read_angle false _) with 0%R; rewrite EF, EB; reflexivity|].
  split; [|exact RB]. intros p o i Hp Ho Hi. rewrite TF by assumption. apply (tf_near t (outputs ht hi) rs z FD LR ROWS FL); assumption.
Qed.

(** Without channel metadata all azimuths in the file are zero: by default a file with a tipper cannot be read back,
    and an impedance is lost. *)
Theorem C96_bare_refuted t ht hi head dec t0 ud : convertible spr t ht hi head dec -> has_power spr t -> TfZmmSpec.has_residual spr t (outputs ht hi) -> fresh t0 ->
  exists z s, to_zmm spr [] t = Ok z /\ write_object spr head dec z = Ok s /\
    (ht = true -> read_tf true ud s t0 = Some (t0, Some LinAlgError)) /\
    (ht = false -> exists t1, read_tf true ud s t0 = Some (t1, None) /\ forall p o i, In o [Ex; Ey] -> In i inputs -> entry cx_nums t1 VTf p o i = None).
Proof.
  intros (C & B & O & K & R & W & G & FD & NP) HP HR FR. apply or_bool in O.
  destruct (to_zmm_ok spr t [] ht hi C B O K (or_introl eq_refl)) as (f & az & tilt & EZ & A & AZ & _). destruct (file_ok spr t ht hi f az tilt head dec C O A R W G FD NP) as (s & g & rs & WS & RZ & KG & LR & ROWS).
  destruct (numbers_kept t ht hi f az tilt head g A KG) as [NUM NC]. destruct (sensors_ok t ht hi f az tilt head g A KG) as (az' & SE & EX). specialize (AZ eq_refl).
  assert (A0 : forall c, number_in (dict ht hi) (cc c) <> None -> az' c = 0%R). { intros c Hc. rewrite (EX c 0%Z Hc) by (rewrite AZ; reflexivity). rewrite AZ. apply RMicromega.Q2R_0. }
  exists (obj spr t ht hi f), s. split; [exact EZ|]. split; [exact WS|]. set (angle := ZrotModel.read_angle ud (match ZheadModel.zg_declination g with Fin q => Q2R q | NonFinite => 0%R end)).
  pose proof (fill_eq angle g (map Some rs) ht hi O NUM NC) as FE. cbv zeta in FE. set (n := length (outputs ht hi)) in *.
  pose proof (SE Hx) as S1. pose proof (SE Hy) as S2. pose proof (SE Hz) as S3. pose proof (SE Ex) as S4. cbn [cc] in S1, S2, S3, S4.
  assert (N1 : number_in (dict ht hi) ZheadModel.Hx = Some 1%Z) by (destruct ht, hi; try discriminate O; reflexivity). assert (N2 : number_in (dict ht hi) ZheadModel.Hy = Some 2%Z) by (destruct ht, hi; try discriminate O; reflexivity).
  rewrite N1 in S1. rewrite N2 in S2. rewrite (A0 Hx) in S1 by (cbn [cc]; congruence). rewrite (A0 Hy) in S2 by (cbn [cc]; congruence).
  assert (IMP : forall p, imp_of n angle g (map Some rs) p = Ok None).
  { intros p. unfold imp_of, ZrotModel.calculate_impedance. rewrite S1, S2. destruct (zchan_of (ZheadModel.zg_channel g ZheadModel.Ex)); [|reflexivity]. destruct (zchan_of (ZheadModel.zg_channel g ZheadModel.Ey)); [|reflexivity]. cbn [ZrotModel.zc_az]. destruct (Req_EM_T 0 0) as [_|X]; [reflexivity|contradiction]. }
  rewrite IMP in FE. cbn [bindR] in FE. split.
  - intros HT. subst ht. assert (N3 : number_in (dict true hi) ZheadModel.Hz = Some 3%Z) by (destruct hi; reflexivity). rewrite N3 in S3.
    assert (TIP : tip_of n angle g (map Some rs) 0 = Err LinAlgError).
    { unfold tip_of. rewrite S1, S2, S3. unfold ZrotModel.calculate_tippers, ZrotModel.u_matrix. change (Z.to_nat (1 - 1)) with 0. change (Z.to_nat (2 - 1)) with 1. cbn [ZrotModel.zc_index ZrotModel.zc_az Nat.ltb Nat.leb andb].
      unfold ZrotModel.inv2R, ZrotModel.set_rmat. cbn [Nat.eqb andb]. destruct (Req_EM_T _ 0) as [_|X]; [reflexivity|]. destruct X. ring. }
    rewrite TIP in FE. cbn [bindR] in FE. rewrite (read_steps true ud s g (map Some rs) t0 RZ). fold angle. rewrite FE. reflexivity.
  - intros HT. subst ht. assert (N3 : number_in (dict false hi) ZheadModel.Hz = None) by (destruct hi; reflexivity). rewrite N3 in S3. destruct hi; [|discriminate O].
    assert (TIP : forall p, tip_of n angle g (map Some rs) p = Ok None) by (intros p; unfold tip_of; rewrite S3; reflexivity). rewrite TIP in FE. cbn [bindR] in FE.
    pose proof (init_consistent [] (map row_period (map Some rs))) as CI. fold (wrap (initialize cx default_names (map row_period (map Some rs)))) in CI.
    match type of FE with _ = Ok (mkZfile _ _ _ (put_all (put_all ?d _ _ _ _) _ _ _ _)) => set (D := d) in * end.
    destruct (turned_entries (initialize cx default_names (map row_period (map Some rs))) (imp_of n angle g (map Some rs)) (tip_of n angle g (map Some rs))
       (fun p i j => match imp_of n angle g (map Some rs) p with Ok (Some (_, e)) => Some (RtoC (e i j)) | _ => None end) (fun p i j => match tip_of n angle g (map Some rs) p with Ok (Some (_, e)) => Some (RtoC (e j)) | _ => None end) CI) as [CD TE].
    fold D in CD, TE.
    assert (FL : filled 0 (mkZfile (map row_period (map Some rs)) (nm inputs) (nm [Ex; Ey]) (put_all (put_all D VIsp (nm inputs) (nm inputs) (row_at (map Some rs) ZmmModel.zr_sig)) VRes (nm [Ex; Ey]) (nm [Ex; Ey]) (row_at (map Some rs) ZmmModel.zr_res)))
       [Ex; Ey] (fun _ _ _ => None) (row_at (map Some rs) ZmmModel.zr_sig) (row_at (map Some rs) ZmmModel.zr_res)) by (apply finish_fill; [exact CD|intros p o i r c X; lia]).
    assert (FL' : filled (S (length rs)) (mkZfile (map row_period (map Some rs)) (nm inputs) (nm [Ex; Ey]) (put_all (put_all D VIsp (nm inputs) (nm inputs) (row_at (map Some rs) ZmmModel.zr_sig)) VRes (nm [Ex; Ey]) (nm [Ex; Ey]) (row_at (map Some rs) ZmmModel.zr_res)))
       [Ex; Ey] (fun _ _ _ => None) (row_at (map Some rs) ZmmModel.zr_sig) (row_at (map Some rs) ZmmModel.zr_res)).
    { apply finish_fill; [exact CD|]. intros p o i r c _ Ho Hi. destruct (TE p i c Hi) as (T1 & T2 & _). rewrite IMP in T1, T2. destruct o; cbn in Ho; try discriminate Ho; [exact T1|exact T2]. }
    set (z := mkZfile _ _ _ _) in *. pose proof FL as (ZI & ZO & CZ & _ & SIG & RES). change (outputs false true) with [Ex; Ey] in *.
    destruct (read_back spr t [Ex; Ey] rs z t0 FD LR ROWS FR eq_refl ZI ZO CZ SIG RES (outputs_incl false true) HP HR) as (t1 & EB & RB & TF).
    exists t1. split; [rewrite (read_steps true ud s g (map Some rs) t0 RZ); fold angle; rewrite FE; fold z; rewrite EB; reflexivity|].
    intros p o i Ho Hi. rewrite TF by assumption. destruct (at_place_some o [Ex; Ey] Ho) as (r & Er). destruct (at_place_some i inputs Hi) as (c & Ec).
    unfold z. cbn [zf_data]. rewrite (put_entry _ VRes [Ex; Ey] [Ex; Ey]) by exact CD. destruct (var_dec VTf VRes) as [X|_]; [discriminate X|]. rewrite (put_entry _ VIsp inputs inputs) by exact CD. destruct (var_dec VTf VIsp) as [X|_]; [discriminate X|].
    destruct (TE p i c Ec) as (T1 & T2 & _). rewrite IMP in T1, T2. destruct o; cbn in Er; try discriminate Er; [exact T1|exact T2].
Qed.

(** Without covariances the file is written but not read: the errors cannot be computed. *)
Theorem C96_no_covariance_refuted t run ht hi head dec t0 ud : convertible spr t ht hi head dec -> run = [] \/ described (t_names cells t) run (inputs ++ outputs ht hi) ->
  ~ has_power spr t -> fresh t0 ->
  exists z s t1, to_zmm spr run t = Ok z /\ write_object spr head dec z = Ok s /\ read_tf false ud s t0 = Some (t1, Some AttributeError).
Proof.
  intros (C & B & O & K & R & W & G & FD & NP) RUN HP FR. apply or_bool in O.
  destruct (to_zmm_ok spr t run ht hi C B O K RUN) as (f & az & tilt & EZ & A & _). destruct (file_ok spr t ht hi f az tilt head dec C O A R W G FD NP) as (s & g & rs & WS & RZ & KG & LR & ROWS).
  destruct (numbers_kept t ht hi f az tilt head g A KG) as [NUM NC].
  destruct (fill_plain (length (periods cells t)) (ZrotModel.read_angle ud (match ZheadModel.zg_declination g with Fin q => Q2R q | NonFinite => 0%R end)) g (map Some rs) ht hi O NUM NC) as (z & EF & EP & FL).
  pose proof FL as (ZI & ZO & CZ & _ & SIG & RES).
  destruct (no_back spr t (outputs ht hi) rs z t0 FD LR ROWS FR EP ZI ZO CZ SIG HP) as (t1 & EB).
  exists (obj spr t ht hi f), s, t1. split; [exact EZ|]. split; [exact WS|]. rewrite (read_steps false ud s g (map Some rs) t0 RZ), EF, EB. reflexivity.
Qed.

(** Without impedance and tipper there is nothing to convert, and converting raises. *)
Theorem C96_nothing_refuted t : consistent cells t -> has_both spr t false false -> to_zmm spr [] t = Err UnboundLocalError.
Proof.
  intros C B. destruct (has_both_ok spr t false false C B) as [E1 E2]. destruct (inverse_same spr t) as [N1 N2]. unfold to_zmm. destruct (inverse_names cells t) as [t' inv]. cbn [fst] in *.
  destruct (same_has spr t t' N1 N2) as [-> ->]. rewrite E1, E2. reflexivity.
Qed.

(** A channel of the run that is neither one of the five nor a remote reference makes the conversion raise. *)
Lemma foreign_run inv d x : contains (txt "rr") x = false -> dict_get inv x = None -> forall run f, In x (map fst run) -> exists e, run_channels inv d run f = Err e.
Proof.
  intros RR DG. induction run as [|[y [a b]] r IH]; intros f H; [destruct H|]. cbn [run_channels]. destruct H as [E|H].
  - cbn [fst] in E. subst y. rewrite RR, DG. eexists; reflexivity.
  - destruct (contains (txt "rr") y); [apply IH, H|]. destruct (dict_get inv y) as [k|]; [|eexists; reflexivity]. destruct d as [d|]; [|eexists; reflexivity]. destruct (ZheadModel.comp_of k) as [c|]; [|apply IH, H]. destruct (number_in d c); apply IH, H.
Qed.
Theorem C96_foreign_refuted t run x ht hi : consistent cells t -> has_both spr t ht hi -> names_known spr t -> In x (map fst run) -> contains (txt "rr") x = false -> (forall c, x <> name (t_names cells t) c) ->
  exists e, to_zmm spr run t = Err e.
Proof.
  intros C B K H RR NX. destruct (has_both_ok spr t ht hi C B) as [E1 E2]. destruct (inverse_same spr t) as [N1 N2]. unfold names_known in K. unfold to_zmm. destruct (inverse_names cells t) as [t' inv]. cbn [fst snd] in *.
  destruct (same_has spr t t' N1 N2) as [-> ->]. rewrite E1, E2. cbn [bindR]. assert (DG : dict_get inv x = None).
  { subst inv. change (map (fun kv => (snd kv, fst kv)) (name_items (t_names cells t))) with [(name (t_names cells t) Hx, key Hx); (name (t_names cells t) Hy, key Hy); (name (t_names cells t) Hz, key Hz); (name (t_names cells t) Ex, key Ex); (name (t_names cells t) Ey, key Ey)].
    cbn [dict_get]. assert (X : forall c, text_eqb (name (t_names cells t) c) x = false) by (intros c; rewrite text_eqb_dec; destruct (text_dec _ _) as [E|_]; [destruct (NX c); congruence|reflexivity]). rewrite !X. reflexivity. }
  destruct run as [|r0 r1]; [destruct H|]. destruct (foreign_run inv (number_dict ht hi) x RR DG (r0 :: r1) (fun _ => None) H) as (e & ->). exists e. reflexivity.
Qed.

(** A channel that the run does not have is not written, though the header counts it. *)
Theorem C96_missing_refuted t run ht hi c : consistent cells t -> has_both spr t ht hi -> (ht = true \/ hi = true) -> names_known spr t ->
  NoDup (map fst run) -> (forall x, In x (map fst run) -> contains (txt "rr") x = true \/ exists c, x = name (t_names cells t) c) -> run <> [] ->
  ~ In (name (t_names cells t) c) (map fst run) ->
  exists z, to_zmm spr run t = Ok z /\ zo_channel spr z (cc c) = None /\ zo_channels spr z = Some (Z.of_nat (length (inputs ++ outputs ht hi))).
Proof.
  intros C B O K ND HX RN NI. apply or_bool in O. destruct (has_both_ok spr t ht hi C B) as [E1 E2]. destruct (inverse_same spr t) as [N1 N2]. unfold names_known in K. unfold to_zmm. destruct (inverse_names cells t) as [t' inv]. cbn [fst snd] in *. subst inv.
  destruct (same_has spr t t' N1 N2) as [-> ->]. rewrite E1, E2, N1, N2. cbn [bindR].
  assert (D : number_dict ht hi = Some (dict ht hi)) by (destruct ht, hi; try discriminate O; reflexivity). rewrite D.
  destruct (run_ok (t_names cells t) (dict ht hi) (proj1 C) run (fun _ => None) ND HX) as (g & EG & GG). destruct run as [|r0 r1]; [contradiction|]. rewrite EG. cbn [bindR]. eexists. split; [reflexivity|]. cbn [zo_channel zo_channels]. split.
  - rewrite GG. unfold seen. destruct (look (name (t_names cells t) c) (r0 :: r1)) as [a|] eqn:L; [destruct NI; apply look_In in L; apply in_map_iff; exists (name (t_names cells t) c, a); split; [reflexivity|exact L]|]. destruct (contains _ _); reflexivity.
  - destruct ht, hi; try discriminate O; reflexivity.
Qed.
End Props.

(** The object that to_zmm returns cannot be read by from_zmm unless it goes through a file. *)
Theorem C96_object_refuted t : exists e, from_object t = (t, Some e).
Proof. unfold from_object. destruct (_ && _)%bool; eexists; reflexivity. Qed.

(** ** Cases that meet the hypotheses *)
Definition pick (a b : cpair) : cpair := a.
Definition sample_tf : tf (TfEmtfModel.cells pick) :=
  mkTf (TfEmtfModel.cells pick) default_names [] (mkData (TfEmtfModel.cells pick) [1 # 2; 8]%Q (all_names default_names) (fun _ _ _ _ => (Some (3 # 2), Some (- 1 # 4)%Q))).
(** The same without inverse signal power. *)
Definition sample_bare : tf (TfEmtfModel.cells pick) :=
  mkTf (TfEmtfModel.cells pick) default_names [] (mkData (TfEmtfModel.cells pick) [1 # 2; 8]%Q (all_names default_names) (fun v _ _ _ => match v with VIsp => (Some 0%Q, Some 0%Q) | _ => (Some (3 # 2), Some (- 1 # 4)%Q) end)).
Definition sample_run : list (text * (Q * Q)) :=
  [(txt "hx", (0, 0)); (txt "hy", (90 # 1, 0)); (txt "hz", (0, 90 # 1)); (txt "ex", (0, 0)); (txt "ey", (90 # 1, 0)); (txt "rrhx", (0, 0))]%Q.
Definition sample_dec (q : Q) : Z * (Z * Z) * Z * text := (1%Z, (25%Z, 30%Z), 120%Z, txt "1.0").
Definition new_tf : tf cx_nums := mkTf cx_nums default_names [] (initialize cx_nums default_names [1%Q]).
Lemma sample_writable : writable (Some (3 # 2), Some (- 1 # 4)%Q).
Proof. exists (3 # 2)%Q, (- 1 # 4)%Q. split; [reflexivity|]. split; apply ZheadProps.printable_small; right; split; vm_compute; discriminate. Qed.
Lemma zero_writable : writable (Some 0%Q, Some 0%Q).
Proof. exists 0%Q, 0%Q. split; [reflexivity|]. split; apply ZheadProps.printable_small; left; reflexivity. Qed.
Lemma sample_level q : good_level (sample_dec q).
Proof. cbn [good_level sample_dec]. split; [lia|]. split; [discriminate|]. split; [reflexivity|]. destruct (read_float (txt "1.0")) as [v|] eqn:E; [exists v; reflexivity|vm_compute in E; discriminate E]. Qed.
Example C96_convertible_hyp : convertible pick sample_tf true true (ZheadProps.sample_head "Nv01") sample_dec /\ convertible pick sample_bare true true (ZheadProps.sample_head "Nv01") sample_dec.
Proof.
  split; (split; [split; [exact default_inj|intros c; destruct c; cbn; auto 10]|]; split; [split; (split; [intros _|reflexivity]); [exists 0, Hz, Hx|exists 0, Ex, Hx]; (split; [cbn; lia|]; split; [cbn; auto|]; split; [cbn; auto|]; intros [N|[N N']]; discriminate)|];
    split; [left; reflexivity|]; split; [reflexivity|]; split; [exact ZheadProps.C95_readable_hyp|]; split; [exact ZheadProps.C95_west_east_hyp|]; split; [exact sample_level|]; split; [|discriminate]).
  - intros p Hp. split; [|split]; intros; exact sample_writable.
  - intros p Hp. split; [|split]; intros; [exact sample_writable|exact zero_writable|exact sample_writable].
Qed.
Example C96_described_hyp : described default_names sample_run (inputs ++ outputs true true) /\ along_axes default_names sample_run.
Proof.
  split; [split; [|split]|].
  - cbn [map fst sample_run]. repeat (constructor; [intros H; repeat (destruct H as [H|H]; [discriminate H|]); exact H|]). constructor.
  - intros x H. cbn [map fst sample_run In] in H. destruct H as [<-|[<-|[<-|[<-|[<-|[<-|[]]]]]]]; [right; exists Hx|right; exists Hy|right; exists Hz|right; exists Ex|right; exists Ey|left]; reflexivity.
  - intros c _. split; [|destruct c; reflexivity]. destruct c; cbn [map fst sample_run In name default_names n_ex n_ey n_hx n_hy n_hz]; auto 10.
  - intros c a NZ H. unfold sample_run in H. repeat (destruct H as [H|H]; [injection H as E <-; destruct c; try discriminate E; try contradiction; reflexivity|]). destruct H.
Qed.
Example C96_covariance_hyp : has_power pick sample_tf /\ TfZmmSpec.has_residual pick sample_tf (outputs true true) /\ ~ has_power pick sample_bare.
Proof.
  split; [|split].
  - exists 0, Hx, Hx. split; [cbn; lia|]. split; [exists 0, 0; repeat split; lia|reflexivity].
  - exists 1, Ex, Hz. split; [cbn; lia|]. split; [exists 1, 0; repeat split; lia|reflexivity].
  - intros (p & i & j & _ & _ & N). discriminate N.
Qed.
Example C96_fresh_hyp : fresh new_tf.
Proof. split; [apply init_consistent|split; reflexivity]. Qed.
Example C96_nothing_hyp : let t := mkTf (TfEmtfModel.cells pick) default_names [] (initialize (TfEmtfModel.cells pick) default_names [1%Q]) in consistent (TfEmtfModel.cells pick) t /\ has_both pick t false false.
Proof.
  split; [split; [exact default_inj|intros c; destruct c; cbn; auto 10]|]. split; (split; [discriminate|]); intros (p & o & i & _ & _ & _ & N); destruct N; left; reflexivity.
Qed.
Example C96_foreign_hyp : exists e, to_zmm pick [(txt "temperature", (0, 0)%Q)] sample_tf = Err e.
Proof. eexists. vm_compute. reflexivity. Qed.
Example C96_missing_hyp : exists z, to_zmm pick (tl sample_run) sample_tf = Ok z /\ zo_channel pick z ZheadModel.Hx = None /\ zo_channels pick z = Some 5%Z.
Proof. eexists. split; [reflexivity|]. split; reflexivity. Qed.

Print Assumptions C96_file.
Print Assumptions C96_default.
Print Assumptions C96_bare_refuted.
Print Assumptions C96_no_covariance_refuted.
Print Assumptions C96_nothing_refuted.
Print Assumptions C96_foreign_refuted.
Print Assumptions C96_missing_refuted.
Print Assumptions C96_object_refuted.
