(** Lemmas for C96: reading with the default rotation. *)
From Coq Require Import QArith Qabs Reals Qreals.
From Verif Require Import PyBase PyText TextFacts PyNum PyFloat Cplx TfModel TfSpec TfProofs TfEffects TfZmmModel TfZmmSpec TfZmmProofs TfZmmFile TfZmmRead.
From Verif Require ZmmModel ZmmSpec ZmmFile ZheadModel ZheadSpec ZheadFile ZheadProps ZrotModel ZrotSpec ZrotProps TfEmtfModel.
From Coq Require Import Lra.
Local Open Scope nat_scope.

Definition imp_at (x : result (option (ZrotModel.cmat * ZrotModel.rmat))) (i j : nat) : option Cx := match x with Ok (Some (z, _)) => Some (z i j) | _ => None end.
Definition tip_at (x : result (option ((nat -> Cx) * (nat -> R)))) (j : nat) : option Cx := match x with Ok (Some (w, _)) => Some (w j) | _ => None end.
Lemma turned_entries (d0 : dataset cx) imp tip ea eb : consistent cx (wrap d0) ->
  let d4 := put_all (put_all (put_all (put_all d0 VTf (nm [Ex; Ey]) (nm inputs) (fun p i j => imp_at (imp p) i j)) VErr (nm [Ex; Ey]) (nm inputs) ea)
     VTf (nm [Hz]) (nm inputs) (fun p i j => tip_at (tip p) j)) VErr (nm [Hz]) (nm inputs) eb in
  consistent cx (wrap d4) /\ forall p i c, at_place chan_dec i inputs = Some c ->
    ent (wrap d4) VTf p Ex i = imp_at (imp p) 0 c /\ ent (wrap d4) VTf p Ey i = imp_at (imp p) 1 c /\ ent (wrap d4) VTf p Hz i = tip_at (tip p) c.
Proof.
  intros C. cbv zeta. set (d1 := put_all d0 _ _ _ _). assert (C1 : consistent cx (wrap d1)) by exact C. set (d2 := put_all d1 _ _ _ _). assert (C2 : consistent cx (wrap d2)) by exact C.
  set (d3 := put_all d2 _ _ _ _). assert (C3 : consistent cx (wrap d3)) by exact C. split; [exact C|].
  intros p i c H. rewrite !(put_entry d3 VErr [Hz] inputs eb VTf) by exact C3. cbn [var_dec var_rec var_rect]. unfold d3.
  rewrite !(put_entry d2 VTf [Hz] inputs _ VTf) by exact C2. destruct (var_dec VTf VErr) as [E|_]; [discriminate E|]. destruct (var_dec VTf VTf) as [_|E]; [|contradiction]. cbn [at_place]. 
  destruct (chan_dec Ex Hz) as [E|_]; [discriminate E|]. destruct (chan_dec Ey Hz) as [E|_]; [discriminate E|]. destruct (chan_dec Hz Hz) as [_|E]; [|contradiction]. rewrite H.
  unfold d2. rewrite !(put_entry d1 VErr [Ex; Ey] inputs ea VTf) by exact C1. destruct (var_dec VTf VErr) as [E|_]; [discriminate E|]. unfold d1. rewrite !(put_entry d0 VTf [Ex; Ey] inputs _ VTf) by exact C.
  destruct (var_dec VTf VTf) as [_|E]; [|contradiction]. rewrite H. split; [|split]; reflexivity.
Qed.

(** ** Sensors along the axes *)
Definition sensors (ht hi : bool) (g : ZheadModel.zgot) (az : chan -> R) : Prop :=
  forall c, match number_in (dict ht hi) (cc c) with
    | None => zchan_of (ZheadModel.zg_channel g (cc c)) = None
    | Some n => zchan_of (ZheadModel.zg_channel g (cc c)) = Some (ZrotModel.mkZchan (Z.to_nat (n - 1)) (az c)) end.
Lemma tip_aligned n k a t s e : k < n -> exists w err, ZrotModel.calculate_tippers n (ZrotModel.mkZchan 0 0) (ZrotModel.mkZchan 1 90) (Some (ZrotModel.mkZchan (2 + k) a)) 0 t s e = Ok (Some (w, err)) /\ w 0 = t k 0 /\ w 1 = t k 1.
Proof.
  intros K. destruct (ZrotProps.C52_tipper n (ZrotModel.mkZchan 0 0) (ZrotModel.mkZchan 1 90) (ZrotModel.mkZchan (2 + k) a) 0 t s e) as (w & err & E & W & _); cbn [ZrotModel.zc_index]; try lia.
  { unfold ZrotSpec.right_angle. cbn [ZrotModel.zc_az]. replace ((0 - 90) * PI / 180)%R with (- (90 * PI / 180))%R by field. rewrite cos_neg. apply ZrotProps.cos_90. }
  exists w, err. split; [exact E|]. cbn [ZrotModel.zc_index] in W. replace (2 + k - 2) with k in W by lia.
  assert (X : forall bx by_, Cadd (Cmul (w 0) bx) (Cmul (w 1) by_) = Cadd (Cmul (t k 0) bx) (Cmul (t k 1) by_)).
  { intros bx by_. rewrite W. unfold ZrotSpec.predict, ZrotSpec.input_reading, ZrotSpec.reading. cbn [ZrotModel.zc_index ZrotModel.zc_az Nat.eqb].
    replace ((0 - 0) * PI / 180)%R with 0%R by field. replace ((90 - 0) * PI / 180)%R with (90 * PI / 180)%R by field. rewrite cos_0, sin_0, ZrotProps.cos_90, ZrotProps.sin_90.
    change (RtoC 0) with C0. change (RtoC 1) with C1. ring. }
  pose proof (X C1 C0) as X1. pose proof (X C0 C1) as X2. split.
  - replace (w 0) with (Cadd (Cmul (w 0) C1) (Cmul (w 1) C0)) by ring. rewrite X1. ring.
  - replace (w 1) with (Cadd (Cmul (w 0) C0) (Cmul (w 1) C1)) by ring. rewrite X2. ring.
Qed.
Definition axes (c : chan) : R := match c with Hx | Ex | Hz => 0%R | Hy | Ey => 90%R end.

(** The impedance and the tipper of a period. *)
Definition mats (a : nat -> nat -> nat -> option Cx) (p : nat) : ZrotModel.cmat := fun i j => finite (a p i j).
Definition imp_of (n : nat) (angle : R) (g : ZheadModel.zgot) (rows : list (option ZmmModel.zread)) (p : nat) :=
  ZrotModel.calculate_impedance n (zchan_of (ZheadModel.zg_channel g ZheadModel.Hx)) (zchan_of (ZheadModel.zg_channel g ZheadModel.Hy)) (zchan_of (ZheadModel.zg_channel g ZheadModel.Ex)) (zchan_of (ZheadModel.zg_channel g ZheadModel.Ey)) angle
    (mats (row_at rows ZmmModel.zr_tf) p) (mats (row_at rows ZmmModel.zr_sig) p) (mats (row_at rows ZmmModel.zr_res) p).
Definition tip_of (n : nat) (angle : R) (g : ZheadModel.zgot) (rows : list (option ZmmModel.zread)) (p : nat) :=
  match zchan_of (ZheadModel.zg_channel g ZheadModel.Hz), zchan_of (ZheadModel.zg_channel g ZheadModel.Hx), zchan_of (ZheadModel.zg_channel g ZheadModel.Hy) with
  | None, _, _ => Ok None
  | Some hz, Some hx, Some hy => ZrotModel.calculate_tippers n hx hy (Some hz) angle (mats (row_at rows ZmmModel.zr_tf) p) (mats (row_at rows ZmmModel.zr_sig) p) (mats (row_at rows ZmmModel.zr_res) p)
  | _, _, _ => Err AttributeError end.
Lemma fill_eq angle g rows ht hi : (ht || hi)%bool = true -> (forall c, ZheadSpec.number_of (ZheadModel.zg_channel g) c = number_in (dict ht hi) c) ->
  ZheadModel.zg_channels g = Some (Z.of_nat (2 + length (outputs ht hi))) ->
  let n := length (outputs ht hi) in let imp := imp_of n angle g rows in let tip := tip_of n angle g rows in
  fill_dataset true angle g rows = bindR (bindR (imp 0) (fun _ => bindR (tip 0) (fun _ =>
    Ok (put_all (put_all (put_all (put_all (initialize cx default_names (map row_period rows)) VTf (nm [Ex; Ey]) (nm inputs) (fun p i j => imp_at (imp p) i j))
       VErr (nm [Ex; Ey]) (nm inputs) (fun p i j => match imp p with Ok (Some (_, e)) => Some (RtoC (e i j)) | _ => None end))
       VTf (nm [Hz]) (nm inputs) (fun p i j => tip_at (tip p) j)) VErr (nm [Hz]) (nm inputs) (fun p i j => match tip p with Ok (Some (_, e)) => Some (RtoC (e j)) | _ => None end)))))
    (fun d => Ok (mkZfile (map row_period rows) (nm inputs) (nm (outputs ht hi))
       (put_all (put_all d VIsp (nm inputs) (nm inputs) (row_at rows ZmmModel.zr_sig)) VRes (nm (outputs ht hi)) (nm (outputs ht hi)) (row_at rows ZmmModel.zr_res)))).
Proof.
  intros O N NC. destruct (fits_ok ht hi (ZheadModel.zg_channel g) _ O N eq_refl) as (F1 & F2 & F3). unfold fill_dataset. rewrite NC, F1, F2, F3, fits_true. reflexivity.
Qed.
Lemma fill_turned L g rows ht hi az : (ht || hi)%bool = true -> (forall c, ZheadSpec.number_of (ZheadModel.zg_channel g) c = number_in (dict ht hi) c) ->
  ZheadModel.zg_channels g = Some (Z.of_nat (2 + length (outputs ht hi))) -> sensors ht hi g az -> (forall c, In c (needed ht hi) -> c <> Hz -> az c = axes c) ->
  (forall p r c, p < L -> r < length (outputs ht hi) -> c < 2 -> exists x, row_at rows ZmmModel.zr_tf p r c = Some x) ->
  exists z, fill_dataset true 0 g rows = Ok z /\ zf_periods z = map row_period rows /\
    filled L z (outputs ht hi) (row_at rows ZmmModel.zr_tf) (row_at rows ZmmModel.zr_sig) (row_at rows ZmmModel.zr_res).
Proof.
  intros O N NC S AX FIN. rewrite (fill_eq 0 g rows ht hi O N NC).
  pose proof (init_consistent [] (map row_period rows)) as CI. fold (wrap (initialize cx default_names (map row_period rows))) in CI.
  pose proof (S Ex) as SEx. pose proof (S Ey) as SEy. pose proof (S Hx) as SHx. pose proof (S Hy) as SHy. pose proof (S Hz) as SHz. cbn [cc] in *.
  set (n := length (outputs ht hi)) in *. set (imp := imp_of n 0 g rows). set (tip := tip_of n 0 g rows).
  set (T := row_at rows ZmmModel.zr_tf) in *. 
  assert (FN : forall p r c, p < L -> r < n -> c < 2 -> Some (finite (T p r c)) = T p r c). { intros p r c Hp Hr Hc. destruct (FIN p r c Hp Hr Hc) as (x & ->). reflexivity. }
  assert (A0 : az Hx = 0%R) by (apply (AX Hx); [left; reflexivity|discriminate]). assert (A1 : az Hy = 90%R) by (apply (AX Hy); [right; left; reflexivity|discriminate]).
  (* the impedance of each period *)
  assert (IMP : forall p, exists x, imp p = Ok x /\ (hi = true -> p < L -> forall r c, r < 2 -> c < 2 -> imp_at (imp p) r c = T p (r + (if ht then 1 else 0)) c)).
  { intros p. unfold imp, imp_of. fold T. destruct hi.
    - assert (A2 : az Ex = 0%R) by (apply (AX Ex); [destruct ht; cbn; auto 10|discriminate]). assert (A3 : az Ey = 90%R) by (apply (AX Ey); [destruct ht; cbn; auto 10|discriminate]).
      destruct ht; cbn in SEx, SEy, SHx, SHy; rewrite SEx, SEy, SHx, SHy, A0, A1, A2, A3; cbn [Z.to_nat Z.sub Pos.to_nat Pos.iter_op Nat.add].
      + destruct (ZrotProps.C52_aligned n 0 1 3 4 (mats T p) (mats (row_at rows ZmmModel.zr_sig) p) (mats (row_at rows ZmmModel.zr_res) p)) as (z & err & E & Z1 & Z2 & Z3 & Z4); [unfold ZrotSpec.numbered; cbn; unfold n; cbn; lia|].
        change (Pos.to_nat 4) with 4. change (Pos.to_nat 3) with 3. change (Pos.to_nat 1) with 1. rewrite E. eexists; split; [reflexivity|]. intros _ Hp r c Hr Hc. cbn [imp_at].
        destruct r as [|[|r]]; [| |lia]; (destruct c as [|[|c]]; [| |lia]); rewrite ?Z1, ?Z2, ?Z3, ?Z4; unfold mats; apply FN; try exact Hp; unfold n; cbn; lia.
      + destruct (ZrotProps.C52_aligned n 0 1 2 3 (mats T p) (mats (row_at rows ZmmModel.zr_sig) p) (mats (row_at rows ZmmModel.zr_res) p)) as (z & err & E & Z1 & Z2 & Z3 & Z4); [unfold ZrotSpec.numbered; cbn; unfold n; cbn; lia|].
        change (Pos.to_nat 3) with 3. change (Pos.to_nat 2) with 2. change (Pos.to_nat 1) with 1. rewrite E. eexists; split; [reflexivity|]. intros _ Hp r c Hr Hc. cbn [imp_at].
        destruct r as [|[|r]]; [| |lia]; (destruct c as [|[|c]]; [| |lia]); rewrite ?Z1, ?Z2, ?Z3, ?Z4; unfold mats; apply FN; try exact Hp; unfold n; cbn; lia.
    - destruct ht; [|discriminate O]. cbn in SEx. rewrite SEx. eexists; split; [reflexivity|]. intros H; discriminate H. }
  assert (TIP : forall p, exists x, tip p = Ok x /\ (ht = true -> p < L -> forall c, c < 2 -> tip_at (tip p) c = T p 0 c)).
  { intros p. unfold tip, tip_of. fold T. destruct ht.
    - replace (number_in (dict true hi) ZheadModel.Hz) with (Some 3%Z) in SHz by (destruct hi; reflexivity). replace (number_in (dict true hi) ZheadModel.Hx) with (Some 1%Z) in SHx by (destruct hi; reflexivity).
      replace (number_in (dict true hi) ZheadModel.Hy) with (Some 2%Z) in SHy by (destruct hi; reflexivity). rewrite SHz, SHx, SHy, A0, A1. change (Z.to_nat (3 - 1)) with (2 + 0). change (Z.to_nat (1 - 1)) with 0. change (Z.to_nat (2 - 1)) with 1.
      destruct (tip_aligned n 0 (az Hz) (mats T p) (mats (row_at rows ZmmModel.zr_sig) p) (mats (row_at rows ZmmModel.zr_res) p)) as (w & err & E & W0 & W1); [unfold n; cbn; lia|].
      change (Pos.to_nat 2) with (2 + 0). change (Pos.to_nat 1) with 1. rewrite E. eexists; split; [reflexivity|]. intros _ Hp c Hc. cbn [tip_at]. destruct c as [|[|c]]; [rewrite W0|rewrite W1|lia]; unfold mats; apply FN; try exact Hp; unfold n; cbn; lia.
    - replace (number_in (dict false hi) ZheadModel.Hz) with (@None Z) in SHz by (destruct hi; reflexivity). rewrite SHz. eexists; split; [reflexivity|]. intros H; discriminate H. }
  destruct (IMP 0) as (x0 & EI & _). destruct (TIP 0) as (y0 & ET & _). cbv zeta. fold imp tip. rewrite EI, ET. cbn [bindR].
  eexists. split; [reflexivity|]. split; [reflexivity|].
  destruct (turned_entries (initialize cx default_names (map row_period rows)) imp tip (fun p i j => match imp p with Ok (Some (_, e)) => Some (RtoC (e i j)) | _ => None end) (fun p i j => match tip p with Ok (Some (_, e)) => Some (RtoC (e j)) | _ => None end) CI) as [C4 TE].
  apply finish_fill; [exact C4|].
  intros p o i r c Hp Ho Hi. destruct (TE p i c Hi) as (T1 & T2 & T3). destruct (IMP p) as (x & _ & IE). destruct (TIP p) as (y & _ & IT).
  assert (Hc : c < 2). { destruct i; cbn in Hi; try discriminate Hi; injection Hi as <-; lia. }
  destruct o; destruct ht, hi; cbn in Ho; try discriminate Ho; try discriminate O; injection Ho as <-;
    (etransitivity; [exact T1|]) || (etransitivity; [exact T2|]) || (etransitivity; [exact T3|]); try (apply (IE eq_refl Hp 0 c); lia); try (apply (IE eq_refl Hp 1 c); lia); apply (IT eq_refl Hp c Hc).
Qed.
