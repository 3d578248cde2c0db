(** Lemmas for C96: the file. *)
From Coq Require Import QArith Qabs Reals Qreals Lra.
From Verif Require Import PyBase PyText TextFacts PyNum PyFloat Cplx TfModel TfSpec TfProofs TfEffects TfZmmModel TfZmmSpec TfZmmProofs.
From Verif Require ZmmModel ZmmSpec ZmmFile ZheadModel ZheadSpec ZheadFile ZheadProps ZrotModel ZrotSpec ZrotProps TfEmtfModel.
From Coq Require Import Lra.
Local Open Scope nat_scope.

Lemma at_nth (l : list chan) i d : NoDup l -> i < length l -> at_place chan_dec (nth i l d) l = Some i.
Proof.
  revert i. induction l as [|x l IH]; intros i ND H; [cbn in H; lia|]. inversion ND as [|? ? NI ND']; subst. destruct i as [|i]; cbn [nth at_place].
  - destruct (chan_dec x x); [reflexivity|contradiction].
  - cbn in H. destruct (chan_dec (nth i l d) x) as [E|_]; [destruct NI; rewrite <- E; apply nth_In; lia|]. rewrite IH by (assumption || lia). reflexivity.
Qed.
Lemma outputs_nodup ht hi : NoDup (outputs ht hi).
Proof. destruct ht, hi; cbn; repeat (constructor; [cbn; intuition discriminate|]); constructor. Qed.
Lemma inputs_nodup : NoDup inputs.
Proof. repeat (constructor; [cbn; intuition discriminate|]); constructor. Qed.

Section Written.
Variable spr : cpair -> cpair -> cpair.
Notation cells := (TfEmtfModel.cells spr).
Notation tf := (tf cells).

Lemma writable_parts x : writable x -> ZmmSpec.printable_pair (parts x).
Proof. intros (a & b & -> & Ha & Hb). split; assumption. Qed.

Definition obj (t : tf) (ht hi : bool) (f : comp -> option (ZheadModel.zchannel Q)) : zobject spr :=
  mkObject spr (t_names cells t) (Some (Z.of_nat (2 + length (outputs ht hi)))) (Z.of_nat (length (periods cells t))) f (t_data cells t).
Definition full_head (head : ZheadModel.zhead) (z : zobject spr) : ZheadModel.zhead :=
  ZheadModel.mkHead (ZheadModel.zh_type head) (ZheadModel.zh_station head) (ZheadModel.zh_latitude head) (ZheadModel.zh_longitude head) (ZheadModel.zh_declination head)
    (zo_channels spr z) (Some (zo_frequencies spr z)) (zo_channel spr z).

(** What a block has, by place. *)
Lemma block_entries t ht hi f dec p : (ht || hi)%bool = true -> (forall c, ZheadSpec.number_of f c = number_in (dict ht hi) c) ->
  let b := block spr (obj t ht hi f) dec p in let outs := outputs ht hi in
  ZmmModel.zd_period b = nth p (periods cells t) 0%Q /\
  (forall i j, ZmmModel.zd_tf b i j = parts (entry cells t VTf p (nth i outs Ex) (nth j inputs Ex))) /\
  (forall i j, ZmmModel.zd_sig b i j = parts (entry cells t VIsp p (nth i inputs Ex) (nth j inputs Ex))) /\
  (forall i j, ZmmModel.zd_res b i j = parts (entry cells t VRes p (nth i outs Ex) (nth j outs Ex))) /\
  (good_level (dec (nth p (periods cells t) 0%Q)) ->
     (-999999 <= ZmmModel.zd_level b <= 9999999)%Z /\ ZmmModel.zd_rate b <> [] /\ forallb PySciFacts.sci_char (ZmmModel.zd_rate b) = true /\ (exists v, read_float (ZmmModel.zd_rate b) = Some v)).
Proof.
  intros O N. destruct (recorded_ok ht hi f O N) as [EI EO]. unfold block, obj. cbn [zo_channel zo_names zo_data]. rewrite EI, EO.
  change (d_periods cells (t_data cells t)) with (periods cells t). destruct (dec (nth p (periods cells t) 0%Q)) as [[[level bands] npts] rate]. cbn [ZmmModel.zd_period ZmmModel.zd_tf ZmmModel.zd_sig ZmmModel.zd_res ZmmModel.zd_level ZmmModel.zd_rate].
  split; [reflexivity|]. split; [|split; [|split]]; [| | |intros G; exact G]; intros i j; rewrite !nth_cc, !name_cc; reflexivity.
Qed.

Lemma block_writable t ht hi f dec p : (ht || hi)%bool = true -> (forall c, ZheadSpec.number_of f c = number_in (dict ht hi) c) ->
  (forall q, good_level (dec q)) -> finite_data spr t (outputs ht hi) -> p < length (periods cells t) ->
  ZmmSpec.writable_block (length (outputs ht hi)) (block spr (obj t ht hi f) dec p).
Proof.
  intros O N G F P. destruct (block_entries t ht hi f dec p O N) as (_ & B1 & B2 & B3 & B4). destruct (B4 (G _)) as (L1 & L2 & L3 & L4). destruct (F p P) as (F1 & F2 & F3).
  split; [exact L1|]. split; [exact L2|]. split; [exact L3|]. split; [exact L4|].
  split; [|split]; intros i j Hi Hj.
  - rewrite B1. apply writable_parts, F1; apply nth_In; assumption.
  - rewrite B2. apply writable_parts, F2. exists i, j. split; [|split; [|assumption]]; apply at_nth; try apply inputs_nodup; cbn; lia.
  - rewrite B3. apply writable_parts, F3. exists i, j. split; [|split; [|assumption]]; apply at_nth; try apply outputs_nodup; lia.
Qed.

Definition row_ok (t : tf) (outs : list chan) (p : nat) (r : ZmmModel.zread) : Prop :=
  (exists q, ZmmModel.zr_period r = Fin q /\ (Qabs (q - nth p (periods cells t) 0%Q) <= 5 # 1000000)%Q) /\
  (forall i j, i < length outs -> j < 2 -> ZmmSpec.near_pair (parts (entry cells t VTf p (nth i outs Ex) (nth j inputs Ex))) (ZmmModel.zr_tf r i j)) /\
  (forall i j, i < 2 -> j <= i -> ZmmSpec.near_pair (parts (entry cells t VIsp p (nth i inputs Ex) (nth j inputs Ex))) (ZmmModel.zr_sig r i j)) /\
  (forall i j, i < length outs -> j <= i -> ZmmSpec.near_pair (parts (entry cells t VRes p (nth i outs Ex) (nth j outs Ex))) (ZmmModel.zr_res r i j)) /\
  ZmmSpec.hermitian_read 2 (ZmmModel.zr_sig r) /\ ZmmSpec.hermitian_read (length outs) (ZmmModel.zr_res r).

Lemma file_ok t ht hi f az tilt head dec : consistent cells t -> (ht || hi)%bool = true -> channels_are ht hi f az tilt ->
  ZheadSpec.readable head -> ZheadSpec.west_east head -> (forall q, good_level (dec q)) -> finite_data spr t (outputs ht hi) -> periods cells t <> [] ->
  exists s g rs, write_object spr head dec (obj t ht hi f) = Ok s /\ ZheadModel.read_zmm s = Some (Ok (g, map Some rs)) /\
    ZheadSpec.kept (full_head head (obj t ht hi f)) g /\ length rs = length (periods cells t) /\
    (forall p r, nth_error rs p = Some r -> row_ok t (outputs ht hi) p r).
Proof.
  intros C O A R W G F NP. pose proof (number_are ht hi f az tilt A) as N. destruct (recorded_ok ht hi f O N) as [EI EO].
  assert (R' : ZheadSpec.readable (full_head head (obj t ht hi f))).
  { destruct R as (R1 & R2 & R3 & R4 & R5 & R6 & _ & _). unfold ZheadSpec.readable. cbn [full_head ZheadModel.zh_station ZheadModel.zh_type ZheadModel.zh_latitude ZheadModel.zh_channels ZheadModel.zh_frequencies]. do 6 (split; [assumption|]). split; discriminate. }
  assert (W' : ZheadSpec.west_east (full_head head (obj t ht hi f))) by exact W.
  set (l := map (block spr (obj t ht hi f) dec) (seq 0 (length (periods cells t)))).
  assert (LL : length l = length (periods cells t)) by (unfold l; rewrite map_length, seq_length; reflexivity).
  destruct (ZheadProps.C95_written (full_head head (obj t ht hi f)) (length (outputs ht hi)) l R') as (s & WS).
  assert (WO : write_object spr head dec (obj t ht hi f) = Ok s).
  { unfold write_object. change (zo_channel spr (obj t ht hi f)) with f. rewrite EI, EO. rewrite !map_length. cbn [length inputs Nat.eqb negb].
    rewrite <- map_app, names_cc. change (zo_names spr (obj t ht hi f)) with (t_names cells t). change (zo_data spr (obj t ht hi f)) with (t_data cells t).
    rewrite (located_names cells (t_data cells t) (t_names cells t)) by (exact (proj2 C)). cbn [negb]. exact WS. }
  assert (FB : Forall (ZmmSpec.writable_block (length (outputs ht hi))) l).
  { apply Forall_forall. intros b Hb. apply in_map_iff in Hb. destruct Hb as (p & <- & Hp). apply in_seq in Hp. apply block_writable; try assumption. lia. }
  destruct l as [|b0 l0] eqn:EL; [exfalso; destruct (periods cells t); [contradiction|discriminate LL]|].
  destruct (ZheadProps.C95_file (full_head head (obj t ht hi f)) (length (outputs ht hi)) b0 l0 s R' W') as (g & rs & RZ & K & _ & F2); try assumption.
  - cbn [full_head obj ZheadModel.zh_channels zo_channels]. apply f_equal. rewrite Nat2Z.inj_add. change (Z.of_nat 2) with 2%Z. lia.
  - cbn [full_head obj ZheadModel.zh_frequencies zo_frequencies]. rewrite LL. reflexivity.
  - exists s, g, rs. split; [exact WO|]. split; [exact RZ|]. split; [exact K|]. split; [rewrite <- LL; symmetry; exact (ZheadProps.Forall2_length _ _ _ F2)|].
    intros p r E. assert (Hp : p < length (periods cells t)). { rewrite <- LL, (ZheadProps.Forall2_length _ _ _ F2). apply nth_error_Some. congruence. }
    assert (EB : nth_error (b0 :: l0) p = Some (block spr (obj t ht hi f) dec p)). { rewrite <- EL. exact (ZmmFile.nth_map_seq (block spr (obj t ht hi f) dec) _ 0 p Hp). }
    destruct (ZmmFile.Forall2_nth _ _ _ F2 p _ EB) as (r' & E' & S0 & H1 & H2). assert (r' = r) by congruence. subst r'.
    destruct (block_entries t ht hi f dec p O N) as (B0 & B1 & B2 & B3 & _). destruct S0 as (S1 & _ & _ & _ & _ & S2 & S3 & S4).
    split; [rewrite <- B0; exact S1|]. split; [intros i j Hi Hj; rewrite <- B1; apply S2; assumption|]. split; [intros i j Hi Hj; rewrite <- B2; apply S3; assumption|].
    split; [intros i j Hi Hj; rewrite <- B3; apply S4; assumption|]. split; assumption.
Qed.

(** ** Numbers *)
Lemma Q2R_abs q : Q2R (Qabs q) = Rabs (Q2R q).
Proof.
  destruct (Qlt_le_dec q 0) as [H|H].
  - rewrite (Qeq_eqR _ _ (Qabs_neg q (Qlt_le_weak _ _ H))), Q2R_opp. apply Qlt_Rlt in H. rewrite RMicromega.Q2R_0 in H. rewrite Rabs_left by exact H. reflexivity.
  - rewrite (Qeq_eqR _ _ (Qabs_pos q H)). apply Qle_Rle in H. rewrite RMicromega.Q2R_0 in H. rewrite Rabs_right by (apply Rle_ge, H). reflexivity.
Qed.
Lemma near_real q p : ZmmSpec.near q p -> exists u, real_of p = Some u /\ (Rabs (u - Q2R q) <= 5 / 100000 * Rabs (Q2R q))%R.
Proof.
  intros (v & -> & H). exists (Q2R v). split; [reflexivity|]. apply Qle_Rle in H. rewrite Q2R_mult, !Q2R_abs, Q2R_minus in H. replace (Q2R (5 # 100000)) with (5 / 100000)%R in H by (unfold Q2R; cbn; lra). exact H.
Qed.
Lemma near_value x y : writable x -> ZmmSpec.near_pair (parts x) y -> near x (value_of y).
Proof.
  intros (a & b & -> & _ & _) [H1 H2]. cbn [parts fst snd] in H1, H2. destruct (near_real a _ H1) as (u & E1 & B1). destruct (near_real b _ H2) as (v & E2 & B2).
  exists a, b, u, v. unfold value_of. rewrite E1, E2. split; [reflexivity|]. split; [reflexivity|]. split; assumption.
Qed.
Lemma conj_value x y u : ZmmSpec.conj_of x y -> value_of x = Some u -> conjugate (value_of x) (value_of y).
Proof.
  intros [E H] V. unfold value_of in *. rewrite E. destruct (real_of (fst x)) as [a|]; [|discriminate]. destruct (snd x) as [p|], (snd y) as [q|]; cbn in *; try contradiction; try discriminate.
  exists a, (Q2R p). split; [reflexivity|]. rewrite (Qeq_eqR _ _ H), Q2R_opp. reflexivity.
Qed.
Lemma near_not_zero x y : near x y -> not_zero spr x -> is_zero cx_nums y = false.
Proof.
  intros (a & b & u & v & -> & -> & H1 & H2) N. unfold not_zero in N. cbn in N. cbn.
  assert (Z : forall q w, (Rabs (w - Q2R q) <= 5 / 100000 * Rabs (Q2R q))%R -> w = 0%R -> Qeq_bool q 0 = true).
  { intros q w H ->. apply Qeq_bool_iff. apply eqR_Qeq. rewrite RMicromega.Q2R_0. replace (0 - Q2R q)%R with (- Q2R q)%R in H by lra. rewrite Rabs_Ropp in H. destruct (Req_EM_T (Q2R q) 0) as [E|E]; [exact E|]. apply Rabs_pos_lt in E. lra. }
  destruct (Req_EM_T u 0) as [E1|]; [|reflexivity]. destruct (Req_EM_T v 0) as [E2|]; [|reflexivity]. rewrite (Z a u H1 E1), (Z b v H2 E2) in N. discriminate.
Qed.
Lemma near_zero x y : near x y -> ~ not_zero spr x -> y = Some C0.
Proof.
  intros (a & b & u & v & -> & -> & H1 & H2) N. unfold not_zero in N. cbn in N. apply not_false_iff_true in N. apply andb_prop in N. destruct N as [N1 N2].
  assert (Z : forall q w, (Rabs (w - Q2R q) <= 5 / 100000 * Rabs (Q2R q))%R -> Qeq_bool q 0 = true -> w = 0%R).
  { intros q w H E. apply Qeq_bool_iff, Qeq_eqR in E. rewrite RMicromega.Q2R_0 in E. rewrite E in H. rewrite Rabs_R0, Rmult_0_r, Rminus_0_r in H. destruct (Req_EM_T w 0) as [E'|E']; [exact E'|]. apply Rabs_pos_lt in E'. lra. }
  rewrite (Z a u H1 N1), (Z b v H2 N2). reflexivity.
Qed.
Lemma near_some x y : near x y -> exists c, y = Some c.
Proof. intros (a & b & u & v & _ & -> & _). eexists. reflexivity. Qed.
End Written.
