(** C49: impedance and tipper from the spectra of an EDI file. *)
From Coq Require Import Lra.
From Verif Require Import PyBase Cplx SpectraModel SpectraSpec SpectraProofs.
Local Open Scope R_scope.

(** The files with a vertical magnetic field have 5 channels, or 7 with remote references. *)
Definition with_tipper (nchan : nat) (c : chans) : Prop :=
  (nchan = 5 \/ nchan = 7)%nat /\ exists comps, channel_list nchan = Ok comps /\ chans_of comps = Ok c.
(** Such files: where the channels are. *)
Lemma with_tipper_chans nchan c : with_tipper nchan c -> c_hx c = 0%nat /\ c_hy c = 1%nat /\ c_hz c = Some 2%nat /\ c_e c = Some (3%nat, 4%nat) /\
  (nchan = 5%nat /\ c_rhx c = 0%nat /\ c_rhy c = 1%nat \/ nchan = 7%nat /\ c_rhx c = 5%nat /\ c_rhy c = 6%nat).
Proof.
  intros [[-> | ->] (comps & E & C)]; cbn [channel_list] in E; injection E as <-; vm_compute in C; injection C as <-; cbn; tauto.
Qed.
Local Notation ex := 3%nat.
Local Notation ey := 4%nat.
Local Notation hz := 2%nat.

(** Least squares, for every data with a tipper: what is left of each output after the prediction by the
    transfer function is orthogonal to both references; and there is one such transfer function only. *)
Theorem C49_least_squares empty avgt xs nchan c :
  with_tipper nchan c -> usable empty nchan xs -> regular xs (c_rhx c) (c_rhy c) (c_hx c) (c_hy c) ->
  exists r, transfer_function empty avgt c (spectra_of xs) = Ok r /\
    forall o row, (o, row) = (ex, impedance r 0%nat) \/ (o, row) = (ey, impedance r 1%nat) \/ (o, row) = (hz, tipper c r) ->
    exists u v, row 0%nat = Some u /\ row 1%nat = Some v /\
      forall u' v',
        (power xs (residual o (c_hx c) (c_hy c) u' v') (ch (c_rhx c)) = C0 /\
         power xs (residual o (c_hx c) (c_hy c) u' v') (ch (c_rhy c)) = C0) <-> (u' = u /\ v' = v).
Proof.
  intros W U R. destruct (with_tipper_chans nchan c W) as (X1 & X2 & X3 & X4 & X5).
  assert (L : (c_hx c < nchan /\ c_hy c < nchan /\ c_rhx c < nchan /\ c_rhy c < nchan /\ 2 < nchan /\ 3 < nchan /\ 4 < nchan)%nat).
  { destruct X5 as [(-> & -> & ->)|(-> & -> & ->)]; rewrite X1, X2; lia. }
  destruct L as (L1 & L2 & L3 & L4 & L5 & L6 & L7).
  destruct (full_ok empty avgt xs c nchan U R L1 L2 L3 L4 2%nat 3%nat 4%nat X3 X4 L5 L6 L7) as (r & E & u & v & T & _).
  exists r. split; [exact E|]. intros o row O.
  assert (K : exists k, (k < 3)%nat /\ o = pick3 3 4 2 k /\ row = s_tf r k).
  { destruct O as [O|[O|O]]; apply pair_equal_spec in O as [-> ->].
    - exists 0%nat. repeat split; lia.
    - exists 1%nat. repeat split; lia.
    - exists 2%nat. split; [lia|]. split; [reflexivity|]. unfold tipper. rewrite X4. reflexivity. }
  destruct K as (k & Lk & -> & ->). destruct (T k Lk) as (T1 & T2 & T3 & T4). exists (u k), (v k). split; [exact T1|]. split; [exact T2|].
  intros u' v'. split.
  - intros [P1 P2]. exact (normal_unique xs c R _ _ _ _ _ P1 P2 T3 T4).
  - intros [-> ->]. split; assumption.
Qed.
(** Data that obey E = Z H and Hz = T H give back Z and T. *)
Theorem C49_exact empty avgt xs nchan c z00 z01 z10 z11 t0 t1 :
  with_tipper nchan c -> usable empty nchan xs -> regular xs (c_rhx c) (c_rhy c) (c_hx c) (c_hy c) ->
  (forall x, In x xs -> x ex = Cadd (Cmul z00 (x 0%nat)) (Cmul z01 (x 1%nat)) /\
                        x ey = Cadd (Cmul z10 (x 0%nat)) (Cmul z11 (x 1%nat)) /\
                        x hz = Cadd (Cmul t0 (x 0%nat)) (Cmul t1 (x 1%nat))) ->
  exists r, transfer_function empty avgt c (spectra_of xs) = Ok r /\
    impedance r 0 0 = Some z00 /\ impedance r 0 1 = Some z01 /\ impedance r 1 0 = Some z10 /\ impedance r 1 1 = Some z11 /\
    tipper c r 0 = Some t0 /\ tipper c r 1 = Some t1 /\
    (avgt <> 0 -> forall i j, (i < 3)%nat -> (j < 2)%nat -> s_res r i i = Some C0 /\ s_err r i j = 1).
Proof.
  intros W U R D. destruct (with_tipper_chans nchan c W) as (X1 & X2 & X3 & X4 & X5).
  assert (L : (c_hx c < nchan /\ c_hy c < nchan /\ c_rhx c < nchan /\ c_rhy c < nchan /\ 2 < nchan /\ 3 < nchan /\ 4 < nchan)%nat).
  { destruct X5 as [(-> & -> & ->)|(-> & -> & ->)]; rewrite X1, X2; lia. }
  destruct L as (L1 & L2 & L3 & L4 & L5 & L6 & L7).
  destruct (full_ok empty avgt xs c nchan U R L1 L2 L3 L4 2%nat 3%nat 4%nat X3 X4 L5 L6 L7) as (r & E & u & v & T & RS & ER & SG).
  exists r. split; [exact E|].
  assert (Z0 : forall o a b, (forall x, In x xs -> x o = Cadd (Cmul a (x 0%nat)) (Cmul b (x 1%nat))) -> forall w, power xs (residual o (c_hx c) (c_hy c) a b) w = C0).
  { intros o a b H w. rewrite (power_ext xs _ (fun _ => C0) w w); [|intros x I; unfold residual; rewrite X1, X2, (H x I); ring|reflexivity].
    apply power_zero. }
  assert (G : forall k a b, (k < 3)%nat -> (forall x, In x xs -> x (pick3 3 4 2 k) = Cadd (Cmul a (x 0%nat)) (Cmul b (x 1%nat))) -> u k = a /\ v k = b).
  { intros k a b Lk H. destruct (T k Lk) as (_ & _ & T3 & T4). exact (normal_unique xs c R _ _ _ _ _ T3 T4 (Z0 _ a b H _) (Z0 _ a b H _)). }
  assert (H0 := fun x I => proj1 (D x I)). assert (H1 := fun x I => proj1 (proj2 (D x I))). assert (H2 := fun x I => proj2 (proj2 (D x I))).
  destruct (G 0%nat z00 z01 ltac:(lia) H0) as [U0 V0]. destruct (G 1%nat z10 z11 ltac:(lia) H1) as [U1 V1]. destruct (G 2%nat t0 t1 ltac:(lia) H2) as [U2 V2].
  destruct (T 0%nat ltac:(lia)) as (A0 & B0 & _). destruct (T 1%nat ltac:(lia)) as (A1 & B1 & _). destruct (T 2%nat ltac:(lia)) as (A2 & B2 & _).
  unfold impedance, tipper. rewrite X4, A0, B0, A1, B1, A2, B2, U0, V0, U1, V1, U2, V2. repeat (split; [reflexivity|]).
  intros NA i j Li Lj.
  assert (RI : s_res r i i = Some C0).
  { rewrite (RS NA i i Li Li). f_equal.
    assert (P0 : power xs (residual (pick3 3 4 2 i) (c_hx c) (c_hy c) (u i) (v i)) (residual (pick3 3 4 2 i) (c_hx c) (c_hy c) (u i) (v i)) = C0).
    { destruct i as [|[|[|i]]]; [rewrite U0, V0; exact (Z0 3%nat z00 z01 H0 _)|rewrite U1, V1; exact (Z0 4%nat z10 z11 H1 _)|rewrite U2, V2; exact (Z0 2%nat t0 t1 H2 _)|lia]. }
    rewrite P0. ring. }
  split; [exact RI|]. rewrite ER. unfold err_of. rewrite RI. destruct (SG j Lj) as [x ->]. cbn [omul lift2].
  assert (CZ : Cabs (Cmul C0 x) = 0).
  { replace (Cmul C0 x) with C0 by ring. unfold Cabs, Cnorm2, C0. cbn [fst snd]. replace (0 * 0 + 0 * 0) with 0 by ring. apply sqrt_0. }
  cbv zeta. rewrite CZ, sqrt_0. destruct (Req_EM_T 0 0); [reflexivity|contradiction].
Qed.
(** The residual covariance is the power of what the transfer function leaves, per averaging time. *)
Theorem C49_residual_covariance empty avgt xs nchan c :
  with_tipper nchan c -> usable empty nchan xs -> regular xs (c_rhx c) (c_rhy c) (c_hx c) (c_hy c) -> avgt <> 0 ->
  exists r, transfer_function empty avgt c (spectra_of xs) = Ok r /\
    forall i j u v u' v', (i < 3)%nat -> (j < 3)%nat -> s_tf r i 0%nat = Some u -> s_tf r i 1%nat = Some v -> s_tf r j 0%nat = Some u' -> s_tf r j 1%nat = Some v' ->
    let out k := match k with 0%nat => ex | 1%nat => ey | _ => hz end in
    s_res r i j = Some (Cmul (power xs (residual (out i) (c_hx c) (c_hy c) u v) (residual (out j) (c_hx c) (c_hy c) u' v')) (RtoC (/ avgt))).
Proof.
  intros W U R NA. destruct (with_tipper_chans nchan c W) as (X1 & X2 & X3 & X4 & X5).
  assert (L : (c_hx c < nchan /\ c_hy c < nchan /\ c_rhx c < nchan /\ c_rhy c < nchan /\ 2 < nchan /\ 3 < nchan /\ 4 < nchan)%nat).
  { destruct X5 as [(-> & -> & ->)|(-> & -> & ->)]; rewrite X1, X2; lia. }
  destruct L as (L1 & L2 & L3 & L4 & L5 & L6 & L7).
  destruct (full_ok empty avgt xs c nchan U R L1 L2 L3 L4 2%nat 3%nat 4%nat X3 X4 L5 L6 L7) as (r & E & u & v & T & RS & _).
  exists r. split; [exact E|]. intros i j a b a' b' Li Lj A1 A2 A3 A4 out.
  destruct (T i Li) as (B1 & B2 & _). destruct (T j Lj) as (B3 & B4 & _).
  assert (u i = a /\ v i = b /\ u j = a' /\ v j = b') as (<- & <- & <- & <-) by (repeat split; congruence).
  exact (RS NA i j Li Lj).
Qed.

(** Two samples of channels hx, hy, hz, ex, ey with E = Z H, Z = [[1, 2], [3, 5]] and T = [1, 1]. *)
Definition sample1 : sample := fun i => RtoC (match i with 0%nat => 1 | 1%nat => 1 | 2%nat => 2 | 3%nat => 3 | _ => 8 end).
Definition sample2 : sample := fun i => RtoC (match i with 0%nat => 1 | 1%nat => 2 | 2%nat => 3 | 3%nat => 5 | _ => 13 end).
Example C49_hyp : exists c, with_tipper 5 c /\ usable 1000 5 [sample1; sample2] /\
  regular [sample1; sample2] (c_rhx c) (c_rhy c) (c_hx c) (c_hy c) /\
  forall x, In x [sample1; sample2] -> x ex = Cadd (Cmul (RtoC 1) (x 0%nat)) (Cmul (RtoC 2) (x 1%nat)) /\
                        x ey = Cadd (Cmul (RtoC 3) (x 0%nat)) (Cmul (RtoC 5) (x 1%nat)) /\
                        x hz = Cadd (Cmul (RtoC 1) (x 0%nat)) (Cmul (RtoC 1) (x 1%nat)).
Proof.
  exists (mkChans 0 1 (Some 2%nat) (Some (3%nat, 4%nat)) 0 1). split; [split; [left; reflexivity|]; eexists; split; reflexivity|].
  split; [|split].
  - intros i j Li Lj. unfold power, ch, csum.
    assert (V : forall k, (k < 5)%nat -> exists a b, sample1 k = RtoC a /\ sample2 k = RtoC b /\ 1 <= a <= 8 /\ 1 <= b <= 13).
    { intros k Lk. exists (fst (sample1 k)), (fst (sample2 k)). do 5 (destruct k as [|k]; [cbn; repeat split; lra|]). lia. }
    destruct (V i Li) as (a & b & -> & -> & A & B). destruct (V j Lj) as (a' & b' & -> & -> & A' & B').
    split; intros H; apply (f_equal fst) in H; cbn in H; nra.
  - unfold regular, power, ch, csum. cbn [c_hx c_hy c_rhx c_rhy]. intros H. apply (f_equal fst) in H. cbn in H. lra.
  - intros x [<-|[<-|[]]]; unfold sample1, sample2, RtoC, Cadd, Cmul; cbn [fst snd]; repeat split; f_equal; lra.
Qed.

(** ** Where the claim fails *)
(** Files without a vertical magnetic field (4 channels, or 6 with references): the impedance of data that obey
    E = Z H is wrong, for all such data: the row of the second electric channel is never that of Z. *)
Theorem C49_no_tipper_refuted empty avgt xs nchan comps c z00 z01 z10 z11 :
  (nchan = 4 \/ nchan = 6)%nat -> channel_list nchan = Ok comps -> chans_of comps = Ok c ->
  usable empty nchan xs -> regular xs (c_rhx c) (c_rhy c) (c_hx c) (c_hy c) ->
  (forall x, In x xs -> x 2%nat = Cadd (Cmul z00 (x 0%nat)) (Cmul z01 (x 1%nat)) /\
                        x 3%nat = Cadd (Cmul z10 (x 0%nat)) (Cmul z11 (x 1%nat))) ->
  exists r, transfer_function empty avgt c (spectra_of xs) = Ok r /\
    ~ (impedance r 1 0 = Some z10 /\ impedance r 1 1 = Some z11).
Proof.
  intros N E C U R D.
  assert (X : c_hx c = 0%nat /\ c_hy c = 1%nat /\ c_hz c = None /\ c_e c = Some (2%nat, 3%nat) /\ (c_rhx c < nchan /\ c_rhy c < nchan /\ 3 < nchan)%nat).
  { destruct N as [-> | ->]; cbn [channel_list] in E; injection E as <-; vm_compute in C; injection C as <-; cbn; repeat split; lia. }
  destruct X as (X1 & X2 & X3 & X4 & L1 & L2 & L3).
  destruct (tf_col empty avgt xs c nchan U R) as (r & ER & T); [rewrite X1; lia|rewrite X2; lia|exact L1|exact L2|].
  exists r. split; [exact ER|]. intros [I0 I1]. unfold impedance in I0, I1.
  unfold outputs in T. rewrite X3, X4 in T. cbn [fst] in T.
  destruct (T 1%nat (power xs (ch (c_rhx c)) (ch 3%nat)) C0) as (u & v & T1 & T2 & T3 & T4).
  { unfold set_cell. cbn. rewrite (s_power empty xs nchan U) by lia. reflexivity. }
  { unfold set_cell. cbn. reflexivity. }
  rewrite T1 in I0. rewrite T2 in I1. injection I0 as I0. injection I1 as I1.
  apply (proj1 (U (c_rhy c) 3%nat L2 L3)).
  rewrite <- T4. rewrite (power_conj xs (ch 3%nat) (ch (c_rhy c))).
  assert (P3 : power xs (ch 3%nat) (ch (c_rhy c)) = Cadd (Cmul z10 (power xs (ch 0%nat) (ch (c_rhy c)))) (Cmul z11 (power xs (ch 1%nat) (ch (c_rhy c))))).
  { rewrite <- power_pred. apply power_ext; [|reflexivity]. intros x I. exact (proj2 (D x I)). }
  rewrite P3, Cconj_add, !Cconj_mul, <- !power_conj, <- I0, <- I1, !Cconj_conj, X1, X2. ring.
Qed.
Example C49_no_tipper_hyp : exists comps c, channel_list 4 = Ok comps /\ chans_of comps = Ok c /\
  usable 1000 4 [fun i => sample1 (pick3 0 1 (S i) i); fun i => sample2 (pick3 0 1 (S i) i)] /\
  regular [fun i => sample1 (pick3 0 1 (S i) i); fun i => sample2 (pick3 0 1 (S i) i)] (c_rhx c) (c_rhy c) (c_hx c) (c_hy c).
Proof.
  eexists. exists (mkChans 0 1 None (Some (2%nat, 3%nat)) 0 1). split; [reflexivity|]. split; [reflexivity|]. split.
  - intros i j Li Lj. unfold power, ch, csum.
    assert (V : forall k, (k < 4)%nat -> exists a b, sample1 (pick3 0 1 (S k) k) = RtoC a /\ sample2 (pick3 0 1 (S k) k) = RtoC b /\ 1 <= a <= 8 /\ 1 <= b <= 13).
    { intros k Lk. exists (fst (sample1 (pick3 0 1 (S k) k))), (fst (sample2 (pick3 0 1 (S k) k))). do 4 (destruct k as [|k]; [cbn; repeat split; lra|]). lia. }
    destruct (V i Li) as (a & b & -> & -> & A & B). destruct (V j Lj) as (a' & b' & -> & -> & A' & B').
    split; intros H; apply (f_equal fst) in H; cbn in H; nra.
  - unfold regular, power, ch, csum. cbn [c_hx c_hy c_rhx c_rhy]. intros H. apply (f_equal fst) in H. cbn in H. lra.
Qed.
(** A cross power of exactly zero between references and inputs, for instance of uncorrelated components of
    the magnetic field, is taken for a missing value, and the whole transfer function becomes nan. *)
Theorem C49_uncorrelated_refuted empty avgt xs c :
  power xs (ch (c_rhx c)) (ch (c_hy c)) = C0 ->
  exists r, transfer_function empty avgt c (spectra_of xs) = Ok r /\ forall i j, impedance r i j = None.
Proof.
  intros H. apply (tf_nan empty avgt c (spectra_of xs) (c_rhx c) (c_hy c)); [left; reflexivity|right; left; reflexivity|].
  rewrite cross_spectra, H. unfold clean. destruct (Cx_dec C0 C0); [reflexivity|contradiction].
Qed.
Example C49_uncorrelated_hyp : exists c, with_tipper 5 c /\
  let xs := [fun i => RtoC (match i with 0%nat => 1 | 1%nat => 1 | _ => 5 end); fun i => RtoC (match i with 0%nat => 1 | 1%nat => -1 | _ => 3 end)] in
  power xs (ch (c_rhx c)) (ch (c_hy c)) = C0 /\ regular xs (c_rhx c) (c_rhy c) (c_hx c) (c_hy c).
Proof.
  exists (mkChans 0 1 (Some 2%nat) (Some (3%nat, 4%nat)) 0 1). split; [split; [left; reflexivity|]; eexists; split; reflexivity|].
  cbn [c_hx c_hy c_rhx c_rhy]. split.
  - unfold power, ch, csum, RtoC, Cadd, Cmul, Cconj, C0. cbn [fst snd]. f_equal; lra.
  - unfold regular, power, ch, csum. intros H. apply (f_equal fst) in H. cbn in H. lra.
Qed.

Print Assumptions C49_least_squares.
Print Assumptions C49_exact.
Print Assumptions C49_residual_covariance.
Print Assumptions C49_no_tipper_refuted.
Print Assumptions C49_uncorrelated_refuted.
