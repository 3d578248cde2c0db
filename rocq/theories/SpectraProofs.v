From Coq Require Import Lra.
From Verif Require Import PyBase Cplx SpectraModel SpectraSpec.
Local Open Scope R_scope.

(** ** Complex numbers *)
Lemma Cnorm2_zero a : Cnorm2 a = 0 -> a = C0.
Proof. destruct a as [x y]. unfold Cnorm2, C0. cbn [fst snd]. intros H. assert (x = 0) by nra. assert (y = 0) by nra. congruence. Qed.
Lemma Cmul_inv a : a <> C0 -> Cmul a (Cinv a) = C1.
Proof.
  intros N. assert (P : Cnorm2 a <> 0) by (intros H; exact (N (Cnorm2_zero a H))).
  destruct a as [x y]. unfold Cmul, Cinv, C1. unfold Cnorm2 in *. cbn [fst snd] in *. f_equal; field; exact P.
Qed.
Lemma Cconj_add a b : Cconj (Cadd a b) = Cadd (Cconj a) (Cconj b).
Proof. unfold Cconj, Cadd. cbn [fst snd]. f_equal; ring. Qed.
Lemma Cconj_opp a : Cconj (Copp a) = Copp (Cconj a).
Proof. reflexivity. Qed.
Lemma Cconj_sub a b : Cconj (Csub a b) = Csub (Cconj a) (Cconj b).
Proof. unfold Csub. rewrite Cconj_add, Cconj_opp. reflexivity. Qed.
Lemma Cconj_mul a b : Cconj (Cmul a b) = Cmul (Cconj a) (Cconj b).
Proof. unfold Cconj, Cmul. cbn [fst snd]. f_equal; ring. Qed.
Lemma Cconj_conj a : Cconj (Cconj a) = a.
Proof. destruct a as [x y]. unfold Cconj. cbn [fst snd]. f_equal; ring. Qed.
Lemma Cconj_zero : Cconj C0 = C0.
Proof. unfold Cconj, C0. cbn [fst snd]. f_equal; ring. Qed.
Lemma Cconj_inj a b : Cconj a = Cconj b -> a = b.
Proof. intros H. rewrite <- (Cconj_conj a), <- (Cconj_conj b). congruence. Qed.
Lemma Cmul_cancel a b c : a <> C0 -> Cmul a b = Cmul a c -> b = c.
Proof.
  intros N H. assert (X : Cmul (Cmul a (Cinv a)) b = Cmul (Cmul a (Cinv a)) c).
  { transitivity (Cmul (Cinv a) (Cmul a b)); [ring|]. rewrite H. ring. }
  rewrite (Cmul_inv a N), !Cmul_1_l in X. exact X.
Qed.
Lemma Csub_zero a b : Csub a b = C0 <-> a = b.
Proof.
  split; [|intros ->; ring]. intros H. transitivity (Cadd (Csub a b) b); [ring|]. rewrite H. ring.
Qed.

(** ** Powers *)
Lemma csum_ext {A : Type} (f g : A -> Cx) l : (forall x, In x l -> f x = g x) -> csum f l = csum g l.
Proof.
  induction l as [|x l IH]; intros H; [reflexivity|]. cbn [csum]. rewrite (H x (or_introl eq_refl)), IH; [reflexivity|].
  intros y I. apply H. right. exact I.
Qed.
Lemma csum_add {A : Type} (f g : A -> Cx) l : csum (fun x => Cadd (f x) (g x)) l = Cadd (csum f l) (csum g l).
Proof. induction l as [|x l IH]; cbn [csum]; [ring|]. rewrite IH. ring. Qed.
Lemma csum_scale {A : Type} c (f : A -> Cx) l : csum (fun x => Cmul c (f x)) l = Cmul c (csum f l).
Proof. induction l as [|x l IH]; cbn [csum]; [ring|]. rewrite IH. ring. Qed.
Lemma power_conj xs a b : power xs b a = Cconj (power xs a b).
Proof.
  unfold power. induction xs as [|x xs IH]; cbn [csum]; [symmetry; apply Cconj_zero|]. rewrite IH, Cconj_add, Cconj_mul, Cconj_conj. ring.
Qed.
Lemma power_ext xs a a' b b' : (forall x, In x xs -> a x = a' x) -> (forall x, In x xs -> b x = b' x) -> power xs a b = power xs a' b'.
Proof. intros H1 H2. unfold power. apply csum_ext. intros x I. rewrite (H1 x I), (H2 x I). reflexivity. Qed.
Lemma power_pred xs h1 h2 u v b : power xs (fun x => Cadd (Cmul u (h1 x)) (Cmul v (h2 x))) b = Cadd (Cmul u (power xs h1 b)) (Cmul v (power xs h2 b)).
Proof.
  unfold power. rewrite <- !csum_scale, <- csum_add. apply csum_ext. intros x _. ring.
Qed.
Lemma power_sub xs a a' b : power xs (fun x => Csub (a x) (a' x)) b = Csub (power xs a b) (power xs a' b).
Proof. unfold power. induction xs as [|x xs IH]; cbn [csum]; [ring|]. rewrite IH. ring. Qed.
Lemma power_residual xs o h1 h2 u v b :
  power xs (residual o h1 h2 u v) b = Csub (power xs (ch o) b) (Cadd (Cmul u (power xs (ch h1) b)) (Cmul v (power xs (ch h2) b))).
Proof.
  unfold residual. rewrite <- (power_pred xs (ch h1) (ch h2) u v b). exact (power_sub xs (ch o) _ b).
Qed.
Lemma power_zero xs b : power xs (fun _ => C0) b = C0.
Proof. unfold power. induction xs as [|x xs IH]; cbn [csum]; [reflexivity|]. rewrite IH. ring. Qed.
Lemma power_real xs a : snd (power xs a a) = 0.
Proof.
  pose proof (power_conj xs a a) as H. apply (f_equal snd) in H. unfold Cconj in H. cbn [snd] in H. lra.
Qed.
(** What is read are the powers. *)
Lemma cross_spectra xs i j : cross (spectra_of xs) i j = power xs (ch i) (ch j).
Proof.
  unfold cross, spectra_of. rewrite Nat.ltb_irrefl. destruct (Nat.eqb_spec i j) as [->|N].
  - rewrite (surjective_pairing (power xs (ch j) (ch j))). rewrite power_real. reflexivity.
  - destruct (Nat.ltb_spec i j) as [L|L].
    + assert (X : Nat.ltb j i = false) by (apply Nat.ltb_ge; lia). rewrite X.
      rewrite (power_conj xs (ch j) (ch i)). unfold Cconj. reflexivity.
    + assert (X : Nat.ltb j i = true) by (apply Nat.ltb_lt; lia). rewrite X. symmetry. apply surjective_pairing.
Qed.
Lemma clean_some empty c : c <> C0 -> c <> (empty, 0) -> clean empty c = Some c.
Proof. intros H1 H2. unfold clean. destruct (Cx_dec c C0); [contradiction|]. destruct (Cx_dec c (empty, 0)); [contradiction|reflexivity]. Qed.

(** ** Solving *)
Section Solve.
  Variables (a b c d : Cx).
  Let det := Csub (Cmul a d) (Cmul b c).
  Hypothesis ND : det <> C0.
  Variable m : mat.
  Hypothesis M00 : m 0%nat 0%nat = Some a.
  Hypothesis M01 : m 0%nat 1%nat = Some b.
  Hypothesis M10 : m 1%nat 0%nat = Some c.
  Hypothesis M11 : m 1%nat 1%nat = Some d.
  Lemma inv2_ok : exists im, inv2 m = Ok im /\
    forall (q : mat) k p0 p1, q 0%nat k = Some p0 -> q 1%nat k = Some p1 ->
      exists u v, mmul im q 0%nat k = Some u /\ mmul im q 1%nat k = Some v /\ Cadd (Cmul a u) (Cmul b v) = p0 /\ Cadd (Cmul c u) (Cmul d v) = p1.
  Proof.
    unfold inv2. rewrite M00, M01, M10, M11. cbv zeta. fold det. destruct (Cx_dec det C0); [contradiction|]. eexists. split; [reflexivity|].
    intros q k p0 p1 E0 E1. unfold mmul. rewrite E0, E1. cbn [omul oadd lift2].
    exists (Cadd (Cmul (Cdiv d det) p0) (Cmul (Cdiv (Copp b) det) p1)), (Cadd (Cmul (Cdiv (Copp c) det) p0) (Cmul (Cdiv a det) p1)).
    split; [reflexivity|]. split; [reflexivity|]. pose proof (Cmul_inv det ND) as I. unfold Cdiv. split.
    - transitivity (Cmul (Cmul det (Cinv det)) p0); [unfold det; ring|]. rewrite I. ring.
    - transitivity (Cmul (Cmul det (Cinv det)) p1); [unfold det; ring|]. rewrite I. ring.
  Qed.
  Lemma solve_unique u v u' v' : Cadd (Cmul a u) (Cmul b v) = Cadd (Cmul a u') (Cmul b v') -> Cadd (Cmul c u) (Cmul d v) = Cadd (Cmul c u') (Cmul d v') -> u = u' /\ v = v'.
  Proof.
    intros E1 E2. split; apply (Cmul_cancel det _ _ ND).
    - transitivity (Csub (Cmul d (Cadd (Cmul a u) (Cmul b v))) (Cmul b (Cadd (Cmul c u) (Cmul d v)))); [unfold det; ring|]. rewrite E1, E2. unfold det. ring.
    - transitivity (Csub (Cmul a (Cadd (Cmul c u) (Cmul d v))) (Cmul c (Cadd (Cmul a u) (Cmul b v)))); [unfold det; ring|]. rewrite E1, E2. unfold det. ring.
  Qed.
End Solve.
Lemma regular_conj a b c d : Csub (Cmul a d) (Cmul b c) <> C0 -> Csub (Cmul (Cconj a) (Cconj d)) (Cmul (Cconj c) (Cconj b)) <> C0.
Proof.
  intros N H. apply N. apply Cconj_inj. rewrite Cconj_zero, Cconj_sub, !Cconj_mul. rewrite <- H. ring.
Qed.

(** ** The transfer function of one frequency *)
Section Transfer.
  Variables (empty avgt : R) (xs : list sample) (c : chans) (n : nat).
  Hypothesis HU : usable empty n xs.
  Hypothesis HR : regular xs (c_rhx c) (c_rhy c) (c_hx c) (c_hy c).
  Hypothesis B1 : (c_hx c < n)%nat.
  Hypothesis B2 : (c_hy c < n)%nat.
  Hypothesis B3 : (c_rhx c < n)%nat.
  Hypothesis B4 : (c_rhy c < n)%nat.
  Let s : mat := fun i j => clean empty (cross (spectra_of xs) i j).
  Lemma s_power i j : (i < n)%nat -> (j < n)%nat -> s i j = Some (power xs (ch i) (ch j)).
  Proof. intros I J. unfold s. rewrite cross_spectra. destruct (HU i j I J). apply clean_some; assumption. Qed.
  Lemma tf_col : exists r, transfer_function empty avgt c (spectra_of xs) = Ok r /\
    forall k p0 p1, fst (fst (outputs s c)) 0%nat k = Some p0 -> fst (fst (outputs s c)) 1%nat k = Some p1 ->
      exists u v, s_tf r k 0%nat = Some (Cconj u) /\ s_tf r k 1%nat = Some (Cconj v) /\
        Cadd (Cmul (power xs (ch (c_rhx c)) (ch (c_hx c))) u) (Cmul (power xs (ch (c_rhx c)) (ch (c_hy c))) v) = p0 /\
        Cadd (Cmul (power xs (ch (c_rhy c)) (ch (c_hx c))) u) (Cmul (power xs (ch (c_rhy c)) (ch (c_hy c))) v) = p1.
  Proof.
    unfold transfer_function. fold s. cbv zeta. destruct (outputs s c) as [[re he] ee]. cbn [fst].
    set (rh := inputs s (c_rhx c) (c_rhy c) (c_hx c) (c_hy c)).
    assert (R00 : rh 0%nat 0%nat = Some (power xs (ch (c_rhx c)) (ch (c_hx c)))) by (apply s_power; assumption).
    assert (R01 : rh 0%nat 1%nat = Some (power xs (ch (c_rhx c)) (ch (c_hy c)))) by (apply s_power; assumption).
    assert (R10 : rh 1%nat 0%nat = Some (power xs (ch (c_rhy c)) (ch (c_hx c)))) by (apply s_power; assumption).
    assert (R11 : rh 1%nat 1%nat = Some (power xs (ch (c_rhy c)) (ch (c_hy c)))) by (apply s_power; assumption).
    destruct (inv2_ok _ _ _ _ HR rh R00 R01 R10 R11) as (irh & E1 & S1). rewrite E1. cbn [bindR].
    assert (HR' := regular_conj _ _ _ _ HR).
    destruct (inv2_ok _ _ _ _ HR' (ct rh)) as (irhh & E2 & _); [unfold ct; rewrite R00; reflexivity|unfold ct; rewrite R10; reflexivity|unfold ct; rewrite R01; reflexivity|unfold ct; rewrite R11; reflexivity|].
    rewrite E2. cbn [bindR]. eexists. split; [reflexivity|]. intros k p0 p1 O0 O1. cbn [s_tf].
    destruct (S1 re k _ _ O0 O1) as (u & v & U & V & P & Q0). exists u, v.
    unfold ct. rewrite U, V. repeat split; assumption.
  Qed.
  (** The two conditions determine the transfer function. *)
  Lemma normal_unique o u v u' v' :
    power xs (residual o (c_hx c) (c_hy c) u v) (ch (c_rhx c)) = C0 -> power xs (residual o (c_hx c) (c_hy c) u v) (ch (c_rhy c)) = C0 ->
    power xs (residual o (c_hx c) (c_hy c) u' v') (ch (c_rhx c)) = C0 -> power xs (residual o (c_hx c) (c_hy c) u' v') (ch (c_rhy c)) = C0 ->
    u = u' /\ v = v'.
  Proof.
    rewrite !power_residual. intros P1 P2 P3 P4. apply (proj1 (Csub_zero _ _)) in P1, P2, P3, P4.
    assert (HR' := regular_conj _ _ _ _ HR).
    rewrite <- !power_conj in HR'. rewrite (Cmul_comm (power xs (ch (c_hx c)) (ch (c_rhy c)))) in HR'.
    apply (solve_unique _ _ _ _ HR'); rewrite (Cmul_comm _ u), (Cmul_comm _ v), (Cmul_comm _ u'), (Cmul_comm _ v'); congruence.
  Qed.

  (** Power of two residuals. *)
  Lemma power_residuals o o' h1 h2 u v u' v' :
    power xs (residual o h1 h2 u v) (residual o' h1 h2 u' v') =
    Cadd (Csub (Csub (power xs (ch o) (ch o'))
        (Cadd (Cmul u (power xs (ch h1) (ch o'))) (Cmul v (power xs (ch h2) (ch o')))))
        (Cadd (Cmul (power xs (ch o) (ch h1)) (Cconj u')) (Cmul (power xs (ch o) (ch h2)) (Cconj v'))))
      (Cadd (Cmul u (Cadd (Cmul (power xs (ch h1) (ch h1)) (Cconj u')) (Cmul (power xs (ch h1) (ch h2)) (Cconj v'))))
            (Cmul v (Cadd (Cmul (power xs (ch h2) (ch h1)) (Cconj u')) (Cmul (power xs (ch h2) (ch h2)) (Cconj v'))))).
  Proof.
    rewrite power_residual. rewrite !(power_conj xs (residual o' h1 h2 u' v')), !power_residual.
    rewrite !Cconj_sub, !Cconj_add, !Cconj_mul, <- !power_conj. ring.
  Qed.
  Variables (hz ex ey : nat).
  Hypothesis CZ : c_hz c = Some hz.
  Hypothesis CE : c_e c = Some (ex, ey).
  Hypothesis Lz : (hz < n)%nat.
  Hypothesis Lx : (ex < n)%nat.
  Hypothesis Ly : (ey < n)%nat.
  Lemma full_ok : exists r, transfer_function empty avgt c (spectra_of xs) = Ok r /\
    exists (u v : nat -> Cx), 
      (forall k, (k < 3)%nat -> s_tf r k 0%nat = Some (u k) /\ s_tf r k 1%nat = Some (v k) /\
        power xs (residual (pick3 ex ey hz k) (c_hx c) (c_hy c) (u k) (v k)) (ch (c_rhx c)) = C0 /\
        power xs (residual (pick3 ex ey hz k) (c_hx c) (c_hy c) (u k) (v k)) (ch (c_rhy c)) = C0) /\
      (avgt <> 0 -> forall i j, (i < 3)%nat -> (j < 3)%nat ->
        s_res r i j = Some (Cmul (power xs (residual (pick3 ex ey hz i) (c_hx c) (c_hy c) (u i) (v i)) (residual (pick3 ex ey hz j) (c_hx c) (c_hy c) (u j) (v j))) (RtoC (/ avgt)))) /\
      s_err r = err_of (s_res r) (s_sig r) /\
      (forall j, (j < 2)%nat -> exists x, s_sig r j j = Some x).
  Proof.
    assert (LO : forall k, (pick3 ex ey hz k < n)%nat) by (intros [|[|k]]; assumption).
    unfold transfer_function. fold s. cbv zeta. unfold outputs. rewrite CZ, CE.
    set (re := fun i j => s (pick (c_rhx c) (c_rhy c) i) (pick3 ex ey hz j)).
    set (he := fun i j => s (pick (c_hx c) (c_hy c) i) (pick3 ex ey hz j)).
    set (ee := fun i j => s (pick3 ex ey hz i) (pick3 ex ey hz j)).
    set (rh := inputs s (c_rhx c) (c_rhy c) (c_hx c) (c_hy c)).
    assert (R00 : rh 0%nat 0%nat = Some (power xs (ch (c_rhx c)) (ch (c_hx c)))) by (apply s_power; assumption).
    assert (R01 : rh 0%nat 1%nat = Some (power xs (ch (c_rhx c)) (ch (c_hy c)))) by (apply s_power; assumption).
    assert (R10 : rh 1%nat 0%nat = Some (power xs (ch (c_rhy c)) (ch (c_hx c)))) by (apply s_power; assumption).
    assert (R11 : rh 1%nat 1%nat = Some (power xs (ch (c_rhy c)) (ch (c_hy c)))) by (apply s_power; assumption).
    destruct (inv2_ok _ _ _ _ HR rh R00 R01 R10 R11) as (irh & E1 & S1). rewrite E1. cbn [bindR].
    assert (HR' := regular_conj _ _ _ _ HR).
    destruct (inv2_ok _ _ _ _ HR' (ct rh)) as (irhh & E2 & S2); [unfold ct; rewrite R00; reflexivity|unfold ct; rewrite R10; reflexivity|unfold ct; rewrite R01; reflexivity|unfold ct; rewrite R11; reflexivity|].
    rewrite E2. cbn [bindR]. eexists. split; [reflexivity|]. cbn [s_tf s_res s_err s_sig].
    assert (COL : forall k, exists uv, mmul irh re 0%nat k = Some (fst uv) /\ mmul irh re 1%nat k = Some (snd uv) /\
      Cadd (Cmul (power xs (ch (c_rhx c)) (ch (c_hx c))) (fst uv)) (Cmul (power xs (ch (c_rhx c)) (ch (c_hy c))) (snd uv)) = power xs (ch (c_rhx c)) (ch (pick3 ex ey hz k)) /\
      Cadd (Cmul (power xs (ch (c_rhy c)) (ch (c_hx c))) (fst uv)) (Cmul (power xs (ch (c_rhy c)) (ch (c_hy c))) (snd uv)) = power xs (ch (c_rhy c)) (ch (pick3 ex ey hz k))).
    { intros k. destruct (S1 re k _ _ (s_power (c_rhx c) (pick3 ex ey hz k) B3 (LO k)) (s_power (c_rhy c) (pick3 ex ey hz k) B4 (LO k))) as (u & v & H).
      exists (u, v). exact H. }
    destruct (COL 0%nat) as (w0 & W0). destruct (COL 1%nat) as (w1 & W1). destruct (COL 2%nat) as (w2 & W2).
    set (w := fun k : nat => match k with O => w0 | S O => w1 | _ => w2 end).
    assert (W : forall k, (k < 3)%nat -> mmul irh re 0%nat k = Some (fst (w k)) /\ mmul irh re 1%nat k = Some (snd (w k)) /\
      Cadd (Cmul (power xs (ch (c_rhx c)) (ch (c_hx c))) (fst (w k))) (Cmul (power xs (ch (c_rhx c)) (ch (c_hy c))) (snd (w k))) = power xs (ch (c_rhx c)) (ch (pick3 ex ey hz k)) /\
      Cadd (Cmul (power xs (ch (c_rhy c)) (ch (c_hx c))) (fst (w k))) (Cmul (power xs (ch (c_rhy c)) (ch (c_hy c))) (snd (w k))) = power xs (ch (c_rhy c)) (ch (pick3 ex ey hz k))).
    { intros [|[|[|k]]] L; [exact W0|exact W1|exact W2|lia]. }
    clearbody w. clear W0 W1 W2 COL.
    exists (fun k => Cconj (fst (w k))), (fun k => Cconj (snd (w k))). split; [|split; [|split; [reflexivity|]]].
    - intros k L. destruct (W k L) as (U & V & P & Q0). unfold ct. rewrite U, V. split; [reflexivity|]. split; [reflexivity|].
      rewrite !power_residual. split; apply Csub_zero; apply Cconj_inj; rewrite Cconj_add, !Cconj_mul, !Cconj_conj, <- !power_conj.
      + rewrite <- P. ring.
      + rewrite <- Q0. ring.
    - intros NA i j Li Lj. destruct (Req_EM_T avgt 0); [contradiction|].
      destruct (W i Li) as (Ui & Vi & _). destruct (W j Lj) as (Uj & Vj & _).
      set (hh := inputs s (c_hx c) (c_hy c) (c_hx c) (c_hy c)). set (tfh := mmul irh re) in *.
      assert (X1 : mmul (ct tfh) he i j = Some (Cadd (Cmul (Cconj (fst (w i))) (power xs (ch (c_hx c)) (ch (pick3 ex ey hz j)))) (Cmul (Cconj (snd (w i))) (power xs (ch (c_hy c)) (ch (pick3 ex ey hz j)))))).
      { unfold mmul at 1, ct, he. rewrite Ui, Vi. cbn [pick]. rewrite !s_power by auto. reflexivity. }
      assert (X2 : mmul (ct he) tfh i j = Some (Cadd (Cmul (power xs (ch (pick3 ex ey hz i)) (ch (c_hx c))) (fst (w j))) (Cmul (power xs (ch (pick3 ex ey hz i)) (ch (c_hy c))) (snd (w j))))).
      { unfold mmul at 1, ct, he. rewrite Uj, Vj. cbn [pick]. rewrite !s_power by auto. cbn [oconj option_map omul oadd lift2]. rewrite <- !power_conj. reflexivity. }
      assert (X3 : forall a, (a < 2)%nat -> mmul hh tfh a j = Some (Cadd (Cmul (power xs (ch (pick (c_hx c) (c_hy c) a)) (ch (c_hx c))) (fst (w j))) (Cmul (power xs (ch (pick (c_hx c) (c_hy c) a)) (ch (c_hy c))) (snd (w j))))).
      { intros a La. assert (LP : (pick (c_hx c) (c_hy c) a < n)%nat) by (destruct a; assumption). unfold mmul at 1, hh, inputs. rewrite Uj, Vj. cbn [pick]. rewrite !s_power by auto. reflexivity. }
      assert (X4 : mmul (ct tfh) (mmul hh tfh) i j = Some (Cadd (Cmul (Cconj (fst (w i))) (Cadd (Cmul (power xs (ch (c_hx c)) (ch (c_hx c))) (fst (w j))) (Cmul (power xs (ch (c_hx c)) (ch (c_hy c))) (snd (w j)))))
           (Cmul (Cconj (snd (w i))) (Cadd (Cmul (power xs (ch (c_hy c)) (ch (c_hx c))) (fst (w j))) (Cmul (power xs (ch (c_hy c)) (ch (c_hy c))) (snd (w j))))))).
      { unfold mmul at 1. rewrite (X3 0%nat ltac:(lia)), (X3 1%nat ltac:(lia)). unfold ct. rewrite Ui, Vi. reflexivity. }
      unfold madd, msub. rewrite X1, X2, X4. unfold ee. rewrite s_power by auto. cbn [osub oadd omul lift2]. f_equal. f_equal.
      rewrite power_residuals, !Cconj_conj. reflexivity.
    - intros j Lj. set (rr := inputs s (c_rhx c) (c_rhy c) (c_rhx c) (c_rhy c)).
      assert (IS : forall i k, (i < 2)%nat -> (k < 2)%nat -> exists x, irhh i k = Some x).
      { intros i k Li Lk. unfold inv2, ct in E2. rewrite R00, R01, R10, R11 in E2. cbn [oconj option_map] in E2. cbv zeta in E2.
        destruct (Cx_dec _ _); [discriminate E2|]. assert (E3 := f_equal (fun r => match r with Ok m => m i k | Err _ => None end) E2). cbn beta iota in E3.
        destruct i as [|[|i]]; [| |lia]; (destruct k as [|[|k]]; [| |lia]); cbv iota beta in E3; eexists; symmetry; exact E3. }
      assert (RR : forall i k, exists x, rr i k = Some x).
      { intros i k. eexists. unfold rr, inputs. apply s_power; [destruct i; assumption|destruct k; assumption]. }
      assert (M0 : forall i, exists x, mmul rr irhh i j = Some x).
      { intros i. unfold mmul. destruct (RR i 0%nat) as [x0 ->]. destruct (RR i 1%nat) as [x1 ->].
        destruct (IS 0%nat j ltac:(lia) Lj) as [y0 ->]. destruct (IS 1%nat j ltac:(lia) Lj) as [y1 ->]. eexists. reflexivity. }
      destruct (M0 0%nat) as [p0 P0]. destruct (M0 1%nat) as [p1 P1]. destruct (S1 (mmul rr irhh) j _ _ P0 P1) as (u & v & U & V & _).
      destruct j as [|[|j]]; [exists u; exact U|exists v; exact V|lia].
  Qed.
End Transfer.

(** A zero among the cross powers of references and inputs makes everything nan. *)
Lemma tf_nan empty avgt c arr r h : In r [c_rhx c; c_rhy c] -> In h [c_hx c; c_hy c] -> clean empty (cross arr r h) = None ->
  exists t, transfer_function empty avgt c arr = Ok t /\ forall i j, s_tf t i j = None.
Proof.
  intros Ir Ih N. unfold transfer_function. cbv zeta. set (s := fun i j => clean empty (cross arr i j)).
  assert (V : inv2 (inputs s (c_rhx c) (c_rhy c) (c_hx c) (c_hy c)) = Ok (fun _ _ => None) /\
              inv2 (ct (inputs s (c_rhx c) (c_rhy c) (c_hx c) (c_hy c))) = Ok (fun _ _ => None)).
  { unfold inv2, ct, inputs. cbn [pick].
    assert (S0 : s r h = None) by exact N.
    destruct Ir as [<-|[<-|[]]]; destruct Ih as [<-|[<-|[]]]; rewrite S0; cbn [oconj option_map];
      split; repeat match goal with |- context [match s ?a ?b with _ => _ end] => destruct (s a b) | |- context [match option_map Cconj (s ?a ?b) with _ => _ end] => destruct (s a b); cbn [option_map] end;
      try reflexivity; unfold oconj; repeat match goal with |- context [match option_map Cconj (s ?a ?b) with _ => _ end] => destruct (s a b); cbn [option_map] end; reflexivity. }
  destruct V as [V1 V2]. destruct (outputs s c) as [[re he] ee]. rewrite V1, V2. cbn [bindR].
  eexists. split; [reflexivity|]. intros i j. reflexivity.
Qed.
