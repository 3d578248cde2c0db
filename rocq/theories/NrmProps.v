(** C151: the normalization frequency of a filter of poles and zeros. *)
From Coq Require Import Reals Lia.
From Verif Require Import PyBase PyText TextFacts Cplx FilterModel PassModel PassSpec PassProofs PassProps NrmModel NrmSpec.
From Coq Require Import Lra.
Local Open Scope R_scope.
Local Open Scope list_scope.

Lemma median_two a b : a <= b -> median [a; b] = (a + b) / 2.
Proof. intros L. unfold median, in_order. cbn [fold_right insert]. destruct (Rle_dec a b) as [_|N]; [reflexivity|contradiction]. Qed.
Lemma mean_two a b : PassModel.mean [a; b] = (a + b) / 2.
Proof. unfold mean. cbn [fold_right length INR]. lra. Qed.
Lemma rmin_two a b : a <= b -> rmin a [b] = a.
Proof. intros L. unfold rmin. cbn [fold_right]. rewrite Rmin_comm. apply Rmin_left. exact L. Qed.
Lemma rmax_two a b : a <= b -> rmax a [b] = b.
Proof. intros L. unfold rmax. cbn [fold_right]. apply Rmax_left. exact L. Qed.
Lemma two np2 fs amp e n tol lo hi : lo < hi -> pass_band fs amp n tol = Some [lo; hi] -> In e estimates ->
  exists x, normalization_frequency np2 fs amp e n tol = Ok (Number x) /\ estimate_of e lo hi x /\ lo <= x <= hi.
Proof.
  intros L P I. unfold normalization_frequency. rewrite P. cbv beta iota. rewrite mean_two, median_two, rmin_two, rmax_two by lra. unfold estimates in I. cbn [map In] in I.
  destruct I as [<-|[<-|[<-|[<-|[]]]]]; eexists; (split; [reflexivity|]); unfold estimate_of; (split; [|lra]); repeat split; intros E; try discriminate E; reflexivity.
Qed.

(** With two or more frequencies in order and any amplitudes, each estimate is the number it is to be of the pass band, which goes from one of the frequencies to a higher one. *)
Theorem C151_estimate np2 fs amp e n tol : (2 <= length fs)%nat -> increasing fs -> length amp = length fs -> In e estimates ->
  exists i j x, (i < j < length fs)%nat /\ pass_band fs (Some amp) n tol = Some [nth i fs 0; nth j fs 0] /\
    normalization_frequency np2 fs (Some amp) e n tol = Ok (Number x) /\ estimate_of e (nth i fs 0) (nth j fs 0) x /\ nth i fs 0 <= x <= nth j fs 0.
Proof.
  intros L I E M. destruct (C85_ends fs amp n tol L I E) as (i & j & B & P). exists i, j.
  assert (O : nth i fs 0 < nth j fs 0) by (apply I; lia). destruct (two np2 fs (Some amp) e n tol _ _ O P M) as (x & X1 & X2 & X3). exists x. tauto.
Qed.
(** One frequency is its own normalization frequency, whatever the estimate. *)
Theorem C151_one np2 f amp e n tol : In e estimates -> normalization_frequency np2 [f] amp e n tol = Ok (Number f).
Proof.
  intros I. unfold normalization_frequency. cbn [pass_band]. assert (M : mean [f] = f) by (unfold mean; cbn [fold_right length INR]; lra).
  unfold estimates in I. cbn [map In] in I. destruct I as [<-|[<-|[<-|[<-|[]]]]]; [rewrite M; reflexivity|reflexivity..].
Qed.
(** Another estimate gives None, and no error. *)
Theorem C151_unknown np2 fs amp e n tol : fs <> [] -> length amp = length fs -> ~ In e estimates -> normalization_frequency np2 fs (Some amp) e n tol = Ok Nothing.
Proof.
  intros F L N. unfold normalization_frequency.
  assert (P : exists a r, pass_band fs (Some amp) n tol = Some (a :: r)).
  { unfold pass_band. destruct fs as [|f0 [|f1 r]]; [congruence|eexists _, _; reflexivity|]. cbv zeta. destruct (seems_flat amp); [eexists _, _; reflexivity|]. destruct (_ <=? _)%nat; [eexists _, _; reflexivity|].
    destruct n; [eexists _, _; reflexivity|]. destruct (passing _ _ _); eexists _, _; reflexivity. }
  destruct P as (a & r & ->). unfold estimates in N. cbn [map In] in N.
  assert (K : forall t, t <> e -> text_eqb e t = false) by (intros t D; destruct (text_eqb e t) eqn:Q; [apply text_eqb_eq in Q; congruence|reflexivity]).
  rewrite !K by tauto. reflexivity.
Qed.
(** Without frequencies, or without a response, it is nan with numpy before 2 and an AttributeError since. *)
Theorem C151_none fs e n tol amp : normalization_frequency false [] amp e n tol = Ok NaN /\ normalization_frequency true [] amp e n tol = Err AttributeError /\
  ((2 <= length fs)%nat -> normalization_frequency false fs None e n tol = Ok NaN /\ normalization_frequency true fs None e n tol = Err AttributeError).
Proof. split; [reflexivity|]. split; [reflexivity|]. intros L. destruct fs as [|a [|b r]]; cbn [length] in L; [lia|lia|]. split; reflexivity. Qed.
(** For positive frequencies the default estimate is above the geometric mean of the pass band (which channel responses take: C85_middle). *)
Theorem C151_above_middle np2 fs amp n tol : (2 <= length fs)%nat -> increasing fs -> (forall f, In f fs -> 0 < f) -> length amp = length fs ->
  exists lo hi x, pass_band fs (Some amp) n tol = Some [lo; hi] /\ normalization_frequency np2 fs (Some amp) (txt "mean") n tol = Ok (Number x) /\ sqrt (lo * hi) < x.
Proof.
  intros L I P E. destruct (C151_estimate np2 fs amp (txt "mean") n tol L I E) as (i & j & x & B & Q & X & (M & _) & _); [left; reflexivity|]. exists (nth i fs 0), (nth j fs 0), x. split; [exact Q|]. split; [exact X|].
  assert (O : nth i fs 0 < nth j fs 0) by (apply I; lia). assert (A : 0 < nth i fs 0) by (apply P, nth_In; lia). rewrite (M eq_refl). set (a := nth i fs 0) in *. set (b := nth j fs 0) in *.
  rewrite <- (sqrt_square ((a + b) / 2)) by lra. apply sqrt_lt_1_alt. split; [nra|]. nra.
Qed.
(** Not so: that it is one of the frequencies asked about. *)
Theorem C151_member_refuted : ~ (forall np2 fs amp e n tol x, (2 <= length fs)%nat -> increasing fs -> length amp = length fs -> In e estimates ->
  normalization_frequency np2 fs (Some amp) e n tol = Ok (Number x) -> In x fs).
Proof.
  intros A. assert (I : increasing [1; 3]). { intros i j [H1 H2]. cbn [length] in H2. assert (i = 0%nat) by lia. assert (j = 1%nat) by lia. subst. cbn [nth]. lra. }
  destruct (C151_estimate true [1; 3] [2; 2] (txt "mean") 5 0) as (i & j & x & B & P & X & (M & _) & _); [cbn; lia|exact I|reflexivity|left; reflexivity|].
  specialize (A true [1; 3] [2; 2] (txt "mean") 5%nat 0 x). cbn [length] in B. assert (i = 0%nat) by lia. assert (j = 1%nat) by lia. subst. cbn [nth] in M. specialize (M eq_refl).
  assert (Z : In x [1; 3]) by (apply A; [cbn; lia|exact I|reflexivity|left; reflexivity|exact X]). destruct Z as [Z|[Z|[]]]; lra.
Qed.
Example C151_hyp : increasing [1; 3] /\ (forall f, In f [1; 3] -> 0 < f) /\ In (txt "median") estimates /\ ~ In (txt "mode") estimates.
Proof.
  split; [intros i j [H1 H2]; cbn [length] in H2; assert (i = 0%nat) by lia; assert (j = 1%nat) by lia; subst; cbn [nth]; lra|]. split; [intros f [<-|[<-|[]]]; lra|]. split; [right; left; reflexivity|].
  intros N. cbn in N. repeat (destruct N as [N|N]; [discriminate N|]). exact N.
Qed.

Print Assumptions C151_estimate.
Print Assumptions C151_unknown.
Print Assumptions C151_above_middle.
