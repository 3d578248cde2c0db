(** Proofs about reading J and AVG objects into a TF. *)
From Coq Require Import QArith.
From Verif Require Import PyBase PyFacts PyText TextFacts TfModel TfSpec TfProofs TfEffects TfProps TjaModel TjaSpec.
From Coq Require Import Lia.
Local Open Scope nat_scope.
Local Open Scope list_scope.

Section Proofs.
Variables (num : nums) (meta : Type).
Notation entry := (entry num).
Notation periods := (periods num).
Notation consistent := (consistent num).
Notation holds := (holds num).

Lemma set_plain_array a f t : In a [AImp; AImpErr; ATip; ATipErr] -> consistent t -> forall n, length (periods t) = n ->
  exists t', set num a (GArray num [n; length (rows a); 2] f) t = (t', None) /\ like t t' /\ consistent t' /\
    holds t' (part a) (rows a) f /\
    (forall v p o i, v <> part a \/ ~ In o (rows a) \/ ~ In i [Hx; Hy] -> entry t' v p o i = entry t v p o i).
Proof.
  intros Ha C n L. assert (NM : a <> ATfModel) by (intros ->; cbn in Ha; intuition discriminate).
  assert (NC : covariance a = false) by (destruct a; try reflexivity; cbn in Ha; intuition discriminate).
  assert (CO : cols a = [Hx; Hy]) by (destruct a; try reflexivity; cbn in Ha; intuition discriminate).
  assert (F : fits num t a [n; length (rows a); 2]). { unfold fits. now rewrite L, CO. }
  destruct (C89_set num t a _ f C NM F) as (t' & e & E & K & C' & V & W & D & X).
  assert (e = None). { destruct D as [D|D]; [exact D|]. destruct (proj1 X D) as (Y & _). congruence. }
  subst e. exists t'. split; [exact E|]. split; [exact K|]. split; [exact C'|]. split.
  - intros p r c o i R I. rewrite (V p o i r c); [reflexivity|]. unfold place. destruct (var_dec (part a) (part a)); [|contradiction]. rewrite CO.
    assert (PO : at_place chan_dec o (rows a) = Some r).
    { cbn in Ha. destruct Ha as [<-|[<-|[<-|[<-|[]]]]]; cbn in R; destruct r as [|[|r]]; cbn in R; try (injection R as <-; reflexivity); try (destruct r; discriminate R); discriminate R. }
    assert (PI : at_place chan_dec i [Hx; Hy] = Some c).
    { destruct c as [|[|c]]; cbn in I; try (injection I as <-; reflexivity). destruct c; discriminate I. }
    now rewrite PO, PI.
  - intros v p o i H. apply W; [|rewrite NC; intros (_ & Y); discriminate Y]. unfold place. destruct (var_dec v (part a)) as [Y|Y]; [|reflexivity].
    destruct (at_place chan_dec o (rows a)) as [r|] eqn:PO; [|reflexivity]. destruct (at_place chan_dec i (cols a)) as [c|] eqn:PI; [|reflexivity].
    apply at_place_In' in PO. apply at_place_In' in PI. rewrite CO in PI. tauto.
Qed.

Lemma same_length l l' : same_periods l l' = true -> length l = length l'.
Proof. revert l'. induction l as [|a l IH]; intros [|b l']; cbn; try discriminate; [reflexivity|]. intros H. apply andb_true_iff in H. f_equal. apply IH, H. Qed.

(** The periods. *)
Lemma period_new l t : untouched num t -> consistent t ->
  exists t', set_period num l t = (t', None) /\ t_names num t' = t_names num t /\ periods t' = l /\ consistent t' /\ forall v p o i, entry t' v p o i = vzero num.
Proof.
  intros (q & P & E) C. unfold set_period. unfold TfSpec.periods in P. rewrite P. cbn [length Nat.eqb same_periods]. rewrite (proj2 (Qeq_bool_iff q 1) E). cbn [andb].
  eexists; split; [reflexivity|]. split; [reflexivity|]. split; [reflexivity|]. split; [apply again_consistent, C|reflexivity].
Qed.
Lemma not_new t : ~ untouched num t -> (length (periods t) =? 1) && same_periods (periods t) [1%Q] = false.
Proof.
  intros N. destruct (periods t) as [|q [|q' r]] eqn:P; try reflexivity. cbn. destruct (Qeq_bool q 1) eqn:E; [|reflexivity]. exfalso. apply N. exists q. split; [exact P|]. now apply Qeq_bool_iff.
Qed.
Lemma period_used l t : ~ untouched num t -> consistent t ->
  (length l <> length (periods t) -> set_period num l t = (t, Some TFError)) /\
  (length l = length (periods t) -> exists t', set_period num l t = (t', None) /\ t_names num t' = t_names num t /\ same_periods (periods t') l = true /\ consistent t' /\
     forall v p o i, entry t' v p o i = entry t v p o i).
Proof.
  intros N C. unfold set_period. pose proof (not_new t N) as E. unfold TfSpec.periods in *. rewrite E. split; intros L.
  - destruct (Nat.eqb_spec (length l) (length (d_periods num (t_data num t)))); [contradiction|]. reflexivity.
  - rewrite L, Nat.eqb_refl. cbn [negb]. destruct (same_periods (d_periods num (t_data num t)) l) eqn:Sp; cbn [negb].
    + exists t. repeat split; try apply C. exact Sp.
    + eexists; split; [reflexivity|]. split; [reflexivity|]. split; [apply same_periods_refl|]. split; [exact C|reflexivity].
Qed.

Notation step := (step num meta).
Notation whole := (whole num meta).
Notation set_array' := (TjaModel.set_array num meta).

(** The arrays of an impedance, and those of a tipper. *)
Lemma steps_app l1 l2 (w : whole) : steps num meta (l1 ++ l2) w = let '(w1, e) := steps num meta l1 w in match e with Some e => (w1, Some e) | None => steps num meta l2 w1 end.
Proof.
  revert w. induction l1 as [|f l1 IH]; intros w; [reflexivity|]. cbn [app steps]. destruct (f w) as [w1 [e|]]; [reflexivity|]. apply IH.
Qed.
Lemma two_arrays a b n f g t m : (a, b) = (AImp, AImpErr) \/ (a, b) = (ATip, ATipErr) -> consistent t -> length (periods t) = n ->
  exists t', steps num meta [set_array' a [n; length (rows a); 2] f; set_array' b [n; length (rows a); 2] g] (mkWhole num meta t m) = (mkWhole num meta t' m, None) /\
    like t t' /\ consistent t' /\ holds t' VTf (rows a) f /\ holds t' VErr (rows a) g /\
    (forall v p o i, (v <> VTf /\ v <> VErr) \/ ~ In o (rows a) \/ ~ In i [Hx; Hy] -> entry t' v p o i = entry t v p o i).
Proof.
  intros AB C L. assert (A : In a [AImp; AImpErr; ATip; ATipErr] /\ In b [AImp; AImpErr; ATip; ATipErr] /\ part a = VTf /\ part b = VErr /\ rows b = rows a).
  { destruct AB as [AB|AB]; injection AB as -> ->; cbn; intuition. }
  destruct A as (Ia & Ib & Pa & Pb & Rb).
  destruct (set_plain_array a f t Ia C n L) as (t1 & E1 & (K1 & K1') & C1 & H1 & O1).
  assert (L1 : length (periods t1) = n) by (unfold TfSpec.periods in *; congruence).
  destruct (set_plain_array b g t1 Ib C1 n L1) as (t2 & E2 & (K2 & K2') & C2 & H2 & O2).
  exists t2. cbn [steps]. unfold TjaModel.set_array. cbn [w_tf w_meta]. rewrite E1. cbn [w_tf w_meta]. rewrite <- Rb, E2. split; [reflexivity|].
  split; [split; congruence|]. split; [exact C2|]. rewrite Pa in *. rewrite Pb in *. rewrite Rb in *. split; [|split; [exact H2|]].
  - intros p r c o i R I. rewrite O2 by (left; discriminate). exact (H1 p r c o i R I).
  - intros v p o i H. rewrite O2, O1; [reflexivity|intuition|intuition].
Qed.
End Proofs.
