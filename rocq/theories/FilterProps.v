(** Theorems about filters and channel responses (C18-C20, C66-C68). *)
From Coq Require Import Reals Lra Permutation Sorted.
From Verif Require Import PyBase PyText TextFacts Cplx FilterModel FilterSpec FilterProofs.
Local Open Scope R_scope.

(** Sample filters used by the examples. *)
Definition ex_gain (n : string) (ui uo : string) (g : R) : flt := mkF n (txt ui) (txt uo) g Coefficient.
Definition ex_delay (n : string) (d : R) : flt := mkF n (txt "volt") (txt "volt") 1 (TimeDelay d).
Definition ex_fir (d : R) : flt := mkF "fir" (txt "volt") (txt "volt") 1 (Fir [1; 2] SymEven d 1 0).

(** ** C18 *)

(** Construction succeeds exactly for lists of filters with an unbroken unit chain. *)
Theorem C18_accepts : forall l ui uo,
  (exists c, construct l ui uo = Ok c) <-> exists fs, l = map IFilter fs /\ unbroken fs.
Proof.
  intros l ui uo. unfold construct. split.
  - intros [c H]. destruct (validate_filters l) as [fs|e] eqn:E; [|discriminate].
    apply validate_filters_iff in E. eauto.
  - intros (fs & H). apply validate_filters_iff in H. rewrite H. cbn [bindR]. eauto.
Qed.
Example C18_accepts_hyp :
  unbroken [ex_gain "a" "volt" "volt" 2; ex_delay "d" 1; ex_gain "b" "volt" "digital counts" 3]
  /\ ~ unbroken [ex_gain "a" "volt" "tesla" 2; ex_delay "d" 1].
Proof.
  split.
  - intros i f g Hf Hg. destruct i as [|[|i]]; cbn in Hf, Hg.
    + injection Hf as <-. injection Hg as <-. reflexivity.
    + injection Hf as <-. injection Hg as <-. reflexivity.
    + destruct i; discriminate.
  - intros H. specialize (H 0%nat _ _ eq_refl eq_refl). discriminate.
Qed.

(** After a successful construction and any history of attribute assignments, accepted or
    rejected, the chain is unbroken and the overall units are those of its two ends. *)
Theorem C18_history : forall l ui uo c ops,
  construct l ui uo = Ok c -> coherent (run_assignments c ops).
Proof.
  intros l ui uo c ops H.
  assert (H0 : coherent c).
  { unfold construct in H. destruct (validate_filters l) as [fs|e] eqn:E; [|discriminate].
    apply validate_filters_iff in E. injection H as <-. apply update_units_coherent. apply E. }
  clear H. revert c H0. induction ops as [|a ops IH]; intros c H0; [exact H0|].
  cbn [run_assignments fold_left]. apply IH. unfold step.
  pose proof H0 as [U _].
  destruct a as [fs'|u|u|q]; cbn [assign].
  - destruct (validate_filters fs') as [gs|e] eqn:E; cbn [bindR]; [|exact H0].
    apply validate_filters_iff in E. apply update_units_coherent. apply E.
  - apply update_units_coherent. exact U.
  - apply update_units_coherent. exact U.
  - apply update_units_coherent. exact U.
Qed.
Example C18_history_hyp :
  exists c, construct [IFilter (ex_gain "a" "volt" "volt" 2)] (txt "x") (txt "y") = Ok c /\
    c_filters (run_assignments c [SetFilters [IFilter (ex_delay "d" 1); IFilter (ex_gain "b" "volt" "digital counts" 3)];
                                  SetFilters [IOther]; SetUnitsIn (txt "tesla")])
    = [ex_delay "d" 1; ex_gain "b" "volt" "digital counts" 3] /\
    c_in (run_assignments c [SetFilters [IFilter (ex_delay "d" 1); IFilter (ex_gain "b" "volt" "digital counts" 3)];
                                  SetFilters [IOther]; SetUnitsIn (txt "tesla")]) = txt "volt".
Proof. eexists. repeat split. Qed.

(** Two limits of the claim.  Clearing the list keeps the units of the removed filters ... *)
Theorem C18_cleared_units_refuted : exists c,
  construct [IFilter (ex_gain "a" "volt" "digital counts" 2)] [] [] = Ok c /\
  step c (SetFilters []) = mkChan [] (txt "volt") (txt "digital counts") [].
Proof. eexists. split; reflexivity. Qed.
(** ... and changing the list in place is not validated. *)
Theorem C18_in_place_refuted : exists c f,
  construct [IFilter (ex_gain "a" "volt" "digital counts" 2)] [] [] = Ok c /\
  ~ unbroken (c_filters (append_in_place c f)).
Proof.
  eexists. exists (ex_delay "d" 1). split; [reflexivity|]. cbn. intros H.
  specialize (H 0%nat _ _ eq_refl eq_refl). discriminate.
Qed.

(** ** C19 *)

(** The response is, at every frequency, the product of the responses of the kept filters. *)
Theorem C19_product : forall fs dec del freqs,
  exists sel, selected (kept dec del) fs sel /\
    complex_response fs None dec del false freqs = map (cascade sel) freqs.
Proof.
  intros fs dec del freqs. exists (filter (keepb dec del) fs). split.
  - apply selected_filter. intros f. apply keepb_iff.
  - rewrite complex_response_cascade, filters_to_remove_filter. reflexivity.
Qed.
(** ... or of the filters given explicitly. *)
Theorem C19_product_given : forall fs l dec del freqs,
  complex_response fs (Some l) dec del false freqs = map (cascade l) freqs.
Proof. intros. apply complex_response_cascade. Qed.
Example C19_product_hyp : 
  selected (kept false false) [ex_gain "a" "volt" "volt" 2; ex_delay "d" 1; ex_fir 4; ex_fir 1]
           [ex_gain "a" "volt" "volt" 2; ex_fir 1].
Proof.
  assert (Hf : forall d, ~ delay_filter (ex_fir d)) by (intros d (x & H); discriminate).
  constructor.
  - split; right; [intros (d & H)|intros (c & s & d & r & g & H & _)]; discriminate.
  - apply sel_skip; [intros [[H|H] _]; [discriminate|apply H; eexists; reflexivity]|].
    apply sel_skip.
    + intros [_ [H|H]]; [discriminate|]. apply H. exists [1; 2], SymEven, 4, 1, 0. split; [reflexivity|Lra.lra].
    + constructor; [|constructor]. split; right; [apply Hf|].
      intros (c & s & d & r & g & H & N). injection H as <- <- <- <- <-. apply N. reflexivity.
Qed.

(** The order of the filters does not matter. *)
Theorem C19_order : forall fs gs dec del freqs,
  Permutation fs gs ->
  complex_response fs None dec del false freqs = complex_response gs None dec del false freqs.
Proof.
  intros fs gs dec del freqs H. rewrite !complex_response_cascade, !filters_to_remove_filter.
  apply map_ext. intros q. apply cascade_perm. now apply filter_perm.
Qed.
Example C19_order_hyp : Permutation [ex_delay "d" 1; ex_fir 1] [ex_fir 1; ex_delay "d" 1].
Proof. apply perm_swap. Qed.

(** Appending a filter multiplies the full response by that filter's response. *)
Theorem C19_append : forall fs f freqs,
  complex_response (fs ++ [f]) None true true false freqs =
  pointwise (complex_response fs None true true false freqs) (map (resp f) freqs).
Proof.
  intros fs f freqs. rewrite !complex_response_cascade, !filters_to_remove_filter.
  unfold pointwise. rewrite combine_map_map, map_map. apply map_ext. intros q. cbn [fst snd].
  assert (E : forall l, filter (keepb true true) l = l).
  { induction l as [|x l IH]; [reflexivity|]. cbn [filter keepb orb andb]. now rewrite IH. }
  rewrite !E, cascade_app. f_equal. unfold cascade; cbn [map product]. apply Cmul_1_r.
Qed.

(** The full response is the response without delays times the response of the delays. *)
Theorem C19_split : forall fs freqs,
  complex_response fs (Some fs) true true false freqs =
  pointwise (complex_response fs (Some (non_delay_filters fs)) true true false freqs)
            (complex_response fs (Some (delay_filters fs)) true true false freqs).
Proof.
  intros fs freqs. rewrite !complex_response_cascade. unfold pointwise.
  rewrite combine_map_map, map_map. apply map_ext. intros q. cbn [fst snd].
  rewrite <- cascade_app. apply cascade_perm. apply filter_split.
Qed.

(** [non_delay_filters] and [delay_filters] are the filters their names say. *)
Theorem C19_delay_lists : forall fs,
  selected (fun f => ~ delay_filter f) fs (non_delay_filters fs) /\
  selected delay_filter fs (delay_filters fs).
Proof.
  intros fs. split; apply selected_filter; intros f; rewrite <- is_delay_iff.
  - rewrite negb_true_iff, not_true_iff_false. tauto.
  - tauto.
Qed.

(** All delays together act as one delay of [total_delay], the sum of the delays, and do not
    change the amplitude. *)
Theorem C19_total_delay : forall fs freqs,
  complex_response fs (Some (delay_filters fs)) true true false freqs
    = map (delay_response (total_delay fs)) freqs
  /\ total_delay fs = sum (map delay_of (delay_filters fs))
  /\ map Cabs (complex_response fs (Some fs) true true false freqs)
     = map Cabs (complex_response fs (Some (non_delay_filters fs)) true true false freqs).
Proof.
  intros fs freqs.
  assert (D : forall q, cascade (delay_filters fs) q = delay_response (total_delay fs) q).
  { intros q. rewrite total_delay_sum. apply cascade_delays. intros f Hf.
    unfold delay_filters in Hf. apply filter_In in Hf. tauto. }
  rewrite !complex_response_cascade. split; [|split].
  - apply map_ext. exact D.
  - apply total_delay_sum.
  - rewrite !map_map. apply map_ext. intros q.
    rewrite (cascade_perm _ _ q (filter_split is_delay fs)), cascade_app.
    fold (delay_filters fs). fold (non_delay_filters fs). rewrite Cabs_mul, D.
    unfold delay_response. rewrite Cabs_cis. ring.
Qed.
Example C19_total_delay_hyp :
  total_delay [ex_delay "d" 1; ex_gain "a" "volt" "volt" 2; ex_delay "e" (-3)] = -2.
Proof. rewrite total_delay_sum. cbn. ring. Qed.

(** [normalize=True]: unless the response vanishes everywhere, no amplitude exceeds 1 and
    some amplitude is 1. *)
Theorem C19_normalised : forall fs dec del freqs,
  (exists c, In c (complex_response fs None dec del false freqs) /\ c <> C0) ->
  (forall c, In c (complex_response fs None dec del true freqs) -> Cabs c <= 1) /\
  exists c, In c (complex_response fs None dec del true freqs) /\ Cabs c = 1.
Proof.
  intros fs dec del freqs (c & Hc & Hn).
  unfold complex_response in *.
  destruct (filters_to_remove fs dec del) as [|f l].
  - split.
    + intros z Hz. apply in_map_iff in Hz. destruct Hz as (q & <- & _). rewrite Cabs_C1. Lra.lra.
    + exists c. split; [exact Hc|]. apply in_map_iff in Hc. destruct Hc as (q & <- & _). apply Cabs_C1.
  - set (res := product_response (f :: l) freqs) in *.
    assert (P : 0 < max_abs res).
    { apply Rlt_le_trans with (Cabs c); [|now apply max_abs_ge].
      destruct (Cabs_nonneg c) as [L|L]; [exact L|]. exfalso. apply Hn. now apply Cabs_0_iff. }
    unfold normalise. split.
    + intros z Hz. apply in_map_iff in Hz. destruct Hz as (w & <- & Hw).
      rewrite Cabs_div_R by exact P. apply Rmult_le_reg_r with (max_abs res); [exact P|].
      unfold Rdiv. rewrite Rmult_assoc, Rinv_l, Rmult_1_r, Rmult_1_l by Lra.lra. now apply max_abs_ge.
    + destruct (max_abs_attained res) as (w & Hw & E).
      { intros E. rewrite E in Hc. destruct Hc. }
      exists (Cdiv w (RtoC (max_abs res))). split.
      * apply in_map_iff. eauto.
      * rewrite Cabs_div_R by exact P. rewrite E. field. Lra.lra.
Qed.
Example C19_normalised_hyp :
  exists c, In c (complex_response [ex_gain "a" "volt" "volt" 2] None false false false [5]) /\ c <> C0.
Proof.
  exists (Cmul (RtoC 2) C1). split; [left; reflexivity|].
  unfold Cmul, RtoC, C1, C0. cbn [fst snd]. intros H. injection H as H _. Lra.lra.
Qed.

(** ** C20 *)
Theorem C20_even : forall c,
  palindrome (symmetry_corrected SymEven c) /\
  length (symmetry_corrected SymEven c) = (2 * length c)%nat /\
  sum (symmetry_corrected SymEven c) = 2 * sum c.
Proof.
  intros c. cbn [symmetry_corrected]. split; [|split].
  - unfold palindrome. rewrite rev_app_distr, rev_involutive. reflexivity.
  - rewrite app_length, rev_length. lia.
  - rewrite <- (rsum_sum (c ++ rev c)), <- (rsum_sum c), rsum_app, rsum_rev. Lra.lra.
Qed.
(** The even expansion has linear phase: the response is a real amplitude times the delay of
    half the filter length. *)
Theorem C20_even_linear_phase : forall c rate f,
  exists a : R, freqz (symmetry_corrected SymEven c) rate f =
    Cmul (RtoC a) (cis (- (2 * PI * f / rate) * (INR (length c) - 1 / 2))).
Proof.
  intros c rate f. unfold freqz. set (t := - (2 * PI * f / rate)). cbn [symmetry_corrected].
  set (P := polyval c (cis t)).
  set (h := cis (t * (INR (length c) - 1 / 2))).
  (* whole = P + z^n * rev = P + z^(2n-1) conj P = z^(n-1/2) (z^-(n-1/2) P + conj of it) *)
  assert (E : polyval (c ++ rev c) (cis t) = Cadd P (Cmul (Cmul h h) (Cconj P))).
  { rewrite polyval_app. fold P. f_equal.
    assert (Z : Cmul (cis (- t)) (cis t) = C1) by (rewrite <- cis_add, Rplus_opp_l; apply cis_0).
    transitivity (Cmul (Cpow (cis t) (length c)) (Cmul (cis (- t)) (Cmul (cis t) (polyval (rev c) (cis t))))).
    { transitivity (Cmul (Cmul (cis (- t)) (cis t)) (Cmul (Cpow (cis t) (length c)) (polyval (rev c) (cis t)))); [rewrite Z; ring|ring]. }
    rewrite polyval_rev. fold P. rewrite Cpow_cis. unfold h.
    transitivity (Cmul (Cmul (cis (INR (length c) * t)) (Cmul (cis (- t)) (cis (INR (length c) * t)))) (Cconj P)); [ring|].
    rewrite <- !cis_add. apply (f_equal (fun z => Cmul z (Cconj P))). apply f_equal. field. }
  rewrite E. set (w := Cmul (Cconj h) P).
  assert (HH : Cmul h (Cconj h) = C1).
  { unfold h. rewrite cis_conj, <- cis_add, Rplus_opp_r. apply cis_0. }
  exists (2 * fst w). fold h.
  transitivity (Cmul h (Cadd w (Cconj w))).
  - unfold w. rewrite Cconj_mul.
    assert (K : Cconj (Cconj h) = h) by (unfold Cconj; cbn [fst snd]; destruct h; cbn; f_equal; ring).
    rewrite K. transitivity (Cadd (Cmul (Cmul h (Cconj h)) P) (Cmul (Cmul h h) (Cconj P))); [rewrite HH; ring|ring].
  - rewrite Cmul_comm. f_equal. unfold Cadd, Cconj, RtoC; cbn [fst snd]. f_equal; ring.
Qed.
Theorem C20_odd_length : forall c, c <> [] ->
  length (symmetry_corrected SymOdd c) = (2 * length c - 1)%nat.
Proof.
  intros c H. cbn [symmetry_corrected]. rewrite app_length, rev_length.
  destruct c as [|x c]; [congruence|]. cbn [tl length]. lia.
Qed.
Example C20_odd_length_hyp : [1; 2; 3] <> [] :> list R. Proof. discriminate. Qed.
(** The odd expansion is symmetric only when all the coefficients are equal: it repeats the
    centre tap and drops the first one, instead of the other way round. *)
Theorem C20_odd_symmetric_exactly : forall c,
  palindrome (symmetry_corrected SymOdd c) <-> (forall x y, In x c -> In y c -> x = y).
Proof. intros c. apply app_tl_rev_const. Qed.
Theorem C20_odd_refuted : exists c, ~ palindrome (symmetry_corrected SymOdd c).
Proof.
  exists [1; 2; 3]. rewrite C20_odd_symmetric_exactly. intros H.
  specialize (H 1 2 (or_introl eq_refl) (or_intror (or_introl eq_refl))). Lra.lra.
Qed.
Theorem C20_none : forall c, symmetry_corrected SymNone c = c.
Proof. reflexivity. Qed.

(** ** C66 *)
(** With reference frequency zero the response at zero frequency is the stated gain. *)
Theorem C66_gain_at_zero : forall f c s d rate,
  f_body f = Fir c s d rate 0 -> f_gain f <> 0 -> sum (symmetry_corrected s c) <> 0 ->
  resp f 0 = RtoC (f_gain f).
Proof.
  intros f c s d rate B G N. unfold resp. rewrite B, freqz_0.
  unfold corrective_scalar, coefficient_gain. destruct (Req_EM_T 0 0) as [_|X]; [|congruence].
  change (rsum (symmetry_corrected s c)) with (sum (symmetry_corrected s c)). destruct (Req_EM_T _ _) as [E|E].
  - rewrite E. apply Cdiv_C1.
  - assert (K : sum (symmetry_corrected s c) / f_gain f <> 0).
    { unfold Rdiv. apply Rmult_integral_contrapositive. split; [exact N|now apply Rinv_neq_0_compat]. }
    unfold Cdiv. rewrite Cinv_RtoC by exact K. rewrite <- RtoC_mul. f_equal. field. auto.
Qed.
Example C66_gain_at_zero_hyp :
  f_body (ex_fir 4) = Fir [1; 2] SymEven 4 1 0 /\ f_gain (ex_fir 4) <> 0 /\ sum (symmetry_corrected SymEven [1; 2]) <> 0
  /\ coefficient_gain [1; 2] SymEven 1 0 <> f_gain (ex_fir 4).
Proof.
  split; [reflexivity|]. split; [cbn; Lra.lra|]. split; [cbn; Lra.lra|].
  unfold coefficient_gain. destruct (Req_EM_T 0 0) as [_|X]; [|congruence]. cbn. Lra.lra.
Qed.
(** At any other reference frequency the amplitude of the response there is the stated gain. *)
Theorem C66_gain_at_reference : forall f c s d rate gf,
  f_body f = Fir c s d rate gf -> gf <> 0 -> f_gain f <> 0 ->
  freqz (symmetry_corrected s c) rate gf <> C0 ->
  Cabs (resp f gf) = Rabs (f_gain f).
Proof.
  intros f c s d rate gf B Hg G N. unfold resp. rewrite B.
  unfold corrective_scalar, coefficient_gain. destruct (Req_EM_T gf 0) as [X|_]; [contradiction|].
  set (h := freqz (symmetry_corrected s c) rate gf) in *.
  destruct (Req_EM_T (Cabs h) (f_gain f)) as [E|E].
  - rewrite Cdiv_C1, <- E. rewrite Rabs_right; [reflexivity|]. apply Rle_ge, Cabs_nonneg.
  - assert (P : Cabs h <> 0) by (intros K; apply N; now apply Cabs_0_iff).
    assert (K : Cabs h / f_gain f <> 0).
    { unfold Rdiv. apply Rmult_integral_contrapositive. split; [exact P|now apply Rinv_neq_0_compat]. }
    unfold Cdiv. rewrite Cinv_RtoC by exact K. rewrite Cabs_mul, Cabs_RtoC.
    replace (/ (Cabs h / f_gain f)) with (f_gain f / Cabs h) by (field; auto).
    unfold Rdiv. rewrite Rabs_mult, Rabs_inv.
    rewrite (Rabs_right (Cabs h)) by (apply Rle_ge, Cabs_nonneg). field. exact P.
Qed.
Example C66_gain_at_reference_hyp :
  (1 / 4) <> 0 /\ freqz (symmetry_corrected SymNone [1]) 1 (1 / 4) <> C0.
Proof.
  split; [Lra.lra|]. cbn [symmetry_corrected freqz polyval]. unfold freqz; cbn [polyval].
  unfold Cadd, Cmul, RtoC, C0; cbn [fst snd]. intros H. injection H as H _. Lra.lra.
Qed.

(** ** C67 *)
(** Going to an obspy stage and back keeps the response, for the filters described below:
    [sym] and [nam] are the unit lookups, [nf] the normalisation frequency passed on. *)
Definition survives (sym : text -> text) (nf : R) (f : flt) : Prop :=
  match f_body f with
  | Coefficient => True
  | TimeDelay _ => f_gain f = 1
  | PoleZero z p k =>
      z <> [] \/ p <> [] \/ k = 1
      \/ contains (txt "counts") (lower (sym (f_units_in f))) = true
      \/ contains (txt "counts") (lower (sym (f_units_out f))) = true
  | Fap t => forall e, In e t -> Rabs (snd (snd e)) <= 6 * PI
  | Fir _ _ _ _ gf => gf = nf
  end.
Lemma combine_split_table (t : list (R * (R * R))) :
  combine (map fst t) (combine (map (fun e => fst (snd e)) t) (map (fun e => snd (snd e)) t)) = t.
Proof.
  induction t as [|[a [b c]] t IH]; [reflexivity|]. cbn [map combine fst snd]. now rewrite IH.
Qed.
Theorem C67_round_trip_partial : forall sym nam nf f,
  survives sym nf f -> same_response f (from_stage nam (to_obspy sym nf f)).
Proof.
  intros sym nam nf f H q. unfold survives in H. unfold from_stage, to_obspy, resp.
  cbn [s_gain s_kind s_gain_frequency s_in s_out f_body f_gain].
  destruct (f_body f) as [|d|z p k|t|c s d rate gf] eqn:B.
  - cbn. unfold delay_only. destruct (Req_EM_T (f_gain f) 1); destruct (Req_EM_T 1 1); destruct (Req_EM_T 0 0);
    cbn [andb negb]; try reflexivity; congruence.
  - cbn. unfold delay_only. rewrite H. destruct (Req_EM_T 1 1) as [_|X]; [|congruence].
    destruct (Req_EM_T 0 0) as [_|X]; [|congruence].
    destruct (Req_EM_T d 0) as [->|X]; cbn [andb negb].
    + rewrite Rmult_0_r, Ropp_0, cis_0. unfold RtoC, C1, Cmul; cbn [fst snd]. f_equal; ring.
    + reflexivity.
  - destruct z as [|z0 z]; [|reflexivity]. destruct p as [|p0 p]; [|reflexivity].
    destruct (contains (txt "counts") (lower (sym (f_units_in f)))); [reflexivity|].
    destruct (contains (txt "counts") (lower (sym (f_units_out f)))); [reflexivity|].
    cbn [negb andb]. destruct H as [H|[H|[H|[H|H]]]]; try congruence.
    subst k. cbn [map cprod fold_right]. rewrite Cdiv_C1, Rmult_1_r. reflexivity.
  - rewrite validate_phases_id; [now rewrite combine_split_table|].
    intros x Hx. apply in_map_iff in Hx. destruct Hx as (e & <- & He). now apply H.
  - now subst gf.
Qed.
Example C67_round_trip_hyp :
  survives (fun u => u) 1 (ex_delay "d" 3) /\ survives (fun u => u) 0 (ex_fir 4)
  /\ survives (fun u => u) 0 (mkF "fap" [] [] 2 (Fap [(1, (2, 3)); (2, (5, -1))])).
Proof.
  split; [reflexivity|]. split; [reflexivity|]. cbn. intros e [<-|[<-|[]]]; cbn [snd fst];
  unfold Rabs; destruct (Rcase_abs _); pose proof PI2_3_2; Lra.lra.
Qed.
(** Inside a channel response, too, a coefficient filter keeps its response whatever its units. *)
Theorem C67_coefficient_in_channel : forall sym nam nf f,
  f_body f = Coefficient -> same_response f (from_stage nam (to_obspy_in_channel sym nf f)).
Proof.
  intros sym nam nf f B. unfold to_obspy_in_channel. rewrite B.
  destruct (text_eqb _ _ || text_eqb _ _).
  - apply C67_round_trip_partial. unfold survives. now rewrite B.
  - set (g := mkF _ _ _ _ _).
    assert (S1 : same_response g (from_stage nam (to_obspy sym nf g))).
    { apply C67_round_trip_partial. unfold survives, g; cbn [f_body]. auto. }
    intros q. rewrite <- (S1 q). unfold g, resp; cbn [f_body f_gain]. rewrite B.
    cbn [map cprod fold_right]. now rewrite Cdiv_C1, Rmult_1_r.
Qed.
(** A delay filter survives exactly when its gain is one: otherwise the delay is lost. *)
Theorem C67_delay_exactly : forall sym nam nf f d,
  f_body f = TimeDelay d ->
  (same_response f (from_stage nam (to_obspy sym nf f)) <-> f_gain f = 1).
Proof.
  intros sym nam nf f d B. split.
  - intros H. specialize (H 0). unfold resp in H at 1. rewrite B in H.
    unfold from_stage, to_obspy, resp in H. cbn [s_gain s_kind f_body f_gain] in H. rewrite B in H.
    unfold delay_only in H. destruct (Req_EM_T (f_gain f) 1) as [E|E]; [exact E|].
    cbn [andb] in H. replace (- (2 * PI * 0 * d)) with 0 in H by ring. rewrite cis_0 in H.
    unfold C1, RtoC, Cmul in H; cbn [fst snd] in H. injection H as H _. Lra.lra.
  - intros E. apply C67_round_trip_partial. unfold survives. now rewrite B.
Qed.
(** A FIR filter is written with the channel's normalisation frequency in place of its own
    reference frequency, which rescales it. *)
Theorem C67_fir_refuted : exists f nf, forall sym nam,
  ~ same_response f (from_stage nam (to_obspy sym nf f)).
Proof.
  exists (mkF "f" [] [] 1 (Fir [1; 1] SymNone 1 1 0)), (1 / 4). intros sym nam H. specialize (H 0).
  unfold from_stage, to_obspy, resp in H. cbn [s_gain s_kind s_gain_frequency f_body f_gain] in H.
  rewrite !freqz_0 in H. cbn [symmetry_corrected sum] in H.
  unfold corrective_scalar, coefficient_gain in H.
  destruct (Req_EM_T 0 0) as [_|X]; [|congruence].
  destruct (Req_EM_T (1 / 4) 0) as [X|_]; [exfalso; Lra.lra|].
  cbn [symmetry_corrected rsum fold_right] in H.
  assert (E : Cabs (freqz [1; 1] 1 (1 / 4)) = sqrt 2).
  { unfold freqz, Cabs. f_equal. replace (- (2 * PI * (1 / 4) / 1)) with (- (PI / 2)) by field.
    unfold cis. rewrite cos_neg, sin_neg, cos_PI2, sin_PI2. unfold Cnorm2, polyval, Cadd, Cmul, RtoC, C0; cbn [fst snd]. ring. }
  rewrite E in H.
  assert (Q : sqrt 2 * sqrt 2 = 2) by (apply sqrt_sqrt; Lra.lra).
  destruct (Req_EM_T (1 + (1 + 0)) 1) as [X|_]; [exfalso; Lra.lra|].
  destruct (Req_EM_T (sqrt 2) 1) as [X|_]; [rewrite X in Q; Lra.lra|].
  assert (Z : sqrt 2 <> 0) by (intros X; rewrite X in Q; Lra.lra).
  unfold Cdiv in H. rewrite !Cinv_RtoC in H; [|Lra.lra|Lra.lra].
  rewrite <- !RtoC_mul in H. unfold RtoC in H. injection H as H.
  assert (K : sqrt 2 = 2).
  { replace (/ ((1 + (1 + 0)) / 1)) with (1 / 2) in H by field.
    replace (/ (sqrt 2 / 1)) with (/ sqrt 2) in H by (field; exact Z).
    assert (J : sqrt 2 * / sqrt 2 = 1) by (apply Rinv_r; exact Z).
    apply Rmult_eq_reg_r with (/ sqrt 2); [|now apply Rinv_neq_0_compat]. Lra.lra. }
  rewrite K in Q. Lra.lra.
Qed.
(** A pole-zero filter without poles and zeros loses its normalisation factor. *)
Theorem C67_empty_pole_zero_refuted : exists f, forall nf,
  ~ same_response f (from_stage (fun u => u) (to_obspy (fun u => u) nf f)).
Proof.
  exists (mkF "f" (txt "volt") (txt "volt") 1 (PoleZero [] [] 3)). intros nf H. specialize (H 0).
  unfold from_stage, to_obspy, resp in H. cbn [s_gain s_kind s_in s_out f_body f_gain f_units_in f_units_out] in H.
  change (contains (txt "counts") (lower (txt "volt"))) with false in H. cbn [negb andb] in H.
  cbn [map cprod fold_right] in H. rewrite Cdiv_C1 in H. unfold Cmul, RtoC, C1 in H; cbn [fst snd] in H.
  injection H as H _. Lra.lra.
Qed.

(** ** C68 *)
(** At a calibration frequency the response is the tabulated amplitude and phase, times the
    gain, whatever the order of the table. *)
Theorem C68_table_points : forall f t q a ph,
  f_body f = Fap t -> NoDup (map fst t) -> (2 <= length t)%nat -> In (q, (a, ph)) t ->
  resp f q = Cmul (RtoC (f_gain f)) (Cmul (RtoC a) (cis ph)).
Proof.
  intros f t q a ph B N L H. unfold resp. rewrite B.
  assert (L' : (2 <= length (sort_x t))%nat)
    by (rewrite <- (Permutation_length (sort_x_perm t)); exact L).
  assert (H' : In (q, (a, ph)) (sort_x t)) by (eapply Permutation_in; [apply sort_x_perm|exact H]).
  rewrite (interp_hit _ q a), (interp_hit _ q ph); try rewrite map_length; try exact L'.
  - reflexivity.
  - apply map_sorted; [reflexivity|]. now apply sort_x_sorted.
  - apply in_map_iff. exists (q, (a, ph)). auto.
  - apply map_sorted; [reflexivity|]. now apply sort_x_sorted.
  - apply in_map_iff. exists (q, (a, ph)). auto.
Qed.
Example C68_table_points_hyp :
  NoDup (map fst [(3, (2, 1)); (1, (4, 0)); (2, (7, 5))]) /\ In (1, (4, 0)) [(3, (2, 1)); (1, (4, 0)); (2, (7, 5))].
Proof.
  split; [|cbn; tauto]. cbn. repeat constructor; cbn; intros H; repeat destruct H as [H|H]; try Lra.lra; contradiction.
Qed.
(** Phases within six pi are taken as radians and kept. *)
Theorem C68_phases_kept : forall v, (forall x, In x v -> Rabs x <= 6 * PI) -> validate_phases v = v.
Proof. apply validate_phases_id. Qed.
(** Beyond that, radian phases (of an unwrapped calibration, say) are rescaled as degrees, and
    validating twice rescales twice. *)
Theorem C68_phases_idempotent_refuted : exists v,
  validate_phases v <> v /\ validate_phases (validate_phases v) <> validate_phases v.
Proof.
  exists [1500]. pose proof PI2_3_2 as P1. pose proof PI_4 as P2.
  assert (A : forall x, 6 * PI < x -> x <= 1000 * PI / 2 -> validate_phases [x] = [x * (PI / 180)]).
  { intros x Hx Hy. unfold validate_phases; cbn [rmax_list fold_right map].
    destruct (Rlt_dec _ _); [Lra.lra|]. rewrite Rabs_right by Lra.lra.
    destruct (Rlt_dec _ _); [reflexivity|Lra.lra]. }
  rewrite (A 1500) by Lra.lra.
  assert (B1 : 6 * PI < 1500 * (PI / 180)) by Lra.lra.
  assert (B2 : 1500 * (PI / 180) <= 1000 * PI / 2) by Lra.lra.
  rewrite (A (1500 * (PI / 180)) B1 B2). split; intros H; injection H as H.
  - assert (1500 * (PI / 180) < 1500) by Lra.lra. Lra.lra.
  - assert (K : 1500 * (PI / 180) * (PI / 180) = 1500 * (PI / 180) * 1) by (rewrite H at 1; ring).
    apply Rmult_eq_reg_l in K; Lra.lra.
Qed.

Print Assumptions C18_accepts.
Print Assumptions C18_history.
Print Assumptions C19_product.
Print Assumptions C19_total_delay.
Print Assumptions C20_even_linear_phase.
Print Assumptions C20_odd_symmetric_exactly.
Print Assumptions C66_gain_at_reference.
Print Assumptions C67_round_trip_partial.
Print Assumptions C67_fir_refuted.
Print Assumptions C68_table_points.
