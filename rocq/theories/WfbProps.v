(** C144: the weights of a channel for a band. *)
From Coq Require Import Reals Lra Lia.
From Verif Require Import PyBase PyText TextFacts WfbModel WfbSpec.
Local Open Scope list_scope.
Local Open Scope R_scope.

Lemma argmin_from_spec l : forall i best v, (best < i)%nat -> let k := argmin_from i best v l in
  (k = best \/ exists n, k = (i + n)%nat /\ (n < length l)%nat) /\
  exists w, (k = best /\ w = v \/ exists n, k = (i + n)%nat /\ nth_error l n = Some w /\ w < v) /\ w <= v /\ (forall n x, nth_error l n = Some x -> w <= x) /\ (forall n x, (i + n < k)%nat -> nth_error l n = Some x -> w < x).
Proof.
  induction l as [|x l IH]; intros i best v B; cbn [argmin_from]; cbn zeta.
  - split; [left; reflexivity|]. exists v. split; [left; split; reflexivity|]. split; [lra|]. split; intros n y; [|intros _]; destruct n; discriminate.
  - destruct (Rlt_dec x v) as [L|L].
    + destruct (IH (S i) i x ltac:(lia)) as [K (w & W & Wx & Wa & Wb)]. split.
      * right. destruct K as [-> | (n & -> & N)]; [exists 0%nat; cbn; split; lia|exists (S n); cbn; split; lia].
      * exists w. split; [right; destruct W as [[-> ->]|(n & -> & N & Lw)]; [exists 0%nat; split; [lia|split; [reflexivity|exact L]]|exists (S n); split; [lia|split; [exact N|lra]]]|]. split; [lra|]. split.
        -- intros [|n] y Y; [injection Y as <-; exact Wx|exact (Wa n y Y)].
        -- intros [|n] y H Y; [|exact (Wb n y ltac:(lia) Y)]. injection Y as <-. destruct W as [[E _]|(n & E & N & Lw)]; [lia|exact Lw].
    + destruct (IH (S i) best v ltac:(lia)) as [K (w & W & Wx & Wa & Wb)]. split.
      * destruct K as [K|(n & K & N)]; [left; exact K|right; exists (S n); cbn; split; lia].
      * exists w. split; [destruct W as [W|(n & E & N & Lw)]; [left; exact W|right; exists (S n); split; [lia|split; [exact N|exact Lw]]]|]. split; [exact Wx|]. split.
        -- intros [|n] y Y; [injection Y as <-; lra|exact (Wa n y Y)].
        -- intros [|n] y H Y; [|exact (Wb n y ltac:(lia) Y)]. injection Y as <-. destruct W as [[E _]|(n & E & N & Lw)]; [lia|lra].
Qed.
Lemma argmin_nearest freqs c : freqs <> [] -> exists i, argmin (map (fun f => Rabs (f - c)) freqs) = Some i /\ nearest freqs c i.
Proof.
  intros N. destruct freqs as [|x l]; [congruence|]. cbn [map argmin]. eexists. split; [reflexivity|].
  destruct (argmin_from_spec (map (fun f => Rabs (f - c)) l) 1 0 (Rabs (x - c)) ltac:(lia)) as [_ (w & W & Wx & Wa & Wb)]. cbn zeta in *. set (k := argmin_from 1 0 (Rabs (x - c)) (map (fun f => Rabs (f - c)) l)) in *.
  assert (H : exists f, nth_error (x :: l) k = Some f /\ w = Rabs (f - c)).
  { destruct W as [[-> ->]|(n & -> & E & _)]; [exists x; split; reflexivity|]. rewrite nth_error_map in E. destruct (nth_error l n) as [f|] eqn:F; [|discriminate E]. injection E as <-. exists f. split; [exact F|reflexivity]. }
  destruct H as (f & F & ->). exists f. split; [exact F|]. split.
  - intros [|j] g G; [injection G as <-; exact Wx|]. apply (Wa j). rewrite nth_error_map. cbn [nth_error] in G. rewrite G. reflexivity.
  - intros [|j] g J G; [|apply (Wb j); [lia|rewrite nth_error_map; cbn [nth_error] in G; rewrite G; reflexivity]]. injection G as <-. destruct W as [[E _]|(n & _ & _ & L)]; [lia|exact L].
Qed.
Lemma nearest_unique freqs c i j : nearest freqs c i -> nearest freqs c j -> i = j.
Proof.
  intros (f & F & A & B) (g & G & C & D). destruct (Nat.lt_trichotomy i j) as [L|[E|L]]; [|exact E|].
  - pose proof (D i f L F). pose proof (A j g G). lra.
  - pose proof (B j g L G). pose proof (C i f F). lra.
Qed.

(** The centre of a band is as far from one end as from the other, in ratio or in difference. *)
Theorem C144_centre b : 0 < lower_bound b <= upper_bound b ->
  (average b = Geometric -> center b / lower_bound b = upper_bound b / center b) /\ (average b = Arithmetic -> center b - lower_bound b = upper_bound b - center b) /\ lower_bound b <= center b <= upper_bound b.
Proof.
  intros L. unfold center. destruct (average b); (split; [intros E; try discriminate E|split; [intros E; try discriminate E|]]); try lra.
  - assert (P : 0 < sqrt (lower_bound b * upper_bound b)) by (apply sqrt_lt_R0; apply Rmult_lt_0_compat; lra). assert (Q : sqrt (lower_bound b * upper_bound b) * sqrt (lower_bound b * upper_bound b) = lower_bound b * upper_bound b) by (apply sqrt_sqrt; apply Rmult_le_pos; lra).
    set (s := sqrt (lower_bound b * upper_bound b)) in *. apply (Rmult_eq_reg_r (lower_bound b * s)); [|apply Rmult_integral_contrapositive; split; lra]. replace (s / lower_bound b * (lower_bound b * s)) with (s * s) by (field; lra). rewrite Q. field. lra.
  - split; [rewrite <- (sqrt_square (lower_bound b)) at 1 by lra|rewrite <- (sqrt_square (upper_bound b)) at 2 by lra]; apply sqrt_le_1_alt; [apply Rmult_le_compat_l|apply Rmult_le_compat_r]; lra.
Qed.
(** The weights are those of the frequency nearest to the centre of the band, the first of them if there are several, along the first dimension that is one of frequencies. *)
Theorem C144_nearest (part : Type) before d freqs after (isel : text -> nat -> part) b : (forall x, In x before -> ~ of_frequency (fst x)) -> of_frequency d -> freqs <> [] ->
  exists i, weights_for_band (Labelled (before ++ (d, freqs) :: after) isel) b = Ok (isel d i) /\ nearest freqs (center b) i.
Proof.
  intros N D F. cbn [weights_for_band]. assert (E : freq_dim (before ++ (d, freqs) :: after) = Some (d, freqs)).
  { unfold freq_dim. induction before as [|x before IH]; cbn [app List.find].
    - cbn [fst]. assert (C : contains (txt "freq") d = true) by (apply contains_spec; exact D). rewrite C. reflexivity.
    - destruct (contains (txt "freq") (fst x)) eqn:C; [apply contains_spec in C; exfalso; exact (N x (or_introl eq_refl) C)|]. apply IH. intros y Y. apply N. right. exact Y. }
  rewrite E. destruct (argmin_nearest freqs (center b) F) as (i & A & M). rewrite A. exists i. split; [reflexivity|exact M].
Qed.
(** No weights, no dimension of frequencies, or no frequencies: ValueError; another object: TypeError. *)
Theorem C144_errors (part : Type) dims (isel : text -> nat -> part) b : weights_for_band (part:=part) NoWeights b = Err ValueError /\ ((forall x, In x dims -> ~ of_frequency (fst x)) -> weights_for_band (Labelled dims isel) b = Err ValueError)
  /\ (forall before d after, (forall x, In x before -> ~ of_frequency (fst x)) -> of_frequency d -> weights_for_band (Labelled (before ++ (d, []) :: after) isel) b = Err ValueError) /\ weights_for_band (part:=part) (Plain []) b = Err ValueError /\ weights_for_band (part:=part) OtherObject b = Err TypeError.
Proof.
  split; [reflexivity|]. split; [|split; [|split; reflexivity]].
  - intros N. cbn [weights_for_band]. assert (E : freq_dim dims = None). { unfold freq_dim. induction dims as [|x dims IH]; [reflexivity|]. cbn [List.find]. destruct (contains (txt "freq") (fst x)) eqn:C; [apply contains_spec in C; exfalso; exact (N x (or_introl eq_refl) C)|]. apply IH. intros y Y. apply N. right. exact Y. }
    rewrite E. reflexivity.
  - intros before d after N D. cbn [weights_for_band]. assert (E : freq_dim (before ++ (d, []) :: after) = Some (d, [])).
    { unfold freq_dim. induction before as [|x before IH]; cbn [app List.find].
      - cbn [fst]. assert (C : contains (txt "freq") d = true) by (apply contains_spec; exact D). rewrite C. reflexivity.
      - destruct (contains (txt "freq") (fst x)) eqn:C; [apply contains_spec in C; exfalso; exact (N x (or_introl eq_refl) C)|]. apply IH. intros y Y. apply N. right. exact Y. }
    rewrite E. reflexivity.
Qed.
(** On an increasing axis a band with a higher centre has the weights of the same or a later frequency. *)
Theorem C144_monotone freqs c c' i j : increasing freqs -> nearest freqs c i -> nearest freqs c' j -> c <= c' -> (i <= j)%nat.
Proof.
  intros S (f & F & A & B) (g & G & C & D) L. destruct (Nat.le_gt_cases i j) as [H|H]; [exact H|]. exfalso. pose proof (S j i g f H G F) as O. pose proof (B j g H G) as P. pose proof (C i f F) as Q.
  unfold Rabs in P, Q. destruct (Rcase_abs (f - c)), (Rcase_abs (g - c)), (Rcase_abs (g - c')), (Rcase_abs (f - c')); lra.
Qed.
(** With the arithmetic centre, if any frequency of the axis is in the band (its ends included) then so is the one that is taken. *)
Theorem C144_arithmetic freqs b i f : average b = Arithmetic -> nearest freqs (center b) i -> nth_error freqs i = Some f -> (exists g, In g freqs /\ lower_bound b <= g <= upper_bound b) -> lower_bound b <= f <= upper_bound b.
Proof.
  intros A (f' & F & M & _) E (g & I & G). rewrite E in F. injection F as <-. apply In_nth_error in I as (j & J). specialize (M j g J). unfold center in M. rewrite A in M.
  unfold Rabs in M. destruct (Rcase_abs (f - (lower_bound b + upper_bound b) / 2)), (Rcase_abs (g - (lower_bound b + upper_bound b) / 2)); lra.
Qed.
(** With the geometric centre, which is the default, it need not be: the weights are those of a frequency outside of the band although there is one in it. *)
Theorem C144_geometric_refuted : exists b freqs i f, average b = Geometric /\ increasing freqs /\ nearest freqs (center b) i /\ nth_error freqs i = Some f /\ (exists g, In g freqs /\ lower_bound b <= g < upper_bound b) /\ ~ (lower_bound b <= f).
Proof.
  exists (mkBand 1 100 Geometric), [1/2; 50], 0%nat, (1/2). assert (C : center (mkBand 1 100 Geometric) = 10) by (unfold center; cbn; replace (1 * 100) with (10 * 10) by lra; apply sqrt_square; lra).
  split; [reflexivity|]. split; [|split; [|split; [reflexivity|split; [exists 50; cbn; split; [auto|lra]|cbn; lra]]]].
  - intros [|[|i]] [|[|j]] f g L F G; try lia; cbn in F, G; try (destruct i; discriminate F); try (destruct j; discriminate G); injection F as <-; injection G as <-; lra.
  - rewrite C. exists (1/2). split; [reflexivity|]. split; [|intros j g L; lia]. intros [|[|j]] g G; cbn in G; try (destruct j; discriminate G); injection G as <-; unfold Rabs; destruct (Rcase_abs (1/2 - 10)), (Rcase_abs (50 - 10)); lra.
Qed.
(** Weights that are a plain array: the number of the row is taken for a frequency in Hertz, so every band below half a Hertz has the first row. *)
Theorem C144_array_refuted (part : Type) (r : part) rows b : 0 <= center b < 1/2 -> weights_for_band (Plain (r :: rows)) b = Ok r.
Proof.
  intros C. cbn [weights_for_band]. destruct (argmin_nearest (counted (length (r :: rows))) (center b)) as (i & A & M); [discriminate|]. rewrite A.
  assert (Z : nearest (counted (length (r :: rows))) (center b) 0).
  { exists 0. split; [reflexivity|]. split; [|intros j g L; lia]. intros j g G. unfold counted in G. rewrite nth_error_map in G. destruct (nth_error (seq 0 (length (r :: rows))) j) as [k|] eqn:K; [|discriminate G]. injection G as <-.
    destruct k as [|k]; [cbn; lra|]. assert (1 <= INR (S k)) by (rewrite S_INR; pose proof (pos_INR k); lra). unfold Rabs. destruct (Rcase_abs (0 - center b)), (Rcase_abs (INR (S k) - center b)); lra. }
  rewrite (nearest_unique _ _ _ _ M Z). reflexivity.
Qed.
(** In general the row whose number is nearest to the centre. *)
Theorem C144_array (part : Type) (rows : list part) b : rows <> [] -> exists i r, weights_for_band (Plain rows) b = Ok r /\ nth_error rows i = Some r /\ nearest (map INR (seq 0 (length rows))) (center b) i.
Proof.
  intros N. cbn [weights_for_band]. destruct (argmin_nearest (counted (length rows)) (center b)) as (i & A & M); [destruct rows; [congruence|discriminate]|]. rewrite A.
  assert (L : (i < length rows)%nat). { destruct M as (f & F & _). assert (K : (i < length (counted (length rows)))%nat) by (apply nth_error_Some; congruence). unfold counted in K. rewrite map_length, seq_length in K. exact K. }
  destruct (nth_error rows i) as [r|] eqn:R; [|apply nth_error_None in R; lia]. exists i, r. split; [reflexivity|]. split; [exact R|exact M].
Qed.

(** Weights over time and frequency, a band from 1 to 4 Hz. *)
Example C144_hyp : of_frequency (txt "frequency") /\ ~ of_frequency (txt "time") /\ center (mkBand 1 4 Geometric) = 2 /\ nearest [1/2; 1; 9/4; 4] 2 2
  /\ weights_for_band (Labelled [(txt "time", [0; 1]); (txt "frequency", [1/2; 1; 9/4; 4])] (fun _ i => i)) (mkBand 1 4 Geometric) = Ok 2%nat.
Proof.
  assert (T : ~ of_frequency (txt "time")) by (intros H; apply contains_spec in H; discriminate H). assert (D : of_frequency (txt "frequency")) by (exists [], (txt "uency"); reflexivity).
  assert (C : center (mkBand 1 4 Geometric) = 2) by (unfold center; cbn; replace (1 * 4) with (2 * 2) by lra; apply sqrt_square; lra).
  assert (M : nearest [1/2; 1; 9/4; 4] 2 2).
  { exists (9/4). split; [reflexivity|]. split; [intros [|[|[|[|j]]]] g G|intros [|[|j]] g L G; try lia]; cbn in G; try (destruct j; discriminate G); injection G as <-; unfold Rabs; repeat match goal with |- context [Rcase_abs ?x] => destruct (Rcase_abs x) end; lra. }
  split; [exact D|]. split; [exact T|]. split; [exact C|]. split; [exact M|].
  destruct (C144_nearest nat [(txt "time", [0; 1])] (txt "frequency") [1/2; 1; 9/4; 4] [] (fun _ i => i) (mkBand 1 4 Geometric)) as (i & E & H); [intros x [<-|[]]; exact T|exact D|discriminate|].
  rewrite C in H. rewrite (nearest_unique _ _ _ _ H M) in E. exact E.
Qed.

Print Assumptions C144_nearest.
Print Assumptions C144_monotone.
