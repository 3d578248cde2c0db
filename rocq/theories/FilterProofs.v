From Coq Require Import Reals Lra Permutation Sorted.
From Verif Require Import PyBase PyText TextFacts Cplx FilterModel FilterSpec.
Local Open Scope R_scope.

(** ** Selection *)
Lemma is_delay_iff f : is_delay f = true <-> delay_filter f.
Proof.
  unfold is_delay, delay_filter. destruct (f_body f) as [|d| | | ] eqn:E; split; intros H;
  try discriminate; try (destruct H as (x & H); discriminate); eauto.
Qed.
Lemma decimation_active_iff f : decimation_active f = true <-> decimating f.
Proof.
  unfold decimation_active, decimating.
  destruct (f_body f) as [|d| | |c s d rate gf] eqn:E; split; intros H; try discriminate;
  try (destruct H as (? & ? & ? & ? & ? & H & _); discriminate).
  - destruct (Req_EM_T d 1); [discriminate|]. exists c, s, d, rate, gf. auto.
  - destruct H as (? & ? & ? & ? & ? & H & N). injection H as -> -> -> -> ->.
    destruct (Req_EM_T _ _); [contradiction|reflexivity].
Qed.

Definition keepb (dec del : bool) (f : flt) : bool :=
  (del || negb (is_delay f)) && (dec || negb (decimation_active f)).
Lemma keepb_iff dec del f : keepb dec del f = true <-> kept dec del f.
Proof.
  unfold keepb, kept. rewrite andb_true_iff, !orb_true_iff, !negb_true_iff.
  rewrite <- is_delay_iff, <- decimation_active_iff. rewrite !not_true_iff_false. tauto.
Qed.

Lemma flat_map_nth {A} (fs pre : list A) (p : nat -> bool) :
  flat_map (fun i => match nth_error (pre ++ fs) i with Some f => [f] | None => [] end)
    (filter p (seq (length pre) (length fs))) =
  flat_map (fun i => if p (i + length pre)%nat then
                       match nth_error fs i with Some f => [f] | None => [] end else [])
           (seq 0 (length fs)).
Proof.
  assert (H : forall l, (forall i, In i l -> (length pre <= i)%nat) ->
     flat_map (fun i => match nth_error (pre ++ fs) i with Some f => [f] | None => [] end) (filter p l) =
     flat_map (fun i => if p i then match nth_error fs (i - length pre) with Some f => [f] | None => [] end else []) l).
  { induction l as [|i l IH]; intros H; [reflexivity|]. cbn [filter flat_map].
    destruct (p i).
    - cbn [flat_map]. rewrite IH; [|intros j Hj; apply H; right; exact Hj].
      rewrite nth_error_app2; [reflexivity|]. apply H. left; reflexivity.
    - rewrite IH; [reflexivity|]. intros j Hj. apply H. right; exact Hj. }
  rewrite H.
  - clear H. rewrite <- (map_id (seq (length pre) (length fs))).
    replace (seq (length pre) (length fs)) with (map (fun i => i + length pre)%nat (seq 0 (length fs))).
    + rewrite map_id. rewrite !flat_map_concat_map, map_map. f_equal. apply map_ext. intros i.
      replace (i + length pre - length pre)%nat with i by lia. reflexivity.
    + generalize (length fs) as n. generalize (length pre) as k. intros k n.
      assert (G : forall m, map (fun i => i + k)%nat (seq m n) = seq (m + k) n).
      { induction n as [|n IH]; intros m; [reflexivity|]. cbn [seq map]. rewrite IH. reflexivity. }
      apply (G 0%nat).
  - intros i Hi. apply in_seq in Hi. lia.
Qed.

Lemma select_by_index {A} (q : A -> bool) (fs : list A) :
  flat_map (fun i => match nth_error fs i with Some f => [f] | None => [] end)
    (filter (fun i => match nth_error fs i with Some f => q f | None => false end)
            (seq 0 (length fs))) = filter q fs.
Proof.
  assert (G : forall pre, 
    flat_map (fun i => match nth_error (pre ++ fs) i with Some f => [f] | None => [] end)
    (filter (fun i => match nth_error (pre ++ fs) i with Some f => q f | None => false end)
            (seq (length pre) (length fs))) = filter q fs).
  { induction fs as [|f fs IH]; intros pre; [reflexivity|].
    cbn [length seq filter]. rewrite nth_error_app2 by lia. rewrite Nat.sub_diag. cbn [nth_error].
    specialize (IH (pre ++ [f])). rewrite app_length in IH. cbn [length] in IH.
    rewrite Nat.add_1_r in IH. rewrite <- app_assoc in IH. cbn [app] in IH.
    destruct (q f).
    - cbn [flat_map]. rewrite nth_error_app2 by lia. rewrite Nat.sub_diag. cbn [nth_error app].
      f_equal. exact IH.
    - exact IH. }
  apply (G []).
Qed.

Lemma filter_filter {A} (p q : A -> bool) l : filter p (filter q l) = filter (fun x => q x && p x) l.
Proof.
  induction l as [|x l IH]; [reflexivity|]. cbn [filter]. destruct (q x); cbn [andb filter].
  - destruct (p x); now rewrite IH.
  - exact IH.
Qed.

Lemma filters_to_remove_filter fs dec del : filters_to_remove fs dec del = filter (keepb dec del) fs.
Proof.
  unfold filters_to_remove, filter_indices.
  assert (E : forall (b : bool) (g : flt -> bool) l,
     (if b then l else filter (fun i => match nth_error fs i with Some f => g f | None => false end) l)
     = filter (fun i => if b then true else match nth_error fs i with Some f => g f | None => false end) l).
  { intros b g l. destruct b; [|reflexivity].
    symmetry. induction l as [|x l IH]; [reflexivity|]. cbn [filter]. now rewrite IH. }
  rewrite (E dec (fun f => negb (decimation_active f))), (E del (fun f => negb (is_delay f))).
  rewrite filter_filter.
  rewrite <- (select_by_index (keepb dec del) fs).
  f_equal. apply filter_ext_in. intros i Hi. apply in_seq in Hi.
  destruct (nth_error fs i) eqn:En.
  - unfold keepb. destruct del, dec; reflexivity.
  - apply nth_error_None in En. lia.
Qed.

Lemma selected_filter {A} (P : A -> Prop) (p : A -> bool) l :
  (forall x, p x = true <-> P x) -> selected P l (filter p l).
Proof.
  intros H. induction l as [|x l IH]; [constructor|]. cbn [filter]. destruct (p x) eqn:E.
  - constructor; [now apply H|exact IH].
  - constructor; [|exact IH]. intros K. apply H in K. congruence.
Qed.
Lemma selected_unique {A} (P : A -> Prop) l s t : selected P l s -> selected P l t -> s = t.
Proof.
  intros H. revert t. induction H; intros t T; inversion T; subst; try contradiction; try reflexivity.
  - f_equal. auto.
  - auto.
Qed.

(** ** Products *)
Lemma combine_map_map {A B D} (f : A -> B) (g : A -> D) l :
  combine (map f l) (map g l) = map (fun x => (f x, g x)) l.
Proof. induction l as [|x l IH]; [reflexivity|]. cbn [map combine]. now rewrite IH. Qed.

Lemma product_response_cascade sel freqs :
  product_response sel freqs = map (cascade sel) freqs.
Proof.
  destruct sel as [|f r]; [reflexivity|]. unfold product_response.
  assert (G : forall (h : R -> Cx),
    fold_left (fun res g => map (fun p => Cmul (fst p) (snd p)) (combine res (map (resp g) freqs)))
      r (map h freqs) = map (fun q => Cmul (h q) (cascade r q)) freqs).
  { induction r as [|g r IH]; intros h; cbn [fold_left].
    - apply map_ext. intros q. unfold cascade; cbn [map product]. now rewrite Cmul_1_r.
    - rewrite combine_map_map, map_map. cbn [fst snd].
      rewrite (IH (fun q => Cmul (h q) (resp g q))). apply map_ext. intros q.
      unfold cascade. cbn [map product]. ring. }
  rewrite G. apply map_ext. intros q. reflexivity.
Qed.

Lemma complex_response_cascade fs given dec del freqs :
  complex_response fs given dec del false freqs =
  map (cascade (match given with Some l => l | None => filters_to_remove fs dec del end)) freqs.
Proof.
  unfold complex_response.
  destruct (match given with Some l => l | None => filters_to_remove fs dec del end) eqn:E.
  - reflexivity.
  - apply product_response_cascade.
Qed.

Lemma cascade_app a b q : cascade (a ++ b) q = Cmul (cascade a q) (cascade b q).
Proof.
  unfold cascade. rewrite map_app. induction a as [|f a IH]; cbn [map app product].
  - now rewrite Cmul_1_l.
  - rewrite IH. ring.
Qed.
Lemma cascade_perm a b q : Permutation a b -> cascade a q = cascade b q.
Proof.
  intros H. unfold cascade. induction H; cbn [map product]; try congruence. ring.
Qed.
Lemma filter_perm {A} (p : A -> bool) a b : Permutation a b -> Permutation (filter p a) (filter p b).
Proof.
  intros H. induction H; cbn [filter].
  - constructor.
  - destruct (p x); [now constructor|assumption].
  - destruct (p y); destruct (p x); try apply perm_swap; apply Permutation_refl.
  - eapply Permutation_trans; eassumption.
Qed.
Lemma filter_split {A} (p : A -> bool) l :
  Permutation l (filter (fun x => negb (p x)) l ++ filter p l).
Proof.
  induction l as [|x l IH]; [constructor|]. cbn [filter]. destruct (p x); cbn [negb].
  - apply Permutation_cons_app. exact IH.
  - cbn [app]. now constructor.
Qed.

(** ** Delays *)
Lemma cascade_delays l q :
  (forall f, In f l -> is_delay f = true) ->
  cascade l q = delay_response (sum (map delay_of l)) q.
Proof.
  intros H. induction l as [|f l IH].
  - unfold cascade, delay_response; cbn [map product sum]. replace (- (2 * PI * q * 0)) with 0 by ring.
    now rewrite cis_0.
  - unfold cascade in *. cbn [map product sum]. rewrite IH by (intros g Hg; apply H; now right).
    assert (D : is_delay f = true) by (apply H; now left).
    unfold is_delay in D. unfold resp, delay_of at 2. unfold delay_response.
    destruct (f_body f); try discriminate.
    rewrite <- cis_add. f_equal. ring.
Qed.
Lemma total_delay_sum fs : total_delay fs = sum (map delay_of (delay_filters fs)).
Proof.
  unfold total_delay. generalize (delay_filters fs) as l.
  assert (G : forall l a, fold_left (fun acc f => acc + delay_of f) l a = a + sum (map delay_of l)).
  { induction l as [|f l IH]; intros a; cbn [fold_left map sum]; [ring|]. rewrite IH. ring. }
  intros l. rewrite G. ring.
Qed.

(** ** Normalisation *)
Lemma max_abs_ge l c : In c l -> Cabs c <= max_abs l.
Proof.
  induction l as [|x l IH]; intros H; [destruct H|]. cbn [max_abs fold_right]. fold (max_abs l).
  destruct H as [->|H]; [apply Rmax_l|]. eapply Rle_trans; [now apply IH|apply Rmax_r].
Qed.
Lemma max_abs_attained l : l <> [] -> exists c, In c l /\ Cabs c = max_abs l.
Proof.
  induction l as [|x l IH]; intros H; [congruence|]. cbn [max_abs fold_right]. fold (max_abs l).
  destruct l as [|y l].
  - exists x. split; [now left|]. cbn. symmetry. apply Rmax_left. apply Cabs_nonneg.
  - destruct IH as (c & I & E); [discriminate|].
    destruct (Rle_dec (Cabs x) (max_abs (y :: l))) as [L|L].
    + exists c. split; [now right|]. rewrite Rmax_right by exact L. exact E.
    + exists x. split; [now left|]. rewrite Rmax_left by Lra.lra. reflexivity.
Qed.
Lemma Cabs_div_R c x : 0 < x -> Cabs (Cdiv c (RtoC x)) = Cabs c / x.
Proof.
  intros H. unfold Cdiv. rewrite Cinv_RtoC by Lra.lra. rewrite Cabs_mul, Cabs_RtoC.
  rewrite Rabs_right; [reflexivity|]. apply Rle_ge. left. now apply Rinv_0_lt_compat.
Qed.
Lemma Cabs_0_iff c : Cabs c = 0 -> c = C0.
Proof.
  intros H. unfold Cabs in H. apply sqrt_eq_0 in H; [|apply Cnorm2_nonneg].
  destruct c as [a b]. unfold Cnorm2 in H; cbn [fst snd] in H.
  assert (A : a * a = 0) by (pose proof (Rle_0_sqr a); pose proof (Rle_0_sqr b); unfold Rsqr in *; Lra.lra).
  assert (B : b * b = 0) by (pose proof (Rle_0_sqr a); pose proof (Rle_0_sqr b); unfold Rsqr in *; Lra.lra).
  apply Rmult_integral in A, B. unfold C0. f_equal; tauto.
Qed.

(** ** Chains *)
Lemma check_units_iff prev l :
  check_units prev l = Ok tt <->
  (forall f, nth_error l 0 = Some f -> f_units_in f = prev) /\ unbroken l.
Proof.
  revert prev. induction l as [|f l IH]; intros prev; cbn [check_units].
  - split; [|reflexivity]. intros _. split; [discriminate|]. intros i f g H. destruct i; discriminate.
  - destruct (text_eqb (f_units_in f) prev) eqn:E.
    + apply text_eqb_eq in E. rewrite IH. split.
      * intros [H1 H2]. split.
        -- intros g H. injection H as <-. exact E.
        -- intros i g h Hg Hh. destruct i as [|i].
           ++ injection Hg as <-. symmetry. apply H1. exact Hh.
           ++ cbn [nth_error] in Hg, Hh. eapply H2; eassumption.
      * intros [H1 H2]. split.
        -- intros g Hg. symmetry. apply (H2 0%nat f g); [reflexivity|exact Hg].
        -- intros i g h Hg Hh. apply (H2 (S i) g h); assumption.
    + split; [discriminate|]. intros [H1 _].
      specialize (H1 f eq_refl). apply text_eqb_eq in H1. congruence.
Qed.
Lemma check_units_err prev l e : check_units prev l = Err e -> e = ValueError.
Proof.
  revert prev. induction l as [|f l IH]; intros prev; cbn [check_units]; [discriminate|].
  destruct (text_eqb _ _); [apply IH|congruence].
Qed.
Lemma check_consistency_iff fs r :
  check_consistency fs = Ok r <-> r = fs /\ unbroken fs.
Proof.
  destruct fs as [|f [|g l]]; cbn [check_consistency].
  - split; [intros H; injection H as <-; split; [reflexivity|]|intros [-> _]; reflexivity].
    intros i a b H. destruct i; discriminate.
  - split; [intros H; injection H as <-; split; [reflexivity|]|intros [-> _]; reflexivity].
    intros i a b Ha Hb. destruct i as [|[|i]]; discriminate.
  - destruct (check_units (f_units_out f) (g :: l)) as [[]|e] eqn:E; cbn [bindR].
    + apply check_units_iff in E. destruct E as [E1 E2]. split.
      * intros H. injection H as <-. split; [reflexivity|].
        intros i a b Ha Hb. destruct i as [|i].
        -- injection Ha as <-. symmetry. apply E1. exact Hb.
        -- cbn [nth_error] in Ha, Hb. eapply E2; eassumption.
      * intros [-> _]. reflexivity.
    + split; [discriminate|]. intros [_ H].
      assert (K : check_units (f_units_out f) (g :: l) = Ok tt).
      { apply check_units_iff. split.
        - intros a Ha. symmetry. apply (H 0%nat f a); [reflexivity|exact Ha].
        - intros i a b Ha Hb. apply (H (S i) a b); assumption. }
      congruence.
Qed.
Lemma supported_iff l fs : supported l = Ok fs <-> l = map IFilter fs.
Proof.
  revert fs. induction l as [|[f|] l IH]; intros fs; cbn [supported].
  - split; [intros H; injection H as <-; reflexivity|]. destruct fs; [reflexivity|discriminate].
  - destruct (supported l) as [gs|e] eqn:E; cbn [bindR].
    + split.
      * intros H. injection H as <-. cbn [map]. f_equal. now apply IH.
      * destruct fs as [|g fs]; [discriminate|]. cbn [map]. intros H. injection H as <- H.
        apply IH in H. now injection H as ->.
    + split; [discriminate|]. destruct fs as [|g fs]; [discriminate|]. cbn [map].
      intros H. injection H as <- H. apply IH in H. discriminate.
  - split; [discriminate|]. destruct fs; discriminate.
Qed.
Lemma validate_filters_iff l fs :
  validate_filters l = Ok fs <-> l = map IFilter fs /\ unbroken fs.
Proof.
  unfold validate_filters. destruct (supported l) as [gs|e] eqn:E; cbn [bindR].
  - apply supported_iff in E. subst l. rewrite check_consistency_iff. split.
    + intros [-> H]. auto.
    + intros [H1 H2]. split; [|].
      * symmetry. clear H2. revert gs H1. induction fs as [|f fs IH]; intros [|g gs] H; try discriminate; [reflexivity|].
        cbn [map] in H. injection H as -> H. f_equal. now apply IH.
      * assert (fs = gs) as <-; [|exact H2].
        clear H2. revert gs H1. induction fs as [|f fs IH]; intros [|g gs] H; try discriminate; [reflexivity|].
        cbn [map] in H. injection H as -> H. f_equal. now apply IH.
  - split; [discriminate|]. intros [-> _].
    assert (K : supported (map IFilter fs) = Ok fs) by now apply supported_iff. congruence.
Qed.

Lemma last_cons {A} (y x : A) r : last (y :: r) x = last r y.
Proof.
  revert y. induction r as [|z r IH]; intros y; [reflexivity|].
  change (last (y :: z :: r) x) with (last (z :: r) x). rewrite IH.
  destruct r; [reflexivity|]. symmetry. change (last (z :: a :: r) y) with (last (a :: r) y).
  clear IH. revert a. induction r as [|b r IH]; intros a; [reflexivity|].
  change (last (a :: b :: r) y) with (last (b :: r) y). change (last (a :: b :: r) z) with (last (b :: r) z). apply IH.
Qed.
Lemma nth_error_last {A} (x : A) r : nth_error (x :: r) (length (x :: r) - 1) = Some (last r x).
Proof.
  cbn [length]. replace (S (length r) - 1)%nat with (length r) by lia.
  revert x. induction r as [|y r IH]; intros x; [reflexivity|].
  cbn [length]. change (nth_error (x :: y :: r) (S (length r))) with (nth_error (y :: r) (length r)).
  rewrite IH. f_equal. symmetry. apply last_cons.
Qed.
Lemma update_units_coherent c : unbroken (c_filters c) -> coherent (update_units c).
Proof.
  intros H. unfold update_units. destruct (c_filters c) as [|f r] eqn:E.
  - split; [rewrite E; exact H|]. rewrite E. discriminate.
  - split; [exact H|]. cbn [c_filters c_in c_out]. intros a b Ha Hb.
    rewrite nth_error_last in Hb. injection Ha as <-. injection Hb as <-. auto.
Qed.

(** ** FIR *)
Lemma rsum_app a b : rsum (a ++ b) = rsum a + rsum b.
Proof. unfold rsum. induction a as [|x a IH]; cbn [app fold_right]; [ring|]. rewrite IH. ring. Qed.
Lemma rsum_rev a : rsum (rev a) = rsum a.
Proof.
  induction a as [|x a IH]; [reflexivity|]. cbn [rev]. rewrite rsum_app, IH. unfold rsum; cbn [fold_right]. ring.
Qed.
Lemma rsum_sum a : rsum a = sum a.
Proof. induction a as [|x a IH]; [reflexivity|]. cbn [sum]. rewrite <- IH. reflexivity. Qed.
Lemma polyval_C1 b : polyval b C1 = RtoC (sum b).
Proof.
  induction b as [|x b IH]; [reflexivity|]. cbn [polyval sum]. rewrite IH, RtoC_add. ring.
Qed.
Lemma freqz_0 b rate : freqz b rate 0 = RtoC (sum b).
Proof.
  unfold freqz. replace (- (2 * PI * 0 / rate)) with 0 by (unfold Rdiv; ring). rewrite cis_0. apply polyval_C1.
Qed.
Lemma app_tl_rev_const (c : list R) :
  palindrome (c ++ rev (tl c)) <-> (forall x y, In x c -> In y c -> x = y).
Proof.
  destruct c as [|a c]; [cbn; split; [intros _ x y []|reflexivity]|]. cbn [tl].
  unfold palindrome. rewrite rev_app_distr, rev_involutive. cbn [rev app]. split.
  - intros H.
    (* c ++ (rev c ++ [a]) = a :: c ++ rev c : every element equals its predecessor *)
    assert (G : forall (l t : list R) b, l ++ t ++ [a] = b :: l ++ t -> forall x, In x l -> x = b).
    { induction l as [|y l IH]; intros t b E x Hx; [destruct Hx|].
      cbn [app] in E. injection E as -> E. destruct Hx as [->|Hx]; [reflexivity|].
      apply (IH t b); [exact E|exact Hx]. }
    specialize (G c (rev c) a H).
    intros x y [<-|Hx] [<-|Hy]; [reflexivity|symmetry|symmetry|]; try (symmetry; now apply G).
    + now apply G.
    + rewrite (G x Hx). symmetry. now apply G.
  - intros H.
    assert (G : forall l, (forall x, In x l -> x = a) -> l ++ [a] = a :: l).
    { induction l as [|y l IH]; intros K; [reflexivity|]. cbn [app].
      rewrite (K y) by now left. f_equal. apply IH. intros x Hx. apply K. now right. }
    rewrite app_assoc. apply G. intros x Hx. apply H; [|now left].
    rewrite in_app_iff, <- in_rev in Hx. right. tauto.
Qed.

(** Linear phase: reversing the coefficients conjugates the response, up to a pure delay. *)
Fixpoint Cpow (z : Cx) (n : nat) : Cx := match n with O => C1 | S n => Cmul z (Cpow z n) end.
Lemma polyval_app a b z : polyval (a ++ b) z = Cadd (polyval a z) (Cmul (Cpow z (length a)) (polyval b z)).
Proof.
  induction a as [|x a IH]; cbn [app polyval length Cpow]; [ring|]. rewrite IH. ring.
Qed.
Lemma Cpow_comm z n : Cmul z (Cpow z n) = Cmul (Cpow z n) z. Proof. ring. Qed.
Lemma Cpow_cis t n : Cpow (cis t) n = cis (INR n * t).
Proof.
  induction n as [|n IH]; [cbn [Cpow INR]; rewrite Rmult_0_l; now rewrite cis_0|].
  cbn [Cpow]. rewrite IH, <- cis_add. f_equal. rewrite S_INR. ring.
Qed.
Lemma Cconj_add a b : Cconj (Cadd a b) = Cadd (Cconj a) (Cconj b).
Proof. unfold Cconj, Cadd; cbn [fst snd]. f_equal; ring. Qed.
Lemma Cconj_mul a b : Cconj (Cmul a b) = Cmul (Cconj a) (Cconj b).
Proof. unfold Cconj, Cmul; cbn [fst snd]. f_equal; ring. Qed.
Lemma polyval_conj b z : polyval b (Cconj z) = Cconj (polyval b z).
Proof.
  induction b as [|x b IH]; cbn [polyval].
  - unfold Cconj, C0; cbn [fst snd]. f_equal; ring.
  - rewrite IH, Cconj_add, Cconj_mul. f_equal. unfold Cconj, RtoC; cbn [fst snd]. f_equal; ring.
Qed.
Lemma polyval_rev b t :
  Cmul (cis t) (polyval (rev b) (cis t)) = Cmul (Cpow (cis t) (length b)) (Cconj (polyval b (cis t))).
Proof.
  induction b as [|x b IH].
  - cbn [rev polyval length Cpow]. unfold Cconj, C0, Cmul; cbn [fst snd]. f_equal; ring.
  - cbn [rev]. rewrite polyval_app, rev_length. cbn [polyval length Cpow].
    rewrite Cconj_add, Cconj_mul.
    transitivity (Cadd (Cmul (cis t) (polyval (rev b) (cis t)))
                       (Cmul (cis t) (Cmul (Cpow (cis t) (length b)) (RtoC x)))); [ring|].
    rewrite IH.
    assert (E1 : Cconj (RtoC x) = RtoC x) by (unfold Cconj, RtoC; cbn [fst snd]; f_equal; ring).
    rewrite E1.
    assert (E2 : Cmul (cis t) (Cconj (cis t)) = C1).
    { rewrite cis_conj, <- cis_add. rewrite Rplus_opp_r. apply cis_0. }
    transitivity (Cadd (Cmul (Cmul (cis t) (Cconj (cis t))) (Cmul (Cpow (cis t) (length b)) (Cconj (polyval b (cis t)))))
                       (Cmul (cis t) (Cmul (Cpow (cis t) (length b)) (RtoC x)))).
    + rewrite E2. ring.
    + ring.
Qed.

(** ** Table filters *)
Lemma interp_hit l x y :
  Sorted.StronglySorted (fun p q => fst p < fst q) l -> (2 <= length l)%nat -> In (x, y) l -> interp l x = y.
Proof.
  induction l as [|p l IH]; intros Hs Hl Hi; [destruct Hi|].
  destruct l as [|q l]; [cbn [length] in Hl; lia|].
  inversion Hs as [|? ? Hs' Hf]; subst.
  assert (Hpq : fst p < fst q) by (inversion Hf; assumption).
  destruct l as [|r l].
  - cbn [interp]. unfold line. destruct Hi as [->|[->|[]]]; cbn [fst snd] in *; field; Lra.lra.
  - change (interp (p :: q :: r :: l) x) with
      (if Rle_dec x (fst q) then line p q x else interp (q :: r :: l) x).
    destruct Hi as [->|Hi].
    + cbn [fst] in *. destruct (Rle_dec x (fst q)) as [L|L]; [|Lra.lra].
      unfold line; cbn [fst snd]. field. Lra.lra.
    + destruct (Rle_dec x (fst q)) as [L|L].
      * destruct Hi as [->|Hi].
        -- cbn [fst snd] in *. unfold line; cbn [fst snd]. field. Lra.lra.
        -- inversion Hs' as [|? ? _ Hq]; subst. rewrite Forall_forall in Hq. specialize (Hq _ Hi).
           cbn [fst] in Hq. Lra.lra.
      * apply IH; [exact Hs'|cbn [length]; lia|exact Hi].
Qed.
Lemma insert_x_perm {A} (p : R * A) l : Permutation (p :: l) (insert_x p l).
Proof.
  induction l as [|q l IH]; [apply Permutation_refl|]. cbn [insert_x].
  destruct (Rle_dec _ _); [apply Permutation_refl|].
  eapply Permutation_trans; [apply perm_swap|]. now constructor.
Qed.
Lemma sort_x_perm {A} (l : list (R * A)) : Permutation l (sort_x l).
Proof.
  induction l as [|p l IH]; [constructor|]. cbn [sort_x fold_right].
  eapply Permutation_trans; [constructor; exact IH|]. apply insert_x_perm.
Qed.
Lemma insert_x_sorted {A} (p : R * A) l :
  Sorted.StronglySorted (fun p q => fst p < fst q) l -> (forall q, In q l -> fst q <> fst p) ->
  Sorted.StronglySorted (fun p q => fst p < fst q) (insert_x p l).
Proof.
  induction l as [|q l IH]; intros Hs Hn; cbn [insert_x]; [repeat constructor|].
  inversion Hs as [|? ? Hs' Hf]; subst.
  assert (Hq : fst q <> fst p) by (apply Hn; now left).
  destruct (Rle_dec (fst p) (fst q)) as [L|L].
  - assert (fst p < fst q) by Lra.lra. constructor; [exact Hs|]. constructor; [assumption|].
    rewrite Forall_forall in *. intros z Hz. specialize (Hf z Hz). Lra.lra.
  - constructor; [apply IH; [exact Hs'|intros z Hz; apply Hn; now right]|].
    rewrite Forall_forall in *. intros z Hz.
    apply (Permutation_in z (Permutation_sym (insert_x_perm p l))) in Hz.
    destruct Hz as [<-|Hz]; [Lra.lra|now apply Hf].
Qed.
Lemma sort_x_sorted {A} (l : list (R * A)) :
  NoDup (map fst l) -> Sorted.StronglySorted (fun p q => fst p < fst q) (sort_x l).
Proof.
  induction l as [|p l IH]; intros H; [constructor|]. cbn [map] in H. inversion H; subst.
  cbn [sort_x fold_right]. apply insert_x_sorted; [now apply IH|].
  intros q Hq E. apply (Permutation_in q (Permutation_sym (sort_x_perm l))) in Hq.
  apply H2. rewrite <- E. now apply in_map.
Qed.
Lemma map_sorted {A B} (f : R * A -> R * B) l :
  (forall p, fst (f p) = fst p) ->
  Sorted.StronglySorted (fun p q => fst p < fst q) l ->
  Sorted.StronglySorted (fun p q => fst p < fst q) (map f l).
Proof.
  intros Hf H. induction H as [|p l Hs IH Hp]; cbn [map]; constructor; [exact IH|].
  rewrite Forall_forall in *. intros z Hz. apply in_map_iff in Hz. destruct Hz as (q & <- & Hq).
  rewrite !Hf. now apply Hp.
Qed.

(** ** Phases *)
Lemma rmax_list_ge l x : In x l -> x <= rmax_list l.
Proof.
  destruct l as [|y l]; [intros []|]. cbn [rmax_list].
  intros [->|H].
  - induction l as [|z l IH]; cbn [fold_right]; [Lra.lra|]. eapply Rle_trans; [exact IH|apply Rmax_r].
  - induction l as [|z l IH]; [destruct H|]. cbn [fold_right]. destruct H as [->|H]; [apply Rmax_l|].
    eapply Rle_trans; [now apply IH|apply Rmax_r].
Qed.
Lemma rmax_list_le l b : l <> [] -> (forall x, In x l -> x <= b) -> rmax_list l <= b.
Proof.
  destruct l as [|y l]; [congruence|]. intros _ H. cbn [rmax_list].
  induction l as [|z l IH]; cbn [fold_right]; [apply H; now left|].
  apply Rmax_lub; [apply H; right; now left|]. apply IH. intros x [->|Hx]; apply H; [now left|right; now right].
Qed.
Lemma validate_phases_id v : (forall x, In x v -> Rabs x <= 6 * PI) -> validate_phases v = v.
Proof.
  intros H. destruct v as [|a v]; [reflexivity|]. unfold validate_phases.
  pose proof PI_RGT_0 as HP.
  destruct (Rlt_dec _ _) as [L|_].
  - exfalso. assert (K : rmax_list (a :: v) <= 6 * PI).
    { apply rmax_list_le; [discriminate|]. intros x Hx. specialize (H x Hx).
      pose proof (Rle_abs x). Lra.lra. }
    Lra.lra.
  - destruct (Rlt_dec _ _) as [L|_]; [|reflexivity].
    exfalso. assert (K : rmax_list (map Rabs (a :: v)) <= 6 * PI).
    { apply rmax_list_le; [discriminate|]. intros x Hx. apply in_map_iff in Hx. destruct Hx as (z & <- & Hz). now apply H. }
    Lra.lra.
Qed.
