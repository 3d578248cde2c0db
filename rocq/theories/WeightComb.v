From Coq Require Import Reals Lra.
From Verif Require Import PyBase WeightModel WeightSpec WeightProofs.
Open Scope R_scope.

(** ** Reductions of numbers *)
Definition unit_r (r : R) : Prop := 0 <= r <= 1.
Lemma weights_reals : forall l, Forall weight l -> exists rs, l = map XF rs /\ Forall unit_r rs.
Proof.
  induction l as [|x l IH]; intros F; [exists []; split; [reflexivity|constructor]|].
  inversion F as [|? ? (r & -> & U) F']; subst. destruct (IH F') as (rs & -> & U'). exists (r :: rs). split; [reflexivity|constructor; assumption].
Qed.
Lemma fold_xfold : forall f rs r, fold_left (xfold f) (map XF rs) (XF r) = XF (fold_left f rs r).
Proof. intros f rs. induction rs as [|y rs IH]; intros r; [reflexivity|]. cbn [map fold_left xfold]. apply IH. Qed.
Definition redr (c : combination) (r : R) (rs : list R) : R :=
  match c with
  | Multiplication => fold_left Rmult rs r
  | Minimum => fold_left Rmin rs r
  | Maximum => fold_left Rmax rs r
  | Mean => fold_left Rplus rs r / INR (S (List.length rs))
  end.
Lemma reduce_numbers_reals : forall c r rs, reduce_numbers c (XF r) (map XF rs) = XF (redr c r rs).
Proof.
  intros c r rs. unfold reduce_numbers. rewrite map_length.
  destruct c; cbn [combine2 finish]; rewrite fold_xfold; reflexivity.
Qed.
Lemma prod_facts : forall rs r, unit_r r -> Forall unit_r rs ->
  unit_r (fold_left Rmult rs r) /\ forall y, In y (r :: rs) -> fold_left Rmult rs r <= y.
Proof.
  induction rs as [|z rs IH]; intros r U F.
  - cbn [fold_left]. split; [exact U|]. intros y [<-|[]]. lra.
  - inversion F as [|? ? Uz F']; subst. unfold unit_r in U, Uz. cbn [fold_left].
    assert (Up : unit_r (r * z)) by (unfold unit_r; nra). destruct (IH (r * z) Up F') as [A B]. split; [exact A|].
    intros y I. pose proof (B (r * z) (or_introl eq_refl)). destruct I as [<-|[<-|I]]; [nra|nra|]. apply B. right. exact I.
Qed.
Lemma min_facts : forall rs r, In (fold_left Rmin rs r) (r :: rs) /\ forall y, In y (r :: rs) -> fold_left Rmin rs r <= y.
Proof.
  induction rs as [|z rs IH]; intros r.
  - cbn [fold_left]. split; [left; reflexivity|]. intros y [<-|[]]. lra.
  - cbn [fold_left]. destruct (IH (Rmin r z)) as [A B]. split.
    + destruct A as [A|A]; [|right; right; exact A]. rewrite <- A. unfold Rmin. destruct (Rle_dec r z); [left|right; left]; reflexivity.
    + intros y I. pose proof (B (Rmin r z) (or_introl eq_refl)). pose proof (Rmin_l r z). pose proof (Rmin_r r z).
      destruct I as [<-|[<-|I]]; [lra|lra|]. apply B. right. exact I.
Qed.
Lemma max_facts : forall rs r, In (fold_left Rmax rs r) (r :: rs) /\ forall y, In y (r :: rs) -> y <= fold_left Rmax rs r.
Proof.
  induction rs as [|z rs IH]; intros r.
  - cbn [fold_left]. split; [left; reflexivity|]. intros y [<-|[]]. lra.
  - cbn [fold_left]. destruct (IH (Rmax r z)) as [A B]. split.
    + destruct A as [A|A]; [|right; right; exact A]. rewrite <- A. unfold Rmax. destruct (Rle_dec r z); [right; left|left]; reflexivity.
    + intros y I. pose proof (B (Rmax r z) (or_introl eq_refl)). pose proof (Rmax_l r z). pose proof (Rmax_r r z).
      destruct I as [<-|[<-|I]]; [lra|lra|]. apply B. right. exact I.
Qed.
Lemma sum_bounds : forall rs r lo hi, (forall y, In y (r :: rs) -> lo <= y <= hi) ->
  lo * INR (S (List.length rs)) <= fold_left Rplus rs r <= hi * INR (S (List.length rs)).
Proof.
  assert (G : forall rs acc lo hi, (forall y, In y rs -> lo <= y <= hi) ->
     acc + lo * INR (List.length rs) <= fold_left Rplus rs acc <= acc + hi * INR (List.length rs)).
  { induction rs as [|z rs IH]; intros acc lo hi H; [cbn; lra|]. cbn [fold_left List.length]. rewrite S_INR.
    assert (Z := H z (or_introl eq_refl)). specialize (IH (acc + z) lo hi (fun y I => H y (or_intror I))). lra. }
  intros rs r lo hi H. rewrite S_INR. specialize (G rs r lo hi (fun y I => H y (or_intror I))).
  assert (Z := H r (or_introl eq_refl)). lra.
Qed.
Lemma INR_S_pos : forall n, 0 < INR (S n). Proof. intros n. apply lt_0_INR. apply Nat.lt_0_succ. Qed.
Lemma mean_bounds : forall rs r lo hi, (forall y, In y (r :: rs) -> lo <= y <= hi) -> lo <= redr Mean r rs <= hi.
Proof.
  intros rs r lo hi H. cbn [redr]. pose proof (sum_bounds rs r lo hi H). pose proof (INR_S_pos (List.length rs)).
  set (n := INR (S (List.length rs))) in *.
  split; [apply (Rmult_le_reg_r n)|apply (Rmult_le_reg_r n)]; try assumption; unfold Rdiv; rewrite Rmult_assoc, Rinv_l by lra; lra.
Qed.
Lemma redr_unit : forall c r rs, unit_r r -> Forall unit_r rs -> unit_r (redr c r rs).
Proof.
  intros c r rs U F. assert (A : forall y, In y (r :: rs) -> 0 <= y <= 1).
  { intros y [<-|I]; [exact U|]. rewrite Forall_forall in F. exact (F y I). }
  destruct c; cbn [redr].
  - apply prod_facts; assumption.
  - apply A. apply min_facts.
  - apply A. apply max_facts.
  - apply mean_bounds. exact A.
Qed.
Lemma redr_order : forall r rs, unit_r r -> Forall unit_r rs ->
  redr Multiplication r rs <= redr Minimum r rs /\ redr Minimum r rs <= redr Mean r rs /\ redr Mean r rs <= redr Maximum r rs.
Proof.
  intros r rs U F. destruct (prod_facts rs r U F) as [_ P]. destruct (min_facts rs r) as [Mi Ml]. destruct (max_facts rs r) as [Xi Xl].
  split; [apply P; exact Mi|]. cbn [redr]. change (fold_left Rplus rs r / INR (S (List.length rs))) with (redr Mean r rs).
  pose proof (mean_bounds rs r (fold_left Rmin rs r) (fold_left Rmax rs r)) as M.
  apply M. intros y I. split; [apply Ml; exact I|apply Xl; exact I].
Qed.

(** ** Reductions of values *)
Lemma all_some_one : forall xs, all_some the_one (map VOne xs) = Some xs.
Proof. induction xs as [|x xs IH]; [reflexivity|]. cbn [map all_some the_one]. rewrite IH. reflexivity. Qed.
Lemma all_some_many : forall xs, all_some the_many (map VMany xs) = Some xs.
Proof. induction xs as [|x xs IH]; [reflexivity|]. cbn [map all_some the_many]. rewrite IH. reflexivity. Qed.
Lemma forms : forall v ws, Forall (same_form v) ws ->
  (exists x, v = VOne x /\ exists xs, ws = map VOne xs) \/
  (exists l, v = VMany l /\ exists ls, ws = map VMany ls /\ Forall (fun m => List.length l = List.length m) ls).
Proof.
  intros v ws F. destruct v as [x|l].
  - left. exists x. split; [reflexivity|]. induction F as [|w ws S0 F (xs & ->)]; [exists []; reflexivity|].
    inversion S0; subst. exists (y :: xs). reflexivity.
  - right. exists l. split; [reflexivity|]. induction F as [|w ws S0 F (ls & -> & G)]; [exists []; split; [reflexivity|constructor]|].
    inversion S0; subst. exists (m :: ls). split; [reflexivity|constructor; assumption].
Qed.
Definition good_row (n : nat) (l : list xr) : Prop := List.length l = n /\ Forall weight l.
Lemma columns_good : forall n l ls, good_row n l -> Forall (good_row n) ls ->
  Forall (fun col => exists r rs, col = map XF (r :: rs) /\ unit_r r /\ Forall unit_r rs) (columns n (l :: ls)) /\
  List.length (columns n (l :: ls)) = n.
Proof.
  induction n as [|n IH]; intros l ls G F; [split; [constructor|reflexivity]|].
  assert (Hd : forall m, good_row (S n) m -> weight (hd XNan m) /\ good_row n (tl m)).
  { intros [|x m] [L W]; [discriminate L|]. inversion W; subst. cbn [hd tl]. split; [assumption|]. split; [injection L as L; exact L|assumption]. }
  cbn [columns map]. destruct (Hd l G) as [Wl Gl].
  assert (Wls : Forall weight (map (fun l => hd XNan l) ls)).
  { apply Forall_forall. intros x I. apply in_map_iff in I. destruct I as (m & <- & I). rewrite Forall_forall in F. exact (proj1 (Hd m (F m I))). }
  assert (Gls : Forall (good_row n) (map (fun l => tl l) ls)).
  { apply Forall_forall. intros x I. apply in_map_iff in I. destruct I as (m & <- & I). rewrite Forall_forall in F. exact (proj2 (Hd m (F m I))). }
  destruct (IH (tl l) _ Gl Gls) as [A B]. split.
  - constructor; [|exact A]. destruct Wl as (r & E & U). destruct (weights_reals _ Wls) as (rs & E' & U').
    exists r, rs. rewrite E, E'. split; [reflexivity|split; assumption].
  - cbn [List.length]. rewrite B. reflexivity.
Qed.
Lemma reduce_ok : forall c v w ws, Forall (same_form v) (w :: ws) -> Forall all_weights (w :: ws) ->
  exists r, reduce c (w :: ws) = Ok r /\ all_weights r /\ same_form v r.
Proof.
  intros c v w ws F W. destruct (forms v _ F) as [(x & -> & xs & E)|(l & -> & ls & E & L)].
  - destruct xs as [|y xs]; [discriminate E|]. rewrite E in W |- *. unfold reduce. rewrite all_some_one.
    assert (U : Forall weight (y :: xs)).
    { apply Forall_forall. intros a I. rewrite Forall_forall in W. exact (W (VOne a) (in_map VOne _ _ I)). }
    destruct (weights_reals _ U) as (rs & E' & U'). destruct rs as [|r rs]; [discriminate E'|]. cbn [map] in E'.
    injection E' as -> ->. inversion U'; subst. rewrite reduce_numbers_reals. eexists. split; [reflexivity|]. split.
    + cbn [all_weights]. eexists. split; [reflexivity|]. apply redr_unit; assumption.
    + constructor.
  - destruct ls as [|m ls]; [discriminate E|]. rewrite E in W |- *. unfold reduce.
    cbn [map all_some the_one the_many]. rewrite all_some_many.
    inversion L as [|? ? L1 L2]; subst.
    replace (forallb (fun l' => Nat.eqb (List.length l') (List.length m)) ls) with true.
    2: { symmetry. apply forallb_forall. intros a I. apply Nat.eqb_eq. rewrite Forall_forall in L2. rewrite <- (L2 a I). exact L1. }
    eexists. split; [reflexivity|].
    assert (GR : forall a, In a (m :: ls) -> good_row (List.length m) a).
    { intros a I. split.
      - destruct I as [<-|I]; [reflexivity|]. rewrite Forall_forall in L2. rewrite <- (L2 a I). exact L1.
      - rewrite Forall_forall in W. exact (W (VMany a) (in_map VMany _ _ I)). }
    destruct (columns_good (List.length m) m ls) as [A B]; [apply GR; left; reflexivity|apply Forall_forall; intros a I; apply GR; right; exact I|].
    split.
    + cbn [all_weights]. apply Forall_forall. intros a I. apply in_map_iff in I. destruct I as (col & <- & I).
      rewrite Forall_forall in A. destruct (A col I) as (r & rs & -> & U & U'). cbn [map reduce_column]. rewrite reduce_numbers_reals.
      eexists. split; [reflexivity|]. apply redr_unit; assumption.
    + constructor. rewrite map_length, B. exact L1.
Qed.
Lemma reduce_compare : forall c c' v w ws, Forall (same_form v) (w :: ws) -> Forall all_weights (w :: ws) ->
  (forall r rs, unit_r r -> Forall unit_r rs -> redr c r rs <= redr c' r rs) ->
  forall a b, reduce c (w :: ws) = Ok a -> reduce c' (w :: ws) = Ok b -> values_le a b.
Proof.
  intros c c' v w ws F W O a b. destruct (forms v _ F) as [(x & -> & xs & E)|(l & -> & ls & E & L)].
  - destruct xs as [|y xs]; [discriminate E|]. rewrite E in W |- *. unfold reduce. rewrite all_some_one.
    assert (U : Forall weight (y :: xs)).
    { apply Forall_forall. intros z I. rewrite Forall_forall in W. exact (W (VOne z) (in_map VOne _ _ I)). }
    destruct (weights_reals _ U) as (rs & E' & U'). destruct rs as [|r rs]; [discriminate E'|]. cbn [map] in E'.
    injection E' as -> ->. inversion U'; subst. rewrite !reduce_numbers_reals. intros A B. injection A as <-. injection B as <-.
    constructor. constructor. apply O; assumption.
  - destruct ls as [|m ls]; [discriminate E|]. rewrite E in W |- *. unfold reduce.
    cbn [map all_some the_one the_many]. rewrite all_some_many.
    inversion L as [|? ? L1 L2]; subst.
    destruct (forallb (fun l' => Nat.eqb (List.length l') (List.length m)) ls); [|discriminate].
    intros A B. injection A as <-. injection B as <-. constructor.
    assert (GR : forall a, In a (m :: ls) -> good_row (List.length m) a).
    { intros z I. split.
      - destruct I as [<-|I]; [reflexivity|]. rewrite Forall_forall in L2. rewrite <- (L2 z I). exact L1.
      - rewrite Forall_forall in W. exact (W (VMany z) (in_map VMany _ _ I)). }
    destruct (columns_good (List.length m) m ls) as [G _]; [apply GR; left; reflexivity|apply Forall_forall; intros z I; apply GR; right; exact I|].
    induction G as [|col cols (r & rs & -> & U & U') G IH]; [constructor|]. cbn [map reduce_column]. constructor; [|exact IH].
    rewrite !reduce_numbers_reals. constructor. apply O; assumption.
Qed.

(** ** Kernels of a feature *)
Lemma values_map_weights : forall f v, (forall x, value_in x v -> exists y, f x = Ok y /\ weight y) ->
  exists w, values_map f v = Ok w /\ all_weights w /\ same_form v w.
Proof.
  intros f [x|l] H; cbn [value_in] in H.
  - destruct (H x eq_refl) as (y & E & W). exists (VOne y). cbn [values_map]. rewrite E. split; [reflexivity|]. split; [exact W|constructor].
  - cbn [values_map].
    assert (G : exists l', mapR f l = Ok l' /\ Forall weight l' /\ List.length l = List.length l').
    { induction l as [|x l IH]; [exists []; repeat split; constructor|].
      destruct (H x (or_introl eq_refl)) as (y & E & W). destruct (IH (fun z I => H z (or_intror I))) as (l' & E' & W' & L').
      exists (y :: l'). cbn [mapR]. rewrite E. cbn [bindR]. rewrite E'. cbn [bindR]. split; [reflexivity|]. split; [constructor; assumption|]. cbn. f_equal. exact L'. }
    destruct G as (l' & E & W & L). exists (VMany l'). rewrite E. split; [reflexivity|]. split; [exact W|constructor; exact L].
Qed.
Lemma feature_weights : forall ks v, (forall k x, In k ks -> value_in x v -> exists y, kernel_evaluate k x = Ok y /\ weight y) ->
  exists r, feature_evaluate ks v = Ok r /\ all_weights r /\ (ks <> [] -> same_form v r).
Proof.
  intros ks v H. unfold feature_evaluate.
  assert (G : exists ws, mapR (fun k => values_map (kernel_evaluate k) v) ks = Ok ws /\ Forall all_weights ws /\ Forall (same_form v) ws /\ List.length ks = List.length ws).
  { induction ks as [|k ks IH]; [exists []; repeat split; constructor|].
    destruct (values_map_weights (kernel_evaluate k) v (fun x I => H k x (or_introl eq_refl) I)) as (w & E & W & S0).
    destruct (IH (fun k' x I => H k' x (or_intror I))) as (ws & E' & W' & S' & L).
    exists (w :: ws). cbn [mapR]. rewrite E. cbn [bindR]. rewrite E'. cbn [bindR]. split; [reflexivity|].
    split; [constructor; assumption|]. split; [constructor; assumption|]. cbn. f_equal. exact L. }
  destruct G as (ws & E & W & S0 & L). rewrite E. cbn [bindR]. destruct ws as [|w ws].
  - destruct ks; [|discriminate L]. eexists. split; [reflexivity|]. split; [|intros N; contradiction (N eq_refl)].
    cbn [all_weights]. exists 1. split; [reflexivity|lra].
  - destruct (reduce_ok Multiplication v w ws S0 W) as (r & E' & W' & S'). exists r. auto.
Qed.

(** ** Every place of a combination *)
Lemma fold_assoc : forall (f : R -> R -> R) e, (forall x, f x e = x) -> (forall x y z, f (f x y) z = f x (f y z)) ->
  forall rs r, fold_left f rs r = f r (fold_right f e rs).
Proof.
  intros f e E A. induction rs as [|y rs IH]; intros r; cbn [fold_left fold_right]; [rewrite E; reflexivity|]. rewrite IH. apply A.
Qed.
Lemma redr_combined : forall c r rs, combined c (r :: rs) (redr c r rs).
Proof.
  intros [] r rs; cbn [combined redr].
  - rewrite (fold_assoc Rmult 1); [reflexivity|intros; ring|intros; ring].
  - apply min_facts.
  - apply max_facts.
  - rewrite (fold_assoc Rplus 0); [|intros; ring|intros; ring]. cbn [fold_right]. pose proof (INR_S_pos (List.length rs)).
    cbn [List.length]. field. lra.
Qed.
Lemma columns_nth : forall n ls j, (j < n)%nat -> nth_error (columns n ls) j = Some (map (fun l => nth j l XNan) ls).
Proof.
  induction n as [|n IH]; intros ls j H; [inversion H|]. cbn [columns]. destruct j as [|j]; cbn [nth_error].
  - f_equal. apply map_ext. intros [|x l]; reflexivity.
  - rewrite IH by (apply Nat.succ_lt_mono; exact H). f_equal. rewrite map_map. apply map_ext. intros [|x l]; [destruct j; reflexivity|reflexivity].
Qed.
Lemma places_one : forall j ws rs, Forall2 (fun w x => place j w = Some (XF x)) ws rs ->
  forall xs, all_some the_one ws = Some xs -> xs = map XF rs /\ (rs <> [] -> j = O).
Proof.
  intros j ws rs F. induction F as [|w y ws rs P F IH]; intros xs A.
  - injection A as <-. split; [reflexivity|intros N; contradiction (N eq_refl)].
  - cbn [all_some] in A. destruct w as [z|l]; [|discriminate A]. cbn [the_one] in A.
    destruct (all_some the_one ws) as [ys|]; [|discriminate A]. injection A as <-. cbn [place] in P. destruct j; [|discriminate P].
    injection P as ->. destruct (IH ys eq_refl) as [-> _]. split; reflexivity.
Qed.
Lemma places_many : forall j ws rs, Forall2 (fun w x => place j w = Some (XF x)) ws rs ->
  forall ls, all_some the_many ws = Some ls -> Forall2 (fun l x => nth_error l j = Some (XF x)) ls rs.
Proof.
  intros j ws rs F. induction F as [|w y ws rs P F IH]; intros ls A.
  - injection A as <-. constructor.
  - cbn [all_some] in A. destruct w as [z|l]; [discriminate A|]. cbn [the_many] in A.
    destruct (all_some the_many ws) as [ys|]; [|discriminate A]. injection A as <-. constructor; [exact P|apply IH; reflexivity].
Qed.
Lemma places_column : forall j ls rs, Forall2 (fun l x => nth_error l j = Some (XF x)) ls rs ->
  map (fun l => nth j l XNan) ls = map XF rs.
Proof.
  intros j ls rs F. induction F as [|l x ls rs P F IH]; [reflexivity|]. cbn [map]. rewrite IH. f_equal. apply nth_error_nth. exact P.
Qed.
Lemma reduce_places : forall c ws r, reduce c ws = Ok r ->
  forall j rs, rs <> [] -> Forall2 (fun w x => place j w = Some (XF x)) ws rs ->
  exists x, place j r = Some (XF x) /\ combined c rs x.
Proof.
  intros c ws r E j rs NE F. destruct rs as [|q rs]; [contradiction (NE eq_refl)|].
  exists (redr c q rs). split; [|apply redr_combined]. unfold reduce in E.
  assert (M : forall ls, all_some the_many ws = Some ls ->
     match ls with
     | l :: ls' => if forallb (fun l' => Nat.eqb (List.length l') (List.length l)) ls'
                   then Ok (VMany (map (reduce_column c) (columns (List.length l) (l :: ls')))) else Err ValueError
     | [] => Err ValueError end = Ok r -> place j r = Some (XF (redr c q rs))).
  { intros ls A E'. pose proof (places_many j ws _ F ls A) as G. destruct ls as [|l ls]; [discriminate E'|].
    destruct (forallb _ ls); [|discriminate E']. injection E' as <-. cbn [place].
    assert (L : (j < List.length l)%nat) by (inversion G; subst; apply nth_error_Some; congruence).
    rewrite nth_error_map, (columns_nth _ _ _ L). cbn [option_map]. rewrite (places_column _ _ _ G). cbn [map reduce_column].
    rewrite reduce_numbers_reals. reflexivity. }
  destruct (all_some the_one ws) as [[|x xs]|] eqn:A.
  - destruct (places_one j ws _ F _ A) as [X _]. discriminate X.
  - destruct (places_one j ws _ F _ A) as [X J]. cbn [map] in X. injection X as -> ->. injection E as <-.
    rewrite (J ltac:(discriminate)). cbn [place]. rewrite reduce_numbers_reals. reflexivity.
  - destruct (all_some the_many ws) as [ls|] eqn:B; [|discriminate E]. apply (M ls eq_refl). destruct ls; exact E.
Qed.
