(** Writing an AVG file that was read, and reading a file the other way round. *)
From Coq Require Import Qabs.
From Verif Require Import PyBase PyText PyNum IsoModel PyFloat PySci PyFacts TextFacts PyFloatFacts PySciFacts ValidatorsModel ValidatorsProofs UnitsModel LocationModel EdiProofs Cplx AvgHeadModel AvgHeadSpec AvgHeadProofs AvgHeadValues AvgHeadProps AvgModel AvgSpec AvgText AvgFile AvgFill AvgReal AvgProofs.
From Coq Require Import Lqa.
Local Open Scope nat_scope.

(** ** The same lines *)
Lemma sci_comp d q v : (q == v)%Q -> sci d q = sci d v.
Proof.
  intros E. unfold sci. assert (C : (q ?= 0)%Q = (v ?= 0)%Q) by (rewrite E; reflexivity). rewrite C. destruct (Qcompare_spec v 0) as [Z0|L|G]; [reflexivity| |].
  - assert (A : (Qabs q == Qabs v)%Q) by (rewrite E; reflexivity). assert (P : (0 < Qabs q)%Q) by (rewrite A, (Qabs_neg v) by lra; lra). rewrite (sci_exp_comp _ _ P A).
    assert (M : (Qabs q * Qpower (10 # 1) (Z.of_nat d - sci_exp (Qabs v)) == Qabs v * Qpower (10 # 1) (Z.of_nat d - sci_exp (Qabs v)))%Q) by (rewrite A; reflexivity). rewrite (round_half_even_comp _ _ M). reflexivity.
  - assert (A : (Qabs q == Qabs v)%Q) by (rewrite E; reflexivity). assert (P : (0 < Qabs q)%Q) by (rewrite A, (Qabs_pos v) by lra; lra). rewrite (sci_exp_comp _ _ P A).
    assert (M : (Qabs q * Qpower (10 # 1) (Z.of_nat d - sci_exp (Qabs v)) == Qabs v * Qpower (10 # 1) (Z.of_nat d - sci_exp (Qabs v)))%Q) by (rewrite A; reflexivity). rewrite (round_half_even_comp _ _ M). reflexivity.
Qed.
Lemma fmt_e_again x y : five_digits x y -> fmt_e y = fmt_e x.
Proof. intros H. destruct x as [q|], y as [v|]; cbn in H; try contradiction; [|reflexivity]. unfold fmt_e. do 2 f_equal. rewrite <- (show_sci_again 4 q). unfold show_sci. rewrite (sci_comp 4 _ _ H). reflexivity. Qed.
Lemma fixed_again d q : round_half_even (fixed_value d q * inject_Z (10 ^ Z.of_nat d)) = round_half_even (q * inject_Z (10 ^ Z.of_nat d)).
Proof.
  set (t := inject_Z (10 ^ Z.of_nat d)). assert (P : (0 < t)%Q) by (unfold t; change 0%Q with (inject_Z 0); rewrite <- Zlt_Qlt; apply Z.pow_pos_nonneg; lia). set (n := round_half_even (q * t)).
  assert (E : (fixed_value d q * t == inject_Z n)%Q). { unfold fixed_value. fold t. fold n. field. apply Qpos_neq. exact P. } rewrite (round_half_even_comp _ _ E). apply round_half_even_Z.
Qed.
Lemma fmt_f_again w d x y : decimals d x y -> fmt_f w d y = fmt_f w d x.
Proof.
  intros H. destruct x as [q|], y as [v|]; cbn in H; try contradiction; [|reflexivity]. unfold fmt_f. f_equal. cbn [show_num]. unfold show_fixed. f_equal. rewrite <- (fixed_again d q). apply round_half_even_comp. rewrite H. reflexivity.
Qed.
Lemma py_int_whole v n : (v == inject_Z n)%Q -> py_int v = n.
Proof.
  intros E. unfold py_int. destruct (Qle_bool 0 v) eqn:B; [rewrite E; apply Qfloor_Z|]. unfold Qceiling. rewrite E. change (- inject_Z n)%Q with (inject_Z (- n)). rewrite Qfloor_Z. lia.
Qed.
Lemma int_again x y : whole x y -> to_int y = to_int x.
Proof. intros (q & v & -> & -> & E). cbn [to_int]. f_equal. apply py_int_whole. exact E. Qed.
Lemma row_line_again r r' : rounded r r' -> row_line r' = row_line r.
Proof.
  intros (A1 & A2 & A3 & A4 & A5 & A6 & A7 & A8 & A9 & A10 & A11 & A12). unfold row_line. rewrite (int_again _ _ A1), (int_again _ _ A11), (int_again _ _ A12), (fmt_e_again _ _ A2), (fmt_e_again _ _ A3), (fmt_e_again _ _ A4), (fmt_e_again _ _ A5), (fmt_f_again 6 1 _ _ A6), (fmt_e_again _ _ A7),
    (fmt_f_again 4 1 _ _ A8), (fmt_f_again 6 1 _ _ A9), (fmt_f_again 5 3 _ _ A10). reflexivity.
Qed.
(** ** The same order *)
Fixpoint ordered (l : list row) : Prop := match l with x :: (y :: _) as t => freq_le (r_freq x) (r_freq y) = true /\ ordered t | _ => True end.
Lemma ordered_cons x l : ordered (x :: l) <-> match l with [] => True | y :: _ => freq_le (r_freq x) (r_freq y) = true end /\ ordered l.
Proof. destruct l; cbn; tauto. Qed.
Lemma freq_le_total a b : freq_le a b = false -> freq_le b a = true.
Proof. destruct a as [x|], b as [y|]; cbn; try discriminate; try reflexivity. intros H. apply Qle_bool_iff. destruct (Qlt_le_dec x y) as [L|L]; [|exact L]. exfalso. assert (X : Qle_bool x y = true) by (apply Qle_bool_iff; lra). congruence. Qed.
Lemma insert_ordered r l : ordered l -> ordered (insert_row r l) /\ forall x, freq_le (r_freq x) (r_freq r) = true -> match l with [] => True | y :: _ => freq_le (r_freq x) (r_freq y) = true end -> match insert_row r l with [] => True | y :: _ => freq_le (r_freq x) (r_freq y) = true end.
Proof.
  induction l as [|y l IH]; intros O; [split; [exact I|intros x H _; exact H]|]. apply ordered_cons in O. destruct O as [H O]. cbn [insert_row]. destruct (freq_le (r_freq r) (r_freq y)) eqn:L.
  - split; [apply ordered_cons; split; [exact L|apply ordered_cons; split; assumption]|intros x X _; exact X].
  - destruct (IH O) as [O2 H2]. split; [apply ordered_cons; split; [apply H2; [apply freq_le_total; exact L|exact H]|exact O2]|intros x _ X; exact X].
Qed.
Lemma sort_ordered l : ordered (sort_rows l).
Proof. induction l as [|x l IH]; [exact I|]. cbn [sort_rows fold_right]. apply insert_ordered. exact IH. Qed.
Lemma ordered_sort l : ordered l -> sort_rows l = l.
Proof.
  induction l as [|x l IH]; intros O; [reflexivity|]. apply ordered_cons in O. destruct O as [H O]. cbn [sort_rows fold_right]. fold (sort_rows l). rewrite (IH O). destruct l as [|y l]; [reflexivity|]. cbn [insert_row]. rewrite H. reflexivity.
Qed.
(** ** The same components *)
Definition other_text (c y : text) : bool := negb (text_eqb y c).
Lemma unique_NoDup l : NoDup (unique_texts l).
Proof.
  induction l as [|x l IH]; [constructor|]. cbn [unique_texts]. constructor; [|apply NoDup_filter; exact IH]. intros I. apply filter_In in I. destruct I as [_ I]. apply negb_true_iff in I. assert (E : text_eqb x x = true) by (apply text_eqb_eq; reflexivity). congruence.
Qed.
Lemma filter_twice {A} (g : A -> bool) l : filter g (filter g l) = filter g l.
Proof. induction l as [|x l IH]; [reflexivity|]. cbn [filter]. destruct (g x) eqn:E; [cbn [filter]; rewrite E, IH; reflexivity|exact IH]. Qed.
Lemma unique_repeat c n l : filter (other_text c) (unique_texts (repeat c n ++ l)) = filter (other_text c) (unique_texts l).
Proof.
  induction n as [|n IH]; [reflexivity|]. cbn [repeat app unique_texts filter]. unfold other_text at 1. assert (E : text_eqb c c = true) by (apply text_eqb_eq; reflexivity). rewrite E. cbn [negb].
  change (fun y => negb (text_eqb y c)) with (other_text c). rewrite filter_twice. exact IH.
Qed.
Lemma filter_none c l : ~ In c l -> filter (other_text c) l = l.
Proof.
  induction l as [|x l IH]; intros N; [reflexivity|]. cbn [filter]. unfold other_text at 1. destruct (text_eqb x c) eqn:E; [apply text_eqb_eq in E; exfalso; apply N; left; exact E|]. cbn [negb]. f_equal. apply IH. intros I. apply N. right. exact I.
Qed.
Lemma unique_groups (len : text -> nat) comps : NoDup comps -> (forall c, In c comps -> len c <> 0) -> unique_texts (flat_map (fun c => repeat c (len c)) comps) = comps.
Proof.
  induction 1 as [|c l N D IH]; intros H; [reflexivity|]. cbn [flat_map]. destruct (len c) as [|n] eqn:L; [exfalso; apply (H c (or_introl eq_refl) L)|]. cbn [repeat app unique_texts]. f_equal. change (fun y => negb (text_eqb y c)) with (other_text c).
  rewrite unique_repeat, IH by (intros x I; apply H; right; exact I). apply filter_none. exact N.
Qed.
Lemma comp_repeat rows c : map r_comp (of_comp rows c) = repeat c (length (of_comp rows c)).
Proof.
  assert (G : forall l, (forall r, In r l -> r_comp r = c) -> map r_comp l = repeat c (length l)). { induction l as [|r l IH]; intros H; [reflexivity|]. cbn [map length repeat]. rewrite (H r (or_introl eq_refl)). f_equal. apply IH. intros x I. apply H. right. exact I. }
  apply G. intros r I. apply of_comp_in in I. apply I.
Qed.
Lemma flat_comps rows comps : map r_comp (flat_map (of_comp rows) comps) = flat_map (fun c => repeat c (length (of_comp rows c))) comps.
Proof. induction comps as [|c l IH]; [reflexivity|]. cbn [flat_map]. rewrite map_app, IH, comp_repeat. reflexivity. Qed.
Definition is_comp (c : text) (r : row) : bool := text_eqb (r_comp r) c.
Lemma filter_comp rows c d : filter (is_comp c) (of_comp rows d) = if text_eqb d c then of_comp rows d else [].
Proof.
  assert (G : forall l, (forall r, In r l -> r_comp r = d) -> filter (is_comp c) l = if text_eqb d c then l else []).
  { induction l as [|r l IH]; intros H; [destruct (text_eqb d c); reflexivity|]. cbn [filter]. unfold is_comp at 1. rewrite (H r (or_introl eq_refl)), IH by (intros x I; apply H; right; exact I). destruct (text_eqb d c); reflexivity. }
  apply G. intros r I. apply of_comp_in in I. apply I.
Qed.
Lemma filter_flat rows c comps : NoDup comps -> In c comps -> filter (is_comp c) (flat_map (of_comp rows) comps) = of_comp rows c.
Proof.
  assert (Z : forall l, ~ In c l -> filter (is_comp c) (flat_map (of_comp rows) l) = []).
  { induction l as [|d l IH]; intros N; [reflexivity|]. cbn [flat_map]. rewrite filter_app, filter_comp, IH by (intros I; apply N; right; exact I). destruct (text_eqb d c) eqn:E; [apply text_eqb_eq in E; exfalso; apply N; left; exact E|reflexivity]. }
  induction 1 as [|d l N D IH]; intros I; [destruct I|]. cbn [flat_map]. rewrite filter_app, filter_comp. destruct (text_eqb d c) eqn:E.
  - apply text_eqb_eq in E. subst d. rewrite (Z l N), app_nil_r. reflexivity.
  - destruct I as [->|I]; [assert (X : text_eqb c c = true) by (apply text_eqb_eq; reflexivity); congruence|]. cbn [app]. apply IH. exact I.
Qed.
Lemma filter_read c l l' : Forall2 read_from l l' -> Forall2 read_from (filter (is_comp c) l) (filter (is_comp c) l').
Proof.
  induction 1 as [|r r' l l' H F IH]; [constructor|]. cbn [filter]. assert (E : is_comp c r' = is_comp c r) by (unfold is_comp; rewrite (proj1 H); reflexivity). rewrite E. destruct (is_comp c r); [constructor; assumption|exact IH].
Qed.
Lemma read_comps l l' : Forall2 read_from l l' -> map r_comp l' = map r_comp l.
Proof. induction 1 as [|r r' l l' H F IH]; [reflexivity|]. cbn [map]. rewrite IH, (proj1 H). reflexivity. Qed.
Lemma read_lines_same l l' : Forall2 read_from l l' -> map_result row_line l' = map_result row_line l.
Proof. induction 1 as [|r r' l l' H F IH]; [reflexivity|]. cbn [map_result]. rewrite (row_line_again r r' (proj2 H)), IH. reflexivity. Qed.
(** Rows of one component that are read keep their order. *)
Lemma ordered_read (K : row -> row -> Prop) : (forall a b a' b', K a b -> read_from a a' -> read_from b b' -> freq_le (r_freq a) (r_freq b) = true -> freq_le (r_freq a') (r_freq b') = true) ->
  forall l l', Forall2 read_from l l' -> (forall a b, In a l -> In b l -> K a b) -> ordered l -> ordered l'.
Proof.
  intros M l l' F. induction F as [|a a' l l' H F IH]; intros KK O; [exact I|]. apply ordered_cons in O. destruct O as [L O]. apply ordered_cons. split; [|apply IH; [intros x y X Y; apply KK; right; assumption|exact O]].
  destruct F as [|b b' l l' H2 F]; [exact I|]. apply (M a b a' b'); [apply KK; [left|right; left]; reflexivity|exact H|exact H2|exact L].
Qed.
Section Again.
Variable amp phase : Q -> Q -> Q.
Variable o : avg.
Variable freqs : list Q.
Hypothesis KW : known_way (a_positive o).
Hypothesis POS : forall f, In f freqs -> (0 < f)%Q.
Hypothesis AP : all_apart freqs.
Let rows := rows_of amp phase o freqs.
Let comps := unique_texts (map r_comp rows).
Definition from_freqs (a b : row) : Prop := exists p q f g, nth_error freqs p = Some f /\ nth_error freqs q = Some g /\ r_freq a = Fin f /\ r_freq b = Fin g.
Lemma keeps_order a b a' b' : from_freqs a b -> read_from a a' -> read_from b b' -> freq_le (r_freq a) (r_freq b) = true -> freq_le (r_freq a') (r_freq b') = true.
Proof.
  intros (p & q & f & g & NP & NQ & FA & FB) HA HB L. destruct (freq_back a a' f HA FA) as (u & U & EU). destruct (freq_back b b' g HB FB) as (v & V & EV). rewrite U, V. rewrite FA, FB in L. cbn [freq_le] in *. apply Qle_bool_iff in L. apply Qle_bool_iff.
  destruct (Nat.eq_dec p q) as [E|E]; [subst q; rewrite NP in NQ; injection NQ as <-; rewrite EU, EV; apply Qle_refl|].
  pose proof (five_near f u (POS f (nth_error_In _ _ NP)) EU) as A. pose proof (five_near g v (POS g (nth_error_In _ _ NQ)) EV) as B. apply Qabs_Qle_condition in A, B. pose proof (POS f (nth_error_In _ _ NP)). pose proof (POS g (nth_error_In _ _ NQ)). destruct (AP p q f g NP NQ E) as [D|D]; lra.
Qed.
Lemma again_section rows' c : Forall2 read_from (flat_map (of_comp rows) comps) rows' -> In c comps -> section rows' c = section rows c.
Proof.
  intros F I. pose proof (filter_read c _ _ F) as FC. rewrite (filter_flat rows c comps (unique_NoDup _) I) in FC.
  assert (O : ordered (filter (is_comp c) rows')).
  { apply (ordered_read from_freqs keeps_order _ _ FC); [|apply sort_ordered]. intros a b IA IB. apply of_comp_in in IA, IB. destruct (row_facts amp phase o freqs KW a (proj1 IA)) as (c1 & i1 & j1 & p & f & RA & _ & FA & _). destruct (row_facts amp phase o freqs KW b (proj1 IB)) as (c2 & i2 & j2 & q & g & RB & _ & FB & _).
    exists p, q, f, g. split; [apply RA|]. split; [apply RB|]. split; assumption. }
  unfold section. change (fun r => text_eqb (r_comp r) c) with (is_comp c). pose proof (read_lines_same _ _ FC) as ML. unfold of_comp in FC, ML. change (fun r => text_eqb (r_comp r) c) with (is_comp c) in FC, ML. pose proof (ordered_sort _ O) as SO.
  destruct (filter (is_comp c) rows') as [|r' l'].
  - inversion FC as [E|]. destruct (filter (is_comp c) rows) as [|r l] eqn:FR; [reflexivity|]. exfalso. assert (X : In r (sort_rows (r :: l))) by (apply (proj2 (sort_in _ _)); left; reflexivity). rewrite <- E in X. exact X.
  - destruct (filter (is_comp c) rows) as [|r l]; [cbn in FC; inversion FC|]. rewrite SO, ML. reflexivity.
Qed.
Lemma again_comps rows' : Forall2 read_from (flat_map (of_comp rows) comps) rows' -> unique_texts (map r_comp rows') = comps.
Proof.
  intros F. rewrite (read_comps _ _ F), flat_comps. apply unique_groups; [apply unique_NoDup|]. intros c I E. pose proof (proj1 (Forall_forall _ _) (comps_have amp phase o freqs) c I) as N. apply N. apply length_zero_iff_nil. exact E.
Qed.
Lemma again_sections rows' : Forall2 read_from (flat_map (of_comp rows) comps) rows' -> map_result (section rows') comps = map_result (section rows) comps.
Proof.
  intros F. assert (G : forall l, (forall c, In c l -> In c comps) -> map_result (section rows') l = map_result (section rows) l).
  { induction l as [|c l IH]; intros H; [reflexivity|]. cbn [map_result]. rewrite (again_section rows' c F (H c (or_introl eq_refl))), IH by (intros x I; apply H; right; exact I). reflexivity. }
  apply G. auto.
Qed.
End Again.
(** ** The other way round *)
Section Swap.
Variable si sj : bool -> bool.
Variable h : option Cx -> option Cx.
Hypothesis SI : forall a b, si a = si b -> a = b.
Hypothesis SJ : forall a b, sj a = sj b -> a = b.
Definition swapped {A} (g : A -> A) (z z2 : array A) : Prop := forall k i j, z2 k (si i) (sj j) = g (z k i j).
Lemma put_swapped {A} (g : A -> A) k i j v z z2 : swapped g z z2 -> swapped g (put k i j v z) (put k (si i) (sj j) (g v) z2).
Proof.
  intros H k' i' j'. unfold put. destruct (Nat.eqb_spec k k') as [->|]; [|apply H]. destruct (eqb_spec i i') as [->|N].
  - rewrite eqb_reflx. destruct (eqb_spec j j') as [->|N]; [rewrite eqb_reflx; reflexivity|]. destruct (eqb_spec (sj j) (sj j')) as [E|_]; [apply SJ in E; contradiction|apply H].
  - destruct (eqb_spec (si i) (si i')) as [E|_]; [apply SI in E; contradiction|apply H].
Qed.
Lemma fill_swapped value error idx idx2 freqs : forall rows z e z2 e2 z' e', (forall r, In r rows -> place idx2 (r_comp r) = option_map (fun ij => (si (fst ij), sj (snd ij))) (place idx (r_comp r))) -> swapped h z z2 -> swapped (fun x => x) e e2 ->
  fill value error idx freqs rows z e = Ok (z', e') -> exists z2' e2', fill (fun r => h (value r)) error idx2 freqs rows z2 e2 = Ok (z2', e2') /\ swapped h z' z2' /\ swapped (fun x => x) e' e2'.
Proof.
  induction rows as [|r rows IH]; intros z e z2 e2 z' e' P SZ SE F; cbn [fill] in *.
  - apply Ok_inj in F. injection F as <- <-. exists z2, e2. repeat split; assumption.
  - rewrite (P r (or_introl eq_refl)). destruct (place idx (r_comp r)) as [[i j]|]; [|discriminate F]. cbn [option_map fst snd]. destruct (r_freq r) as [f|]; [|discriminate F]. destruct (freq_index f freqs) as [k|]; [|discriminate F].
    apply (IH (put k i j (value r) z) (put k i j (error r) e)); [intros x I; apply P; right; exact I|apply put_swapped; exact SZ|apply (put_swapped (fun x => x)); exact SE|exact F].
Qed.
End Swap.
Lemma place_swap_z c : starts "z" c = true -> place index_up c = option_map (fun ij => (negb (fst ij), negb (snd ij))) (place index_down c).
Proof.
  intros S. unfold place, index_up, index_down. cbn [List.find fst].
  repeat match goal with |- context [if text_eqb c ?k then _ else _] => let E := fresh "E" in destruct (text_eqb c k) eqn:E; [first [reflexivity|apply text_eqb_eq in E; subst c; discriminate S]|] end. reflexivity.
Qed.
Lemma place_swap_t c : starts "t" c = true -> place index_up c = option_map (fun ij => (fst ij, negb (snd ij))) (place index_down c).
Proof.
  intros S. unfold place, index_up, index_down. cbn [List.find fst].
  repeat match goal with |- context [if text_eqb c ?k then _ else _] => let E := fresh "E" in destruct (text_eqb c k) eqn:E; [first [reflexivity|apply text_eqb_eq in E; subst c; discriminate S]|] end. reflexivity.
Qed.
