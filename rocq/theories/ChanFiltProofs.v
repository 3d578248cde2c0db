From Coq Require Import Permutation Sorted.
From Verif Require Import PyBase PyText TextFacts PySort FilterModel FilterSpec FilterProofs ChanFiltModel ChanFiltSpec.

Lemma sorted_in_order l : nondecreasing stage_key l -> in_stage_order l.
Proof.
  unfold nondecreasing. intros H. induction H as [|x l Hs IH Hf]; intros i j f g L Hi Hj.
  - destruct i; discriminate.
  - destruct i as [|i], j as [|j]; cbn [nth_error] in *; try lia.
    + injection Hi as <-. injection Hj as <-. lia.
    + injection Hi as <-. rewrite Forall_forall in Hf. apply Hf. eapply nth_error_In; eassumption.
    + apply (IH i j f g); [lia|assumption|assumption].
Qed.
Lemma sort_filters_order l : in_stage_order (sort_filters l).
Proof. apply sorted_in_order, sort_key_sorted. Qed.

Lemma has_name_iff n l : has_name n l = true <-> In n (map a_name l).
Proof.
  unfold has_name. rewrite existsb_exists, in_map_iff. split.
  - intros (f & H & E). apply text_eqb_eq in E. eauto.
  - intros (f & E & H). exists f. split; [exact H|]. now apply text_eqb_eq.
Qed.
Lemma has_name_false n l : has_name n l = false <-> ~ In n (map a_name l).
Proof. rewrite <- has_name_iff, not_true_iff_false. reflexivity. Qed.

Lemma drop_name_spec n reset k l :
  map a_name (drop_name n reset k l) = map a_name (without n l) /\
  Forall2 same_but_stage (drop_name n reset k l) (without n l) /\
  (reset = true -> map a_stage (drop_name n reset k l) =
     map (fun i => Some (Z.of_nat i)) (seq (S k) (length (without n l)))) /\
  (reset = false -> drop_name n reset k l = without n l).
Proof.
  revert k. induction l as [|f l IH]; intros k; cbn [drop_name without filter].
  - repeat split; constructor.
  - unfold text_eqb. destruct (text_dec (a_name f) n) as [E|E].
    + apply IH.
    + destruct (IH (S k)) as (I1 & I2 & I3 & I4). fold (without n l).
      cbn [map length seq]. destruct reset; cbn [a_name a_stage].
      * split; [now f_equal|]. split; [constructor; [split; reflexivity|exact I2]|].
        split; [|discriminate]. intros _. rewrite I3 by reflexivity. f_equal. f_equal. lia.
      * split; [now f_equal|]. split; [constructor; [split; reflexivity|exact I2]|].
        split; [discriminate|]. intros _. f_equal. now apply I4.
Qed.

Lemma numbered_sorted l k :
  map a_stage l = map (fun i => Some (Z.of_nat i)) (seq k (length l)) -> nondecreasing stage_key l.
Proof.
  unfold nondecreasing. revert k. induction l as [|f l IH]; intros k H; [constructor|].
  cbn [length seq map] in H. injection H as H1 H2. constructor; [eapply IH; exact H2|].
  apply Forall_forall. intros g Hg.
  assert (E : In (a_stage g) (map a_stage l)) by now apply in_map.
  rewrite H2 in E. apply in_map_iff in E. destruct E as (i & E & Hi). apply in_seq in Hi.
  unfold stage_key. rewrite H1, <- E. lia.
Qed.

Lemma remove_reset l n :
  remove_filter l n true = drop_name n true 0 l.
Proof.
  unfold remove_filter, sort_filters. apply sort_key_id.
  destruct (drop_name_spec n true 0 l) as (H1 & H2 & H3 & _). specialize (H3 eq_refl).
  apply numbered_sorted with 1. rewrite H3. do 2 f_equal. symmetry. clear -H2. induction H2; cbn [length]; congruence.
Qed.

Lemma names_sort l : Permutation (map a_name l) (map a_name (sort_filters l)).
Proof. apply Permutation_map, sort_key_perm. Qed.

Lemma slash_id n : ~ In "/"%char n ->
  flat_map (fun c => if Ascii.eqb c "/"%char then txt " per " else [c]) n = n.
Proof.
  intros H. induction n as [|c n IH]; [reflexivity|]. cbn [flat_map].
  destruct (Ascii.eqb_spec c "/"%char) as [->|E]; [exfalso; apply H; now left|].
  cbn [app]. f_equal. apply IH. intros K. apply H. now right.
Qed.
Lemma lower_id n : (forall c, In c n -> is_upper c = false) -> lower n = n.
Proof.
  intros H. unfold lower. induction n as [|c n IH]; [reflexivity|]. cbn [map]. f_equal.
  - unfold to_lower. rewrite H by now left. reflexivity.
  - apply IH. intros d Hd. apply H. now right.
Qed.
Lemma plain_validate n : plain_name n -> validate_name n = Ok n.
Proof.
  intros ((c & Hc & Hs) & H2 & H3). unfold validate_name.
  assert (E : is_blank n = false).
  { unfold is_blank. apply not_true_iff_false. rewrite forallb_forall. intros K. specialize (K c Hc). congruence. }
  rewrite E, slash_id, lower_id by assumption. reflexivity.
Qed.

Lemma step_sorted l o : by_name o -> in_stage_order l -> in_stage_order (step l o).
Proof.
  intros Hb Hl. destruct o as [n a st|n a st|n reset|l']; cbn [step by_name] in *.
  - destruct Hb.
  - unfold add_name. destruct (has_name n l); [exact Hl|].
    destruct (make_applied n a _) as [f|e]; cbn [bindR]; [|exact Hl]. apply sort_filters_order.
  - apply sort_filters_order.
  - apply sort_filters_order.
Qed.

Lemma NoDup_snoc {A} (l : list A) x : NoDup l -> ~ In x l -> NoDup (l ++ [x]).
Proof.
  intros H N. apply (Permutation_NoDup (Permutation_cons_append l x)). now constructor.
Qed.
Lemma without_names n l : forall x, In x (map a_name (without n l)) <-> In x (map a_name l) /\ x <> n.
Proof.
  intros x. rewrite !in_map_iff. unfold without. split.
  - intros (f & <- & H). apply filter_In in H. destruct H as [H1 H2].
    destruct (text_dec (a_name f) n); [discriminate|]. split; [eauto|assumption].
  - intros [(f & <- & H) N]. exists f. split; [reflexivity|]. apply filter_In. split; [exact H|].
    destruct (text_dec (a_name f) n); [contradiction|reflexivity].
Qed.
Lemma without_NoDup n l : NoDup (map a_name l) -> NoDup (map a_name (without n l)).
Proof.
  intros H. unfold without. induction l as [|f l IH]; [constructor|]. cbn [map] in H. inversion H; subst.
  cbn [filter]. destruct (text_dec (a_name f) n); [now apply IH|]. cbn [map]. constructor; [|now apply IH].
  intros K. apply H2. apply without_names in K. tauto.
Qed.
Lemma step_NoDup l o : tidy o -> NoDup (map a_name l) -> NoDup (map a_name (step l o)).
Proof.
  intros Ht Hl. destruct o as [n a st|n a st|n reset|l']; cbn [step tidy] in *.
  - destruct (make_applied n a st) as [f|e]; [|exact Hl]. unfold add_object.
    destruct (has_name (a_name f) l) eqn:E; [exact Hl|]. apply has_name_false in E.
    rewrite map_app. cbn [map a_name]. now apply NoDup_snoc.
  - unfold add_name. destruct (has_name n l) eqn:E; [exact Hl|]. apply has_name_false in E.
    unfold make_applied. rewrite (plain_validate n Ht). cbn [bindR].
    apply (Permutation_NoDup (names_sort _)). rewrite map_app. cbn [map a_name]. now apply NoDup_snoc.
  - unfold remove_filter. apply (Permutation_NoDup (names_sort _)).
    destruct (drop_name_spec n reset 0 l) as (H1 & _). rewrite H1. now apply without_NoDup.
  - apply (Permutation_NoDup (names_sort _)). exact Ht.
Qed.
