(** Lemmas for C53: periods and values. *)
From Coq Require Import Permutation Sorted.
From Verif Require Import PyBase PyFacts PyText TextFacts PyNum IsoModel IsoProofs PyFloat PyFloatFacts PySci PySciFacts PyRepr PyReprFacts EdiProofs ProcProofs JfileModel JfileSpec JfileProofs.
Local Open Scope list_scope.

(** ** Numbers and their texts *)
Definition good (x : xnum) : Prop := match x with XFin q => decimal q | XInf _ => True | XNan => False end.
Lemma same_refl x : same x x.
Proof. destruct x; [apply Qeq_refl|reflexivity|reflexivity]. Qed.
Lemma same_sym x y : same x y -> same y x.
Proof. destruct x, y; cbn; intros E; first [congruence|symmetry; exact E]. Qed.
Lemma same_trans x y z : same x y -> same y z -> same x z.
Proof. destruct x, y, z; cbn; intros A B; first [congruence|rewrite A; exact B]. Qed.
Lemma word_value_good w : good (word_value w).
Proof.
  unfold word_value, read_x. assert (D0 : decimal 0) by (exists 0%Z, 0%Z; reflexivity). destruct (read_float w) as [[q|]|] eqn:E.
  - cbn [masked]. destruct (Qeq_bool q (-999 # 1)); [exact D0|exact (read_float_decimal _ _ E)].
  - destruct (contains (txt "nan") (lower w)); cbn [masked]; [exact D0|exact I].
  - exact D0.
Qed.
Lemma clean_word_value w : clean_word w = show_x (word_value w).
Proof. unfold clean_word, word_value. destruct (read_x w) as [x|]; [destruct (masked x)|]; reflexivity. Qed.
Lemma read_show_x x : good x -> exists y, read_x (show_x x) = Some y /\ same x y.
Proof.
  destruct x as [q|b|]; intros G; [|destruct b|destruct G].
  - destruct (read_show_float q G) as (v & R & V). exists (XFin v). unfold read_x. cbn [show_x]. rewrite R. split; [reflexivity|]. cbn. symmetry. exact V.
  - exists (XInf true). split; reflexivity.
  - exists (XInf false). split; reflexivity.
Qed.
Lemma show_x_same x y : same x y -> show_x x = show_x y.
Proof. destruct x, y; cbn; intros E; try discriminate E; try (injection E as <-; reflexivity); try reflexivity. apply show_float_comp. exact E. Qed.
Lemma show_x_inj x y : good x -> good y -> show_x x = show_x y -> same x y.
Proof.
  intros G H E. destruct (read_show_x x G) as (x' & R1 & S1). destruct (read_show_x y H) as (y' & R2 & S2). rewrite E, R2 in R1. injection R1 as ->. apply (same_trans _ x'); [exact S1|apply same_sym; exact S2].
Qed.
Lemma same_good x y : same x y -> good x -> good y.
Proof.
  destruct x, y; cbn; intros E G; try discriminate E; try exact I; try contradiction. destruct G as (m & e & G). exists m, e. rewrite <- E. exact G.
Qed.
(** ** Listed lines *)
Lemma listedK_None lines c ws post : listedK None lines c ws post <-> listed lines c ws post.
Proof. split; [intros [H|[H _]]; [exact H|discriminate H]|intros H; left; exact H]. Qed.
Lemma hit_listed lines c p v post : good p -> (hit None lines c (show_x p) v post <-> exists wp vs, listed_at lines c p wp vs post /\ map clean_word (firstn 3 vs) = v).
Proof.
  intros G. split.
  - intros (wp & vs & L & K & V). exists wp, vs. split; [|exact V]. split; [apply listedK_None; exact L|]. rewrite clean_word_value in K. apply show_x_inj; [apply word_value_good|exact G|exact K].
  - intros (wp & vs & [L S0] & V). exists wp, vs. split; [apply listedK_None; exact L|]. split; [|exact V]. rewrite clean_word_value. apply show_x_same. exact S0.
Qed.
Lemma keys_iff lines d c k : read_lines None (fun _ => []) lines = Ok d -> (In k (map fst (d c)) <-> exists v post, hit None lines c k v post).
Proof.
  intros E. destruct (read_lines_dict lines None _ d c k E) as [(v & (post & H & _) & G)|(NH & G)]; split.
  - intros _. exists v, post. exact H.
  - intros _. apply (dget_In text_dec) in G. apply in_map with (f := fst) in G. exact G.
  - intros I. apply (dget_None text_dec) in G. contradiction.
  - intros (v & post & H). destruct (NH v post H).
Qed.
Lemma find_tipper_iff lines d : read_lines None (fun _ => []) lines = Ok d -> (find_tipper d = true <-> tipper_listed lines).
Proof.
  intros E. unfold find_tipper, tipper_listed. split.
  - destruct (d Tzx) as [|[k v] l] eqn:D; [discriminate|]. intros _. assert (I : In k (map fst (d Tzx))) by (rewrite D; left; reflexivity).
    apply (keys_iff lines d Tzx k E) in I as (v' & post & wp & vs & L & _). exists wp, vs, post. apply listedK_None. exact L.
  - intros (wp & vs & post & L). assert (I : In (clean_word wp) (map fst (d Tzx))).
    { apply (keys_iff lines d Tzx _ E). exists (map clean_word (firstn 3 vs)), post, wp, vs. split; [apply listedK_None; exact L|]. split; reflexivity. }
    destruct (d Tzx); [destruct I|reflexivity].
Qed.
(** ** Sorting *)
Lemma insert_perm x : forall l, Permutation (insert_text x l) (x :: l).
Proof. induction l as [|y l IH]; [apply Permutation_refl|]. cbn [insert_text]. destruct (text_leb x y); [apply Permutation_refl|]. rewrite IH. apply perm_swap. Qed.
Lemma sort_perm : forall l, Permutation (sort_texts l) l.
Proof. induction l as [|y l IH]; [apply Permutation_refl|]. change (sort_texts (y :: l)) with (insert_text y (sort_texts l)). rewrite insert_perm. constructor. exact IH. Qed.
Lemma text_leb_total a : forall b, text_leb a b = false -> text_leb b a = true.
Proof.
  induction a as [|x a IH]; intros [|y b]; cbn [text_leb]; try reflexivity; try discriminate.
  destruct (N.ltb_spec (code x) (code y)); [discriminate|]. destruct (N.ltb_spec (code y) (code x)); [reflexivity|]. apply IH.
Qed.
Lemma text_leb_trans a : forall b c, text_leb a b = true -> text_leb b c = true -> text_leb a c = true.
Proof.
  induction a as [|x a IH]; intros [|y b] [|z c]; cbn [text_leb]; try reflexivity; try discriminate.
  destruct (N.ltb_spec (code x) (code y)); destruct (N.ltb_spec (code y) (code z)); destruct (N.ltb_spec (code x) (code z)); try reflexivity; try lia;
  destruct (N.ltb_spec (code y) (code x)); destruct (N.ltb_spec (code z) (code y)); destruct (N.ltb_spec (code z) (code x)); try discriminate; try lia. apply IH.
Qed.
Definition sorted_texts (l : list text) : Prop := StronglySorted (fun a b => text_leb a b = true) l.
Lemma insert_sorted x : forall l, sorted_texts l -> sorted_texts (insert_text x l).
Proof.
  induction l as [|y l IH]; intros S0; cbn [insert_text]; [repeat constructor|]. inversion S0 as [|? ? S1 F]; subst. destruct (text_leb x y) eqn:E.
  - constructor; [exact S0|]. constructor; [exact E|]. eapply Forall_impl; [|exact F]. intros z H. exact (text_leb_trans _ _ _ E H).
  - constructor; [apply IH; exact S1|]. apply (Permutation_Forall (Permutation_sym (insert_perm x l))). constructor; [apply text_leb_total; exact E|exact F].
Qed.
Lemma sort_sorted l : sorted_texts (sort_texts l).
Proof. induction l as [|y l IH]; [constructor|]. change (sort_texts (y :: l)) with (insert_text y (sort_texts l)). apply insert_sorted. exact IH. Qed.
(** ** The periods *)
(** Texts of periods and the periods read from them. *)
Definition key_period (k : text) (p : xnum) : Prop := good p /\ k = show_x p.
Lemma keys_periods l ps : (forall k, In k l -> exists x, good x /\ k = show_x x) ->
  mapR (fun s => match read_x s with Some x => Ok x | None => Err ValueError end) l = Ok ps -> Forall2 key_period l ps.
Proof.
  intros H E. apply mapR_Forall2 in E. induction E as [|k p l ps R F IH]; constructor.
  - destruct (H k (or_introl eq_refl)) as (x & G & ->). destruct (read_show_x x G) as (y & RS & SM). rewrite RS in R. injection R as <-. split; [exact (same_good _ _ SM G)|apply show_x_same; exact SM].
  - apply IH. intros k' I. apply H. right. exact I.
Qed.
Lemma comps_in d c : In c (z_comps ++ (if find_tipper d then t_comps else [])) <-> (is_tipper c -> find_tipper d = true).
Proof.
  unfold is_tipper. destruct (find_tipper d); cbn [z_comps t_comps app In]; split; intros H.
  - reflexivity.
  - destruct c; tauto.
  - intros [->| ->]; repeat (destruct H as [H|H]; [discriminate H|]); destruct H.
  - destruct c; try tauto; exfalso; specialize (H ltac:(tauto)); discriminate H.
Qed.
Lemma period_keys_good lines d : read_lines None (fun _ => []) lines = Ok d -> forall k, In k (period_keys d) -> exists x, good x /\ k = show_x x.
Proof.
  intros E k I. unfold period_keys in I. apply in_flat_map in I as (c & _ & I). apply (keys_iff lines d c k E) in I as (v & post & wp & vs & _ & K & _). exists (word_value wp). split; [apply word_value_good|]. rewrite <- K. apply clean_word_value.
Qed.
Lemma Forall2_in_l {A B} (P : A -> B -> Prop) la lb a : Forall2 P la lb -> In a la -> exists b, In b lb /\ P a b.
Proof. intros F. induction F as [|x y la lb H F IH]; intros []; [subst; exists y; split; [left; reflexivity|exact H]|]. destruct (IH H0) as (b & I & Pb). exists b. split; [right; exact I|exact Pb]. Qed.
Lemma Forall2_in_r {A B} (P : A -> B -> Prop) la lb b : Forall2 P la lb -> In b lb -> exists a, In a la /\ P a b.
Proof. intros F. induction F as [|x y la lb H F IH]; intros []; [subst; exists x; split; [left; reflexivity|exact H]|]. destruct (IH H0) as (a & I & Pa). exists a. split; [right; exact I|exact Pa]. Qed.
Definition distinct (ps : list xnum) : Prop := ForallOrdPairs (fun x y => ~ same x y) ps.
Lemma distinct_filter f ps : distinct ps -> distinct (filter f ps).
Proof.
  intros D. induction D as [|p ps F D IH]; [constructor|]. cbn [filter]. destruct (f p); [|exact IH]. constructor; [|exact IH]. rewrite Forall_forall in *. intros x I. apply filter_In in I as [I _]. exact (F x I).
Qed.
Lemma keys_distinct l ps : NoDup l -> Forall2 key_period l ps -> distinct ps.
Proof.
  intros N F. induction F as [|k p l ps (G & K) F IH]; [constructor|]. inversion N; subst. constructor; [|apply IH; assumption]. apply Forall_forall. intros x I SM. destruct (Forall2_in_r _ _ _ _ F I) as (k' & I' & (_ & K')).
  apply H1. rewrite (show_x_same _ _ SM), <- K'. exact I'.
Qed.
Lemma periods_ok lines d ps : read_lines None (fun _ => []) lines = Ok d -> all_periods d = Ok ps ->
  Forall good ps /\ distinct ps /\ (forall p, good p -> ((exists p', In p' ps /\ same p' p) <-> x_nonzero p = true /\ exists c wp vs post, (is_tipper c -> tipper_listed lines) /\ listed_at lines c p wp vs post)).
Proof.
  intros E A. unfold all_periods in A. destruct (mapR _ _) as [l|] eqn:M; [|discriminate A]. cbn [bindR] in A. injection A as <-.
  assert (F : Forall2 key_period (sort_texts (nodup text_dec (period_keys d))) l).
  { apply keys_periods; [|exact M]. intros k I. apply (Permutation_in _ (sort_perm _)) in I. apply nodup_In in I. exact (period_keys_good lines d E k I). }
  assert (GL : Forall good l) by (apply Forall_forall; intros p I; destruct (Forall2_in_r _ _ _ _ F I) as (k & _ & (G & _)); exact G).
  split; [|split].
  - apply Forall_forall. intros p I. apply filter_In in I as [I _]. rewrite Forall_forall in GL. exact (GL p I).
  - apply distinct_filter. apply (keys_distinct _ _ (Permutation_NoDup (Permutation_sym (sort_perm _)) (NoDup_nodup text_dec _)) F).
  - intros p G.
    assert (NZ : forall p', same p' p -> x_nonzero p' = x_nonzero p).
    { intros [a| |] SM; destruct p as [b| |]; cbn in SM; try discriminate SM; try reflexivity. cbn [x_nonzero]. f_equal. destruct (Qeq_bool a 0) eqn:E1; destruct (Qeq_bool b 0) eqn:E2; try reflexivity.
      - apply Qeq_bool_iff in E1. apply Qeq_bool_neq in E2. exfalso. apply E2. rewrite <- SM. exact E1.
      - apply Qeq_bool_iff in E2. apply Qeq_bool_neq in E1. exfalso. apply E1. rewrite SM. exact E2. }
    assert (KI : In (show_x p) (period_keys d) <-> exists c wp vs post, (is_tipper c -> tipper_listed lines) /\ listed_at lines c p wp vs post).
    { unfold period_keys. rewrite in_flat_map. split.
      - intros (c & IC0 & I). pose proof (proj1 (comps_in d c) IC0) as IC. apply (keys_iff lines d c _ E) in I as (v & post & H). apply (hit_listed lines c p v post G) in H as (wp & vs & L & _). exists c, wp, vs, post.
        split; [|exact L]. intros T. apply (find_tipper_iff lines d E). exact (IC T).
      - intros (c & wp & vs & post & T & L). exists c. split; [apply comps_in; intros X; apply (find_tipper_iff lines d E); exact (T X)|]. apply (keys_iff lines d c _ E). exists (map clean_word (firstn 3 vs)), post. apply (hit_listed lines c p _ post G). exists wp, vs. split; [exact L|reflexivity]. }
    rewrite <- KI. split.
    + intros (p' & I & SM). apply filter_In in I as [I Z0]. split; [rewrite <- (NZ p' SM); exact Z0|]. destruct (Forall2_in_r _ _ _ _ F I) as (k & Ik & (_ & ->)). apply (Permutation_in _ (sort_perm _)) in Ik. apply nodup_In in Ik. rewrite (show_x_same _ _ SM) in Ik. exact Ik.
    + intros (Z0 & I). apply (nodup_In text_dec) in I. apply (Permutation_in _ (Permutation_sym (sort_perm _))) in I. destruct (Forall2_in_l _ _ _ _ F I) as (p' & Ip & (G' & K)). exists p'.
      pose proof (same_sym _ _ (show_x_inj _ _ G G' K)) as SM. split; [|exact SM]. apply filter_In. split; [exact Ip|]. rewrite (NZ p' SM). exact Z0.
Qed.
