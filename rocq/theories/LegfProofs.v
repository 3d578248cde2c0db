(** Filters out of dictionaries. *)
From Verif Require Import PyBase PyFacts PyText TextFacts PySort ChanFiltModel ChanFiltSpec ChanFiltProofs LegfModel LegfSpec.
From Coq Require Import Lia Permutation.
Local Open Scope list_scope.

(** ** Lists written with commas *)
Lemma with_commas_join w ws : with_commas (w :: ws) = join [","%char] (w :: map (cons " "%char) ws).
Proof.
  revert w. induction ws as [|x ws IH]; intros w; [reflexivity|]. change (with_commas (w :: x :: ws)) with (w ++ txt ", " ++ with_commas (x :: ws)). rewrite IH. cbn [map]. destruct ws as [|y ws]; reflexivity.
Qed.
Lemma trimmed_strip_blank w : trimmed w -> strip (" "%char :: w) = w.
Proof. intros T. change (" "%char :: w) with (txt " " ++ w). rewrite <- (app_nil_r (txt " " ++ w)), <- app_assoc. apply strip_pad; [reflexivity|reflexivity|exact T]. Qed.
Lemma split_commas ws : ws <> [] -> (forall w, In w ws -> trimmed w /\ ~ In ","%char w) -> map strip (split_on "," (with_commas ws)) = ws.
Proof.
  destruct ws as [|w ws]; [congruence|]. intros _ H. rewrite with_commas_join. rewrite split_join.
  - cbn [map]. f_equal; [apply strip_trimmed; apply H; left; reflexivity|]. rewrite map_map. transitivity (map (fun x : text => x) ws); [|apply map_id]. apply map_ext_in. intros x I. apply trimmed_strip_blank. apply H. right. exact I.
  - discriminate.
  - intros x [<-|I]; [apply H; left; reflexivity|]. apply in_map_iff in I. destruct I as (y & <- & I). intros [X|X]; [discriminate X|]. exact (proj2 (H y (or_intror I)) X).
Qed.
Lemma with_commas_In c ws : In c (with_commas ws) -> In c (txt ", ") \/ exists w, In w ws /\ In c w.
Proof.
  induction ws as [|w ws IH]; [intros []|]. destruct ws as [|x ws]; [intros I; right; exists w; split; [left; reflexivity|exact I]|].
  change (with_commas (w :: x :: ws)) with (w ++ txt ", " ++ with_commas (x :: ws)). intros I. apply in_app_or in I. destruct I as [I|I]; [right; exists w; split; [left; reflexivity|exact I]|].
  apply in_app_or in I. destruct I as [I|I]; [left; exact I|]. destruct (IH I) as [H|(y & Y & J)]; [left; exact H|right; exists y; split; [right; exact Y|exact J]].
Qed.
Lemma comma_in w x ws : has_char "," (with_commas (w :: x :: ws)) = true.
Proof. apply has_char_In. change (with_commas (w :: x :: ws)) with (w ++ txt ", " ++ with_commas (x :: ws)). apply in_or_app. right. left. reflexivity. Qed.
Lemma no_brackets_id s : ~ In "["%char s -> ~ In "]"%char s -> no_brackets s = s.
Proof.
  intros A B. unfold no_brackets. induction s as [|c s IH]; [reflexivity|]. cbn [filter]. destruct (Ascii.eqb_spec c "[") as [->|_]; [exfalso; apply A; left; reflexivity|]. destruct (Ascii.eqb_spec c "]") as [->|_]; [exfalso; apply B; left; reflexivity|].
  cbn [orb negb]. f_equal. apply IH; intros I; [apply A|apply B]; right; exact I.
Qed.
Lemma no_brackets_in s : ~ In "["%char s -> ~ In "]"%char s -> no_brackets (in_brackets s) = s.
Proof. intros A B. unfold in_brackets, no_brackets. rewrite !filter_app. cbn [txt list_ascii_of_string filter Ascii.eqb Bool.eqb orb negb]. cbn [app]. fold (no_brackets s). rewrite app_nil_r. apply no_brackets_id; assumption. Qed.

(** ** Flags and names *)
Lemma flags_no_bracket bs c : In c (with_commas (map flag_text bs)) -> c <> "["%char /\ c <> "]"%char.
Proof.
  intros I. apply with_commas_In in I. destruct I as [I|(w & W & I)]; [cbn [In txt list_ascii_of_string] in I; destruct I as [<-|[<-|[]]]; split; discriminate|].
  apply in_map_iff in W. destruct W as (b & <- & _). destruct b; cbn [flag_text txt list_ascii_of_string In] in I; repeat (destruct I as [<-|I]; [split; discriminate|]); destruct I.
Qed.
Lemma flags_commas b b' bs : map (fun w => SText (lower (strip w))) (split_on "," (with_commas (map flag_text (b :: b' :: bs)))) = map (fun b => SText (lower (flag_text b))) (b :: b' :: bs).
Proof.
  rewrite <- (map_map strip (fun w => SText (lower w))). rewrite split_commas; [rewrite map_map; reflexivity|discriminate|]. intros w I. apply in_map_iff in I. destruct I as (x & <- & _).
  split; [|destruct x; cbn; intros H; repeat (destruct H as [H|H]; [discriminate H|]); exact H]. split; intros c r E; destruct x.
  - injection E as <- _. reflexivity.
  - injection E as <- _. reflexivity.
  - change (flag_text true) with (txt "Tru" ++ txt "e") in E. apply app_inj_tail in E as [_ <-]. reflexivity.
  - change (flag_text false) with (txt "Fals" ++ txt "e") in E. apply app_inj_tail in E as [_ <-]. reflexivity.
Qed.
Lemma to_bool_flag b : to_bool (SText (lower (flag_text b))) = Ok b.
Proof. destruct b; reflexivity. Qed.
Lemma word_value_comma s : In ","%char s -> word_value s = None.
Proof.
  intros I. unfold word_value, mem. cbn [existsb].
  repeat match goal with |- context [text_eqb s ?w] => replace (text_eqb s w) with false by (symmetry; apply not_true_iff_false; let E := fresh in intros E; apply text_eqb_eq in E; subst s; cbn in I; repeat (destruct I as [I|I]; [discriminate I|]); exact I) end. reflexivity.
Qed.
Lemma word_value_bracket s : In "["%char s -> word_value s = None.
Proof.
  intros I. unfold word_value, mem. cbn [existsb].
  repeat match goal with |- context [text_eqb s ?w] => replace (text_eqb s w) with false by (symmetry; apply not_true_iff_false; let E := fresh in intros E; apply text_eqb_eq in E; subst s; cbn in I; repeat (destruct I as [I|I]; [discriminate I|]); exact I) end. reflexivity.
Qed.
Definition flags_for (bs : list bool) (g : flags_given) : Prop := exists vs, read_flags g = Ok vs /\ Forall2 (fun b v => to_bool v = Ok b) bs vs.
Lemma F2_map {A} (f : A -> scalar) (bs : list A) (p : A -> bool) : (forall b, to_bool (f b) = Ok (p b)) -> Forall2 (fun b v => to_bool v = Ok b) (map p bs) (map f bs).
Proof. intros H. induction bs; cbn [map]; constructor; auto. Qed.
Lemma says_to_bool b v : says b v -> to_bool v = Ok b.
Proof.
  intros [b'| | |s I|s I]; try reflexivity; cbn [to_bool]; unfold mem.
  - assert (E : existsb (text_eqb (lower s)) true_words = true) by (apply existsb_exists; exists (lower s); split; [exact I|apply text_eqb_refl]). rewrite E. reflexivity.
  - assert (E : existsb (text_eqb (lower s)) true_words = false). { revert I. generalize (lower s). intros x I. repeat (destruct I as [<-|I]; [reflexivity|]). destruct I. }
    assert (E' : existsb (text_eqb (lower s)) false_words = true) by (apply existsb_exists; exists (lower s); split; [exact I|apply text_eqb_refl]). rewrite E, E'. reflexivity.
Qed.
Lemma flags_list bs vs : Forall2 says bs vs -> flags_for bs (FList vs).
Proof. intros F. exists vs. split; [reflexivity|]. induction F as [|b v bs vs H F IH]; constructor; [apply says_to_bool; exact H|exact IH]. Qed.
Lemma flags_plain bs : bs <> [] -> flags_for bs (FText (with_commas (map flag_text bs))).
Proof.
  destruct bs as [|b [|b' bs]]; [congruence| |]; intros _.
  - exists [SBool b]. split; [destruct b; reflexivity|]. constructor; [reflexivity|constructor].
  - exists (map (fun b => SText (lower (flag_text b))) (b :: b' :: bs)). split; [|rewrite <- (map_id (b :: b' :: bs)) at 1; apply F2_map; intros x; apply to_bool_flag].
    cbn [read_flags]. rewrite word_value_comma by (apply has_char_In; apply comma_in).
    assert (N : has_char "[" (with_commas (map flag_text (b :: b' :: bs))) = false). { apply not_true_iff_false. rewrite has_char_In. intros I. apply flags_no_bracket in I. destruct I. congruence. }
    rewrite N. cbn [map]. rewrite comma_in. f_equal. apply flags_commas.
Qed.
Lemma flags_brackets bs : bs <> [] -> flags_for bs (FText (in_brackets (with_commas (map flag_text bs)))).
Proof.
  intros NE. exists (map (fun b => SText (lower (flag_text b))) bs). split; [|rewrite <- (map_id bs) at 1; apply F2_map; intros x; apply to_bool_flag].
  assert (B : In "["%char (in_brackets (with_commas (map flag_text bs)))) by (left; reflexivity). cbn [read_flags]. rewrite word_value_bracket by exact B. rewrite (proj2 (has_char_In _ _) B).
  rewrite no_brackets_in by (intros I; apply flags_no_bracket in I; destruct I; congruence).
  destruct bs as [|b [|b' bs]]; [congruence|destruct b; reflexivity|]. cbn [map]. rewrite comma_in. f_equal. apply flags_commas.
Qed.
Definition names_for (ns : list text) (g : names_given) : Prop := read_names g = Ok ns.
Lemma simple_kept n : simple_name n -> lower (strip n) = n.
Proof. intros ((_ & _ & U) & T & _). rewrite (strip_trimmed n T). apply lower_id. exact U. Qed.
Lemma names_list ns : Forall simple_name ns -> names_for ns (NList ns).
Proof. intros F. unfold names_for. cbn [read_names]. f_equal. transitivity (map (fun x : text => x) ns); [|apply map_id]. apply map_ext_in. rewrite Forall_forall in F. intros n I. apply simple_kept. apply F. exact I. Qed.
Lemma names_text ns : ns <> [] -> Forall simple_name ns -> names_for ns (NText (with_commas ns)).
Proof.
  intros NE F. unfold names_for. cbn [read_names]. rewrite <- (map_map strip lower). rewrite split_commas; [|exact NE|rewrite Forall_forall in F; intros w I; split; apply (F w I)].
  f_equal. transitivity (map (fun x : text => x) ns); [|apply map_id]. apply map_ext_in. rewrite Forall_forall in F. intros n I. apply lower_id. apply (F n I).
Qed.

(** ** Adding *)
Lemma listed_app k a b : listed k (a ++ b) = listed k a ++ listed (k + List.length a) b.
Proof. revert k. induction a as [|[n x] a IH]; intros k; cbn [app listed List.length]; [rewrite Nat.add_0_r; reflexivity|]. rewrite IH. do 3 f_equal. lia. Qed.
Lemma listed_length k a : List.length (listed k a) = List.length a.
Proof. revert k. induction a as [|[n x] a IH]; intros k; [reflexivity|]. cbn [listed List.length]. rewrite IH. reflexivity. Qed.
Lemma listed_stages k a : map a_stage (listed k a) = map (fun i => Some (Z.of_nat i)) (seq (S k) (List.length a)).
Proof. revert k. induction a as [|[n x] a IH]; intros k; [reflexivity|]. cbn [listed map List.length seq a_stage]. rewrite IH. reflexivity. Qed.
Lemma listed_names k a : map a_name (listed k a) = map fst a.
Proof. revert k. induction a as [|[n x] a IH]; intros k; [reflexivity|]. cbn [listed map a_name fst]. rewrite IH. reflexivity. Qed.
Lemma numbered_listed l : numbered l <-> l = listed 0 (map (fun f => (a_name f, a_applied f)) l).
Proof.
  split.
  - unfold numbered. assert (G : forall l k, map a_stage l = map (fun i => Some (Z.of_nat i)) (seq (S k) (List.length l)) -> l = listed k (map (fun f => (a_name f, a_applied f)) l)).
    { clear l. induction l as [|f l IH]; intros k H; [reflexivity|]. cbn [map List.length seq listed] in *. injection H as H1 H2. f_equal; [destruct f; cbn in *; rewrite H1; reflexivity|apply IH; exact H2]. }
    intros H. apply (G l 0%nat). exact H.
  - intros E. unfold numbered. rewrite E at 1. rewrite listed_stages, map_length. reflexivity.
Qed.
Lemma add_name_fresh l n b : numbered l -> plain_name n -> ~ In n (map a_name l) -> add_name l n b None = Ok (l ++ [mkA n b (Some (Z.of_nat (S (List.length l))))]).
Proof.
  intros N P NI. unfold add_name. rewrite (proj2 (has_name_false n l) NI). unfold make_applied. rewrite (plain_validate n P). cbn [bindR]. unfold sort_filters.
  assert (E : next_stage l = Z.of_nat (S (List.length l))) by (unfold next_stage; lia). rewrite E. rewrite sort_key_id; [reflexivity|]. apply numbered_sorted with (k := 1%nat).
  rewrite map_app, N. cbn [map a_stage]. rewrite app_length. cbn [List.length]. rewrite Nat.add_1_r, seq_S, map_app. cbn [map]. do 3 f_equal.
Qed.
Lemma add_all_fresh ns : forall bs vs l, Forall2 (fun b v => to_bool v = Ok b) bs vs -> List.length ns = List.length bs -> Forall plain_name ns -> NoDup (map a_name l ++ ns) -> numbered l ->
  add_all l (combine ns vs) = Ok (l ++ listed (List.length l) (combine ns bs)).
Proof.
  induction ns as [|n ns IH]; intros bs vs l F L P ND N; [cbn; rewrite app_nil_r; reflexivity|].
  destruct F as [|b v bs vs E F]; [discriminate L|]. inversion P as [|? ? Pn Pns]; subst. cbn [combine add_all listed].
  assert (NI : ~ In n (map a_name l)) by (apply NoDup_remove_2 in ND; intros I; apply ND; apply in_or_app; left; exact I).
  rewrite (proj2 (has_name_false n l) NI). rewrite E. cbn [bindR]. rewrite add_name_fresh by assumption. cbn [bindR].
  assert (LN : List.length (l ++ [mkA n b (Some (Z.of_nat (S (List.length l))))]) = S (List.length l)) by (rewrite app_length; cbn; lia).
  rewrite (IH bs vs); [rewrite LN, <- app_assoc; reflexivity|exact F|injection L as L; exact L|exact Pns|rewrite map_app, <- app_assoc; exact ND|].
  unfold numbered in *. rewrite LN, seq_S, !map_app, N. reflexivity.
Qed.
Lemma old_fresh l bs ns fl nm : bs <> [] -> flags_for bs fl -> names_for ns nm -> List.length ns = List.length bs -> Forall plain_name ns -> NoDup (map a_name l ++ ns) -> numbered l ->
  old_format l (Some fl) (Some nm) = Ok (l ++ listed (List.length l) (combine ns bs)).
Proof.
  intros NE (vs & Ev & F) En L P ND N. cbn [old_format]. rewrite Ev. cbn [bindR]. rewrite En. cbn [bindR].
  assert (LV : List.length vs = List.length bs) by (clear - F; induction F; cbn; congruence). destruct vs as [|v vs]; [destruct bs; [congruence|discriminate LV]|]. destruct ns as [|n ns]; [destruct bs; [congruence|discriminate L]|].
  replace (Nat.eqb (List.length (v :: vs)) (List.length (n :: ns))) with true by (symmetry; apply Nat.eqb_eq; congruence). apply add_all_fresh; assumption.
Qed.
Lemma numbered_more l a : numbered l -> numbered (l ++ listed (List.length l) a).
Proof. intros N. unfold numbered in *. rewrite map_app, N, listed_stages, app_length, listed_length, seq_app, map_app. cbn [Nat.add]. reflexivity. Qed.
Lemma gives_flags_for bs g : bs <> [] -> gives_flags bs g -> flags_for bs g.
Proof. intros NE [vs F| |]; [apply flags_list; exact F|apply flags_plain; exact NE|apply flags_brackets; exact NE]. Qed.
Lemma gives_names_for ns g : ns <> [] -> Forall simple_name ns -> gives_names ns g -> names_for ns g.
Proof. intros NE F []; [apply names_list; exact F|apply names_text; assumption]. Qed.
Lemma simple_plain ns : Forall simple_name ns -> Forall plain_name ns.
Proof. intros F. eapply Forall_impl; [|exact F]. intros n H. apply H. Qed.

(** ** Nothing is lost *)
Lemma sort_incl l : incl l (sort_filters l).
Proof. intros f I. eapply Permutation_in; [apply sort_key_perm|exact I]. Qed.
Lemma add_name_incl l n b st l' : add_name l n b st = Ok l' -> incl l l'.
Proof.
  unfold add_name. destruct (has_name n l); [intros [= <-]; apply incl_refl|]. destruct (make_applied n b _) as [f|x]; [|discriminate]. cbn [bindR]. intros [= <-].
  intros g I. apply sort_incl. apply in_or_app. left. exact I.
Qed.
Lemma add_all_incl nfs : forall l l', add_all l nfs = Ok l' -> incl l l'.
Proof.
  induction nfs as [|[n v] nfs IH]; intros l l'; cbn [add_all]; [intros [= <-]; apply incl_refl|]. destruct (has_name n l); cbn [bindR]; [apply IH|].
  destruct (to_bool v) as [b|x]; [|discriminate]. cbn [bindR]. destruct (add_name l n b None) as [l1|x] eqn:E; [|discriminate]. cbn [bindR]. intros H. eapply incl_tran; [eapply add_name_incl; exact E|apply IH; exact H].
Qed.
Lemma old_incl l fl ns l' : old_format l fl ns = Ok l' -> incl l l'.
Proof.
  unfold old_format. destruct fl as [f|]; [|intros [= <-]; apply incl_refl]. destruct ns as [n|]; [|intros [= <-]; apply incl_refl].
  destruct (read_flags f) as [vs|x]; [|discriminate]. destruct (read_names n) as [names|x]; [|discriminate]. cbn [bindR].
  destruct vs as [|v vs]; [intros [= <-]; apply incl_refl|]. destruct names as [|m names]; [intros [= <-]; apply incl_refl|].
  destruct (Nat.eqb _ _); [apply add_all_incl|discriminate].
Qed.
Lemma add_object_incl l f : incl l (add_object l f).
Proof. unfold add_object. destruct (has_name _ l); [apply incl_refl|]. intros g I. apply in_or_app. left. exact I. Qed.
Lemma items_incl is : forall l l', add_items l is = Ok l' -> incl l l'.
Proof.
  induction is as [|[d|f|] is IH]; intros l l'; cbn [add_items]; [intros [= <-]; apply incl_refl| | |apply IH].
  - destruct (of_dict d) as [f|x]; [|discriminate]. cbn [bindR]. intros H. eapply incl_tran; [apply add_object_incl|apply IH; exact H].
  - intros H. eapply incl_tran; [apply add_object_incl|apply IH; exact H].
Qed.
Lemma from_dict_incl l e l' : filters_not_text e -> from_dict l e = Ok l' -> incl l l'.
Proof.
  intros NT. unfold from_dict. destruct (old_format l _ _) as [l1|x] eqn:E1; [|discriminate]. cbn [bindR]. destruct (old_format l1 _ _) as [l2|x] eqn:E2; [|discriminate]. cbn [bindR]. intros H.
  eapply incl_tran; [eapply old_incl; exact E1|]. eapply incl_tran; [eapply old_incl; exact E2|]. unfold new_format in H. destruct (e_filters e) as [[is|p|]|] eqn:E.
  - eapply items_incl; exact H.
  - exfalso. apply (NT p). exact E.
  - discriminate H.
  - injection H as <-. apply incl_refl.
Qed.

(** ** Names stay distinct *)
Lemma add_name_nodup l n b st l' : plain_name n -> NoDup (map a_name l) -> add_name l n b st = Ok l' -> NoDup (map a_name l').
Proof.
  intros P N. unfold add_name. destruct (has_name n l) eqn:E; [intros [= <-]; exact N|]. unfold make_applied. rewrite (plain_validate n P). cbn [bindR]. intros [= <-].
  eapply Permutation_NoDup; [apply names_sort|]. rewrite map_app. apply NoDup_snoc; [exact N|]. apply has_name_false. exact E.
Qed.

(** ** Written and read *)
Lemma has_name_app n a b : has_name n (a ++ b) = has_name n a || has_name n b.
Proof. unfold has_name. apply existsb_app. Qed.
Definition as_item (f : applied) : item := IDict (mkF (a_name f) (Some (SBool (a_applied f))) (a_stage f)).
Lemma trip_items l : forall l0, Forall (fun f => plain_name (a_name f) /\ a_stage f <> None) l -> NoDup (map a_name (l0 ++ l)) -> add_items l0 (map as_item l) = Ok (l0 ++ l).
Proof.
  induction l as [|[n b st] l IH]; intros l0 F N; [cbn; rewrite app_nil_r; reflexivity|]. inversion F as [|? ? P F']. subst. destruct P as [P S].
  cbn [map as_item add_items]. unfold of_dict, make_applied. cbn [d_flag d_name d_stage to_bool bindR]. cbn [a_name a_stage a_applied] in *. rewrite (plain_validate n P). cbn [bindR].
  assert (NI : has_name n l0 = false) by (apply has_name_false; rewrite map_app in N; apply NoDup_remove_2 in N; intros I; apply N; apply in_or_app; left; exact I).
  unfold add_object. cbn [a_name a_applied a_stage]. rewrite NI. destruct st as [z|]; [|congruence]. rewrite IH; [rewrite <- app_assoc; reflexivity|exact F'|rewrite <- app_assoc; exact N].
Qed.
Lemma again_items l : forall l0, Forall (fun f => plain_name (a_name f)) l -> incl (map a_name l) (map a_name l0) -> add_items l0 (map as_item l) = Ok l0.
Proof.
  induction l as [|[n b st] l IH]; intros l0 F I; [reflexivity|]. inversion F as [|? ? P F']. subst. cbn [map as_item add_items]. unfold of_dict, make_applied. cbn [d_flag d_name d_stage to_bool bindR a_name] in *.
  rewrite (plain_validate n P). cbn [bindR]. unfold add_object. cbn [a_name]. rewrite (proj2 (has_name_iff n l0)) by (apply I; left; reflexivity). apply IH; [exact F'|]. intros x J. apply I. right. exact J.
Qed.
(** ** Names that may be there already *)
Lemma news_ext nbs : forall o o', (forall x, In x o <-> In x o') -> news o nbs = news o' nbs.
Proof.
  induction nbs as [|[n b] nbs IH]; intros o o' H; [reflexivity|]. cbn [news]. destruct (in_dec text_dec n o) as [I|I]; destruct (in_dec text_dec n o') as [J|J]; [apply IH; exact H|exfalso; apply J, H, I|exfalso; apply I, H, J|].
  f_equal. apply IH. intros x. cbn [In]. rewrite H. reflexivity.
Qed.
Lemma news_fresh nbs : forall o, NoDup (o ++ map fst nbs) -> news o nbs = nbs.
Proof.
  induction nbs as [|[n b] nbs IH]; intros o N; [reflexivity|]. cbn [news map fst] in *. destruct (in_dec text_dec n o) as [I|I]; [exfalso; apply NoDup_remove_2 in N; apply N; apply in_or_app; left; exact I|].
  f_equal. apply IH. cbn [app]. apply NoDup_cons; [apply NoDup_remove_2 in N; exact N|apply NoDup_remove_1 in N; exact N].
Qed.
Lemma add_all_news ns : forall bs vs l, Forall2 (fun b v => to_bool v = Ok b) bs vs -> List.length ns = List.length bs -> Forall plain_name ns -> numbered l ->
  add_all l (combine ns vs) = Ok (l ++ listed (List.length l) (news (map a_name l) (combine ns bs))).
Proof.
  induction ns as [|n ns IH]; intros bs vs l F L P N; [cbn; rewrite app_nil_r; reflexivity|].
  destruct F as [|b v bs vs E F]; [discriminate L|]. inversion P as [|? ? Pn Pns]; subst. injection L as L. cbn [combine add_all news]. destruct (in_dec text_dec n (map a_name l)) as [I|NI].
  - rewrite (proj2 (has_name_iff n l) I). cbn [bindR]. apply IH; assumption.
  - rewrite (proj2 (has_name_false n l) NI). rewrite E. cbn [bindR]. rewrite add_name_fresh by assumption. cbn [bindR listed].
    assert (LN : List.length (l ++ [mkA n b (Some (Z.of_nat (S (List.length l))))]) = S (List.length l)) by (rewrite app_length; cbn; lia).
    rewrite (IH bs vs); [|assumption|assumption|assumption|exact (numbered_more l [(n, b)] N)]. rewrite LN, <- app_assoc. cbn [app]. do 4 f_equal. apply news_ext. intros x. rewrite map_app, in_app_iff. cbn [map a_name In]. tauto.
Qed.
Lemma old_news l bs ns fl nm : bs <> [] -> gives_flags bs fl -> gives_names ns nm -> List.length ns = List.length bs -> Forall simple_name ns -> numbered l ->
  old_format l (Some fl) (Some nm) = Ok (l ++ listed (List.length l) (news (map a_name l) (combine ns bs))).
Proof.
  intros NE GF GN L S N. assert (NN : ns <> []) by (intros ->; destruct bs; [congruence|discriminate L]).
  destruct (gives_flags_for bs fl NE GF) as (vs & Ev & F). pose proof (gives_names_for ns nm NN S GN) as En. unfold names_for in En. cbn [old_format]. rewrite Ev. cbn [bindR]. rewrite En. cbn [bindR].
  assert (LV : List.length vs = List.length bs) by (clear - F; induction F; cbn; congruence). destruct vs as [|v vs]; [destruct bs; [congruence|discriminate LV]|]. destruct ns as [|n ns]; [congruence|].
  replace (Nat.eqb (List.length (v :: vs)) (List.length (n :: ns))) with true by (symmetry; apply Nat.eqb_eq; congruence). apply add_all_news; [assumption|assumption|apply simple_plain; assumption|assumption].
Qed.
Lemma parsed_items l : Forall (fun f => plain_name (a_name f)) l -> parsed_filters (map as_item l) = Ok l.
Proof.
  induction 1 as [|[n b st] l P F IH]; [reflexivity|]. cbn [map as_item parsed_filters]. unfold of_dict, make_applied. cbn [d_flag d_name d_stage to_bool bindR a_name a_applied a_stage] in *. rewrite (plain_validate n P). cbn [bindR]. rewrite IH. reflexivity.
Qed.
