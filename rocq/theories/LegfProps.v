(** C117: the filters that a channel takes out of a dictionary.
    channel.py 320-393, 592-645, 685-806 (model in LegfModel.v; [listed], [news], [gives_flags] and so on in LegfSpec.v). *)
From Verif Require Import PyBase PyText TextFacts PySort ChanFiltModel ChanFiltSpec ChanFiltProofs LegfModel LegfSpec LegfProofs.
From Coq Require Import Lia Permutation.
Local Open Scope list_scope.

Lemma NoDup_app_remove_r {A} (a b : list A) : NoDup (a ++ b) -> NoDup a.
Proof. induction a as [|x a IH]; intros H; [constructor|]. inversion H as [|? ? NI H']. subst. constructor; [intros I; apply NI, in_or_app; left; exact I|apply IH; exact H']. Qed.
(** Names and flags of the oldest format become filters, in their order, with the stages that come next; a name that is there keeps its filter *)
Theorem C117_legacy_read l bs ns fl nm : numbered l -> bs <> [] -> List.length ns = List.length bs -> Forall simple_name ns -> gives_flags bs fl -> gives_names ns nm ->
  from_dict l (mkE (Some fl) (Some nm) None None None) = Ok (l ++ listed (List.length l) (news (map a_name l) (combine ns bs)))
  /\ from_dict l (mkE None None (Some fl) (Some nm) None) = Ok (l ++ listed (List.length l) (news (map a_name l) (combine ns bs))).
Proof.
  intros N NE L S GF GN. unfold from_dict. cbn [e_filter_applied e_filter_name e_filtered_applied e_filtered_name e_filters]. change (old_format l None None) with (Ok l). cbn [bindR]. rewrite (old_news l bs ns fl nm NE GF GN L S N). cbn [bindR]. split; reflexivity.
Qed.
(** ... so all of them, if they are distinct and new *)
Theorem C117_legacy_new l bs ns fl nm : numbered l -> bs <> [] -> List.length ns = List.length bs -> Forall simple_name ns -> NoDup (map a_name l ++ ns) -> gives_flags bs fl -> gives_names ns nm ->
  from_dict l (mkE (Some fl) (Some nm) None None None) = Ok (l ++ listed (List.length l) (combine ns bs))
  /\ numbered (l ++ listed (List.length l) (combine ns bs))
  /\ map (fun f => (a_name f, a_applied f)) (listed (List.length l) (combine ns bs)) = combine ns bs.
Proof.
  intros N NE L S ND GF GN. split; [|split].
  - destruct (C117_legacy_read l bs ns fl nm N NE L S GF GN) as [H _]. rewrite H. rewrite news_fresh; [reflexivity|].
    replace (map fst (combine ns bs)) with ns; [exact ND|]. clear - L. revert bs L. induction ns as [|n ns IH]; intros [|b bs] L; try discriminate L; [reflexivity|]. cbn [combine map fst]. f_equal. apply IH. injection L as L. exact L.
  - apply numbered_more. exact N.
  - generalize (List.length l). generalize (combine ns bs). clear. intros c. induction c as [|[n b] c IH]; intros k; [reflexivity|]. cbn [listed map a_name a_applied]. rewrite IH. reflexivity.
Qed.
(** The oldest format is taken first, then the next, then the list of filters *)
Theorem C117_three_formats l bs ns fl nm bs' ns' fl' nm' fs : numbered l -> bs <> [] -> List.length ns = List.length bs -> Forall simple_name ns -> gives_flags bs fl -> gives_names ns nm ->
  bs' <> [] -> List.length ns' = List.length bs' -> Forall simple_name ns' -> gives_flags bs' fl' -> gives_names ns' nm' ->
  NoDup (map a_name l ++ ns ++ ns' ++ map a_name fs) -> Forall (fun f => plain_name (a_name f) /\ a_stage f <> None) fs ->
  from_dict l (mkE (Some fl) (Some nm) (Some fl') (Some nm') (Some (LItems (map (fun f => IDict (mkF (a_name f) (Some (SBool (a_applied f))) (a_stage f))) fs))))
    = Ok (l ++ listed (List.length l) (combine ns bs ++ combine ns' bs') ++ fs).
Proof.
  intros N NE L S GF GN NE' L' S' GF' GN' ND F. unfold from_dict. cbn [e_filter_applied e_filter_name e_filtered_applied e_filtered_name e_filters].
  assert (C : forall (a : list text) (b : list bool), List.length a = List.length b -> map fst (combine a b) = a) by (clear; intros a; induction a as [|n a IH]; intros [|b bs] L; try discriminate L; [reflexivity|]; cbn [combine map fst]; f_equal; apply IH; injection L as L; exact L).
  rewrite (old_news l bs ns fl nm NE GF GN L S N). cbn [bindR].
  assert (D1 : NoDup (map a_name l ++ ns)). { rewrite app_assoc in ND. apply NoDup_app_remove_r in ND. exact ND. }
  rewrite (news_fresh (combine ns bs)) by (rewrite C by exact L; exact D1).
  set (l1 := l ++ listed (List.length l) (combine ns bs)). assert (N1 : map a_name l1 = map a_name l ++ ns) by (unfold l1; rewrite map_app, listed_names, C by exact L; reflexivity).
  rewrite (old_news l1 bs' ns' fl' nm' NE' GF' GN' L' S' (numbered_more l _ N)). cbn [bindR].
  assert (D2 : NoDup (map a_name l1 ++ ns')). { rewrite N1, <- app_assoc. rewrite (app_assoc ns), (app_assoc (map a_name l)) in ND. apply NoDup_app_remove_r in ND. exact ND. }
  rewrite (news_fresh (combine ns' bs')) by (rewrite C by exact L'; exact D2).
  assert (E : l1 ++ listed (List.length l1) (combine ns' bs') = l ++ listed (List.length l) (combine ns bs ++ combine ns' bs')). { unfold l1. rewrite listed_app, app_length, listed_length, <- app_assoc. reflexivity. }
  rewrite E. cbn [new_format]. change (map (fun f => IDict (mkF (a_name f) (Some (SBool (a_applied f))) (a_stage f))) fs) with (map as_item fs).
  rewrite trip_items; [rewrite <- app_assoc; reflexivity|exact F|]. rewrite !map_app, listed_names, map_app, !C by assumption. rewrite <- !app_assoc. exact ND.
Qed.
(** A dictionary takes no filter away and changes none, unless its filters are a text *)
Theorem C117_nothing_changes l e l' : filters_not_text e -> from_dict l e = Ok l' -> incl l l'.
Proof. apply from_dict_incl. Qed.
(** A text as the filters replaces all filters, those of older formats in the same dictionary too *)
Theorem C117_text_replaces_refuted : exists l e l', from_dict l e = Ok l' /\ ~ incl l l'
  /\ (forall l0 fl nm b c is, old_format l0 (Some fl) (Some nm) = Ok b -> parsed_filters is = Ok c -> from_dict l0 (mkE (Some fl) (Some nm) None None (Some (LText (Some is)))) = Ok (sort_filters c)).
Proof.
  exists [mkA (txt "lowpass") true (Some 1%Z)], (mkE None None None None (Some (LText (Some [])))), []. split; [reflexivity|]. split; [intros H; destruct (H (mkA (txt "lowpass") true (Some 1%Z)) (or_introl eq_refl))|].
  intros l0 fl nm b c is E P. unfold from_dict. cbn [e_filter_applied e_filter_name e_filtered_applied e_filtered_name e_filters]. rewrite E. cbn [bindR old_format new_format]. rewrite P. reflexivity.
Qed.
(** A text of dictionaries is read as they are, in the order of their stages, names that occur twice too; a blank text is an error *)
Theorem C117_text_read l fs fs' : Forall (fun f => plain_name (a_name f)) fs ->
  from_dict l (mkE None None None None (Some (LText (Some (map (fun f => IDict (mkF (a_name f) (Some (SBool (a_applied f))) (a_stage f))) fs))))) = Ok fs' ->
  Permutation fs fs' /\ in_stage_order fs' /\ (forall st, filter (fun f => Z.eqb (stage_number f) st) fs' = filter (fun f => Z.eqb (stage_number f) st) fs).
Proof.
  intros P. unfold from_dict. cbn [e_filter_applied e_filter_name e_filtered_applied e_filtered_name e_filters old_format bindR new_format]. change (map (fun f => IDict (mkF (a_name f) (Some (SBool (a_applied f))) (a_stage f))) fs) with (map as_item fs).
  rewrite (parsed_items fs P). cbn [bindR]. intros [= <-]. split; [apply sort_key_perm|]. split; [apply sort_filters_order|]. intros st. unfold sort_filters. apply (sort_key_stable stage_key).
Qed.
Theorem C117_text_twice_refuted : exists l e l', NoDup (map a_name l) /\ from_dict l e = Ok l' /\ ~ NoDup (map a_name l').
Proof.
  exists [], (mkE None None None None (Some (LText (Some [IDict (mkF (txt "gain") (Some (SBool true)) (Some 1%Z)); IDict (mkF (txt "gain") (Some (SBool false)) (Some 2%Z))])))).
  eexists. split; [constructor|]. split; [reflexivity|]. intros N. inversion N as [|? ? NI _]. apply NI. left. reflexivity.
Qed.
Theorem C117_blank_text l : from_dict l (mkE None None None None (Some LBlank)) = Err ValueError.
Proof. reflexivity. Qed.
(** A flag in a dictionary does not change that of the filter that is there: to set it again is without effect *)
Theorem C117_flag_not_updated_refuted l f b : In f l -> numbered l -> NoDup (map a_name l) -> simple_name (a_name f) ->
  from_dict l (mkE (Some (FList [SBool b])) (Some (NList [a_name f])) None None None) = Ok l
  /\ from_dict l (mkE None None None None (Some (LItems [IDict (mkF (a_name f) (Some (SBool b)) (a_stage f))]))) = Ok l.
Proof.
  intros I N ND S. assert (J : In (a_name f) (map a_name l)) by (apply in_map; exact I). split.
  - destruct (C117_legacy_read l [b] [a_name f] (FList [SBool b]) (NList [a_name f]) N) as [H _]; [discriminate|reflexivity|constructor; [exact S|constructor]|apply GFlist; repeat constructor|apply GNlist|].
    unfold from_dict in *. rewrite H. cbn [combine news]. destruct (in_dec text_dec (a_name f) (map a_name l)) as [_|K]; [cbn [listed]; rewrite app_nil_r; reflexivity|contradiction].
  - unfold from_dict. cbn [e_filter_applied e_filter_name e_filtered_applied e_filtered_name e_filters old_format bindR new_format add_items]. unfold of_dict, make_applied. cbn [d_flag d_name d_stage to_bool bindR]. rewrite (plain_validate (a_name f)) by apply S. cbn [bindR].
    unfold add_object. cbn [a_name]. rewrite (proj2 (has_name_iff _ _) J). reflexivity.
Qed.
(** What a channel writes is read back by a new channel, and changes nothing in the same *)
Theorem C117_trip l : NoDup (map a_name l) -> Forall (fun f => plain_name (a_name f)) l ->
  (Forall (fun f => a_stage f <> None) l -> from_dict [] (written l) = Ok l) /\ from_dict l (written l) = Ok l.
Proof.
  intros N P. split.
  - intros S. change (from_dict [] (written l)) with (add_items [] (map as_item l)). rewrite trip_items; [reflexivity| |exact N]. rewrite Forall_forall in *. intros f I. split; auto.
  - change (from_dict l (written l)) with (add_items l (map as_item l)). apply again_items; [exact P|apply incl_refl].
Qed.
(** A dictionary of a new filter is added with the flag it says, and as applied if it says none *)
Theorem C117_one_dictionary l n flag b st : plain_name n -> ~ In n (map a_name l) -> match flag with Some v => says b v | None => b = true end ->
  from_dict l (mkE None None None None (Some (LItems [IDict (mkF n flag (Some st))]))) = Ok (l ++ [mkA n b (Some st)]).
Proof.
  intros P N F. unfold from_dict. cbn [e_filter_applied e_filter_name e_filtered_applied e_filtered_name e_filters old_format bindR new_format add_items]. unfold of_dict. cbn [d_flag d_name d_stage].
  assert (E : match flag with Some v => to_bool v | None => Ok true end = Ok b) by (destruct flag; [apply says_to_bool; exact F|rewrite F; reflexivity]). rewrite E. unfold make_applied. rewrite (plain_validate n P). cbn [bindR].
  unfold add_object. cbn [a_name]. rewrite (proj2 (has_name_false n l) N). reflexivity.
Qed.
(** Without one of the two entries nothing is added *)
Theorem C117_incomplete l fl nm : from_dict l (mkE (Some fl) None None None None) = Ok l /\ from_dict l (mkE None (Some nm) None None None) = Ok l /\ from_dict l (mkE None None (Some fl) None None) = Ok l /\ from_dict l (mkE None None None (Some nm) None) = Ok l.
Proof. repeat split. Qed.
(** Different numbers of names and flags are an error *)
Theorem C117_lengths l vs ns e4 e5 e6 : vs <> [] -> ns <> [] -> List.length vs <> List.length ns -> from_dict l (mkE (Some (FList vs)) (Some (NList ns)) e4 e5 e6) = Err TFError.
Proof.
  intros V NS L. unfold from_dict. cbn [e_filter_applied e_filter_name old_format read_flags read_names bindR]. destruct vs as [|v vs]; [congruence|]. destruct ns as [|n ns]; [congruence|]. cbn [map].
  replace (Nat.eqb _ _) with false; [reflexivity|]. symmetry. apply Nat.eqb_neq. cbn [List.length]. rewrite map_length. exact L.
Qed.
(** ... but none at all on one side is not: the other is dropped *)
Theorem C117_one_side_empty l vs ns : from_dict l (mkE (Some (FList [])) (Some (NList ns)) None None None) = Ok l /\ from_dict l (mkE (Some (FList vs)) (Some (NList [])) None None None) = Ok l.
Proof. split; [reflexivity|]. unfold from_dict. cbn. destruct vs; reflexivity. Qed.
(** "None" alone is False, but not in a list or in brackets *)
Theorem C117_none_alone l n : numbered l -> simple_name n -> ~ In n (map a_name l) ->
  from_dict l (mkE (Some (FText (txt "None"))) (Some (NList [n])) None None None) = Ok (l ++ [mkA n false (Some (Z.of_nat (S (List.length l))))])
  /\ from_dict l (mkE (Some (FText (txt "[None]"))) (Some (NList [n])) None None None) = Err ValueError
  /\ from_dict l (mkE (Some (FList [SNone])) (Some (NList [n])) None None None) = Err ValueError.
Proof.
  intros N S NI. unfold from_dict. cbn [e_filter_applied e_filter_name e_filtered_applied e_filtered_name e_filters old_format].
  replace (read_names (NList [n])) with (Ok [n]) by (cbn [read_names map]; rewrite (simple_kept n S); reflexivity).
  replace (read_flags (FText (txt "None"))) with (Ok [SBool false]) by reflexivity. replace (read_flags (FText (txt "[None]"))) with (Ok [SText (txt "none")]) by reflexivity.
  cbn [read_flags bindR List.length Nat.eqb combine add_all]. rewrite (proj2 (has_name_false n l) NI). cbn [bindR to_bool]. rewrite add_name_fresh by (assumption || apply S). split; [reflexivity|split; reflexivity].
Qed.

(** ** The hypotheses can be met *)
Definition two : list applied := [mkA (txt "dipole") true (Some 1%Z); mkA (txt "gain") false (Some 2%Z)].
Lemma simple_dec n : forallb (fun c => negb (is_upper c) && negb (Ascii.eqb c "/") && negb (Ascii.eqb c ",") && negb (is_space c)) n = true -> n <> [] -> simple_name n.
Proof.
  intros F NE. rewrite forallb_forall in F. assert (G : forall c, In c n -> is_upper c = false /\ c <> "/"%char /\ c <> ","%char /\ is_space c = false).
  { intros c I. specialize (F c I). rewrite !andb_true_iff, !negb_true_iff in F. destruct F as [[[A B] C] D]. repeat split; [exact A|intros ->; discriminate B|intros ->; discriminate C|exact D]. }
  split; [split; [destruct n as [|c n]; [congruence|exists c; split; [left; reflexivity|apply G; left; reflexivity]]|split; [intros I; apply G in I; tauto|intros c I; apply G; exact I]]|split; [|intros I; apply G in I; tauto]].
  split; intros c r E; apply G; rewrite E; [left; reflexivity|apply in_or_app; right; left; reflexivity].
Qed.
Ltac simples := repeat first [apply Forall_nil | apply Forall_cons; [apply simple_dec; [reflexivity|discriminate]|]].
Ltac distinct := repeat first [apply NoDup_nil | apply NoDup_cons; [cbn; let H := fresh in intros H; repeat (destruct H as [H|H]; [discriminate H|]); exact H|]].
Example C117_legacy_read_hyp : numbered two /\ [true; false] <> [] /\ Forall simple_name [txt "gain"; txt "lowpass_5hz"]
  /\ gives_flags [true; false] (FText (txt "[True, False]")) /\ gives_names [txt "gain"; txt "lowpass_5hz"] (NText (txt "gain, lowpass_5hz"))
  /\ from_dict two (mkE (Some (FText (txt "[True, False]"))) (Some (NText (txt "gain, lowpass_5hz"))) None None None) = Ok (two ++ [mkA (txt "lowpass_5hz") false (Some 3%Z)]).
Proof. split; [reflexivity|]. split; [discriminate|]. split; [simples|]. split; [exact (GFbrackets [true; false])|]. split; [exact (GNcommas [txt "gain"; txt "lowpass_5hz"])|reflexivity]. Qed.
Example C117_one_dictionary_hyp : plain_name (txt "a") /\ ~ In (txt "a") (map a_name two) /\ says false (SInt 0) /\ says true (SText (txt "Yes")) /\ gives_flags [true; false] (FList [SInt 1; SText (txt "OFF")]).
Proof.
  split; [assert (S : Forall simple_name [txt "a"]) by simples; inversion S as [|? ? H _]; apply H|]. split; [cbn; intuition discriminate|]. split; [constructor|]. split; [constructor; cbn; tauto|]. apply GFlist. repeat constructor; cbn; tauto.
Qed.
Example C117_legacy_new_hyp : numbered two /\ NoDup (map a_name two ++ [txt "a"; txt "b"]) /\ Forall simple_name [txt "a"; txt "b"] /\ gives_flags [false; true] (FText (txt "False, True")) /\ gives_names [txt "a"; txt "b"] (NList [txt "a"; txt "b"]).
Proof. split; [reflexivity|]. split; [distinct|]. split; [simples|]. split; [exact (GFcommas [false; true])|apply GNlist]. Qed.
Example C117_three_formats_hyp : numbered two /\ NoDup (map a_name two ++ [txt "a"] ++ [txt "b"] ++ map a_name [mkA (txt "c") true (Some 7%Z)]) /\ Forall simple_name [txt "a"] /\ Forall simple_name [txt "b"]
  /\ Forall (fun f => plain_name (a_name f) /\ a_stage f <> None) [mkA (txt "c") true (Some 7%Z)].
Proof. split; [reflexivity|]. split; [distinct|]. split; [simples|]. split; [simples|]. constructor; [split; [apply simple_dec; [reflexivity|discriminate]|discriminate]|constructor]. Qed.
Example C117_nothing_changes_hyp : filters_not_text (mkE (Some (FList [SBool true])) (Some (NList [txt "a"])) None None (Some (LItems [IOther]))).
Proof. intros p. discriminate. Qed.
Example C117_flag_not_updated_refuted_hyp : In (mkA (txt "gain") false (Some 2%Z)) two /\ numbered two /\ NoDup (map a_name two) /\ simple_name (txt "gain").
Proof. split; [right; left; reflexivity|]. split; [reflexivity|]. split; [distinct|apply simple_dec; [reflexivity|discriminate]]. Qed.
Example C117_text_read_hyp : Forall (fun f => plain_name (a_name f)) two /\ from_dict two (mkE None None None None (Some (LText (Some (map (fun f => IDict (mkF (a_name f) (Some (SBool (a_applied f))) (a_stage f))) (rev two)))))) = Ok two.
Proof. split; [|reflexivity]. repeat (constructor; [apply simple_dec; [reflexivity|discriminate]|]); constructor. Qed.
Example C117_trip_hyp : NoDup (map a_name two) /\ Forall (fun f => plain_name (a_name f)) two /\ Forall (fun f => a_stage f <> None) two.
Proof. split; [distinct|]. split; repeat (constructor; [first [discriminate|apply simple_dec; [reflexivity|discriminate]]|]); constructor. Qed.
Example C117_lengths_hyp : [SBool true] <> [] /\ [txt "a"; txt "b"] <> [] /\ List.length [SBool true] <> List.length [txt "a"; txt "b"].
Proof. repeat split; discriminate. Qed.
Example C117_none_alone_hyp : numbered two /\ simple_name (txt "a") /\ ~ In (txt "a") (map a_name two).
Proof. split; [reflexivity|]. split; [apply simple_dec; [reflexivity|discriminate]|]. cbn. intros H. repeat (destruct H as [H|H]; [discriminate H|]). exact H. Qed.

Print Assumptions C117_legacy_read.
Print Assumptions C117_legacy_new.
Print Assumptions C117_three_formats.
Print Assumptions C117_nothing_changes.
Print Assumptions C117_text_replaces_refuted.
Print Assumptions C117_flag_not_updated_refuted.
Print Assumptions C117_text_read.
Print Assumptions C117_text_twice_refuted.
Print Assumptions C117_blank_text.
Print Assumptions C117_trip.
Print Assumptions C117_incomplete.
Print Assumptions C117_lengths.
Print Assumptions C117_one_side_empty.
Print Assumptions C117_none_alone.
Print Assumptions C117_one_dictionary.
