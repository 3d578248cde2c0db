(** Proofs for C59. *)
From Coq Require Import Permutation.
From Verif Require Import PyBase PyFacts PyText TextFacts PyNum PyFloat PyFloatFacts PyRepr PyReprFacts ZmmModel ZmmProofs JfileModel JfileData ValidatorsModel ValidatorsProofs SxmlChars PySci PySciFacts EdiMetaModel EdiMetaSpec EdiMeasProofs EdiMeasFile SchemaModel SchemaSpec.
Local Open Scope list_scope.

(** ** Validation of good entries *)
Lemma type_stable t : In t the_types -> validate_type t = Ok t /\ text_eqb t (txt "h5py_reference") = false.
Proof. unfold the_types. cbn [map]. intros I. repeat (destruct I as [<-|I]; [split; vm_compute; reflexivity|]). contradiction I. Qed.
Lemma style_stable s : In s the_styles -> validate_style (Some s) = Ok s.
Proof. unfold the_styles. cbn [map]. intros I. repeat (destruct I as [<-|I]; [vm_compute; reflexivity|]). contradiction I. Qed.
Lemma style_list s : In s the_styles -> contains (txt "list") s = if in_dec text_dec s list_styles then true else false.
Proof. unfold the_styles. cbn [map]. intros I. repeat (destruct I as [<-|I]; [vm_compute; reflexivity|]). contradiction I. Qed.
Lemma style_date s : In s the_styles -> has_date s = if in_dec text_dec s date_styles then true else false.
Proof. unfold the_styles. cbn [map]. intros I. repeat (destruct I as [<-|I]; [vm_compute; reflexivity|]). contradiction I. Qed.
(** The text of a value, validated again. *)
Lemma str_none z : existsb (text_eqb (show_int z)) [txt "None"; txt "none"; txt "unknown"] = false.
Proof.
  apply not_true_iff_false. intros E. apply existsb_exists in E as (x & I & E). apply text_eqb_eq in E. pose proof (show_int_chars z) as C. rewrite E in C. cbn [In] in I. repeat (destruct I as [<-|I]; [discriminate C|]). exact I.
Qed.
Lemma lower_num s : forallb num_char s = true -> lower s = s.
Proof.
  intros F. unfold lower. rewrite <- (map_id s) at 2. apply map_ext_in. intros c I. rewrite forallb_forall in F. specialize (F c I).
  assert (G : implb (num_char c) (Ascii.eqb (to_lower c) c) = true) by (clear; revert c; apply ascii_forall; vm_compute; reflexivity). rewrite F in G. apply Ascii.eqb_eq in G. exact G.
Qed.
Lemma int_again z s : In s the_styles -> ~ In s list_styles -> validate_value_type (CText (show_int z)) (txt "integer") s = Ok (CInt z).
Proof.
  intros I N. unfold validate_value_type. cbn [no_value]. rewrite str_none. change (text_eqb (txt "integer") (txt "h5py_reference")) with false. change (validate_type (txt "integer")) with (Ok (txt "integer")). cbn [bindR].
  change (text_eqb (txt "integer") (txt "h5py_reference")) with false. rewrite (style_list s I). destruct (in_dec _ _ _); [contradiction|]. unfold convert; cbv beta zeta iota.
  change (text_eqb (txt "integer") (txt "object")) with false. change (text_eqb (txt "integer") (txt "string")) with false. change (text_eqb (txt "integer") (txt "integer")) with true. cbv iota.
  rewrite (lower_num _ (show_int_chars z)), (read_int_show z).
  assert (E : existsb (text_eqb (show_int z)) [txt "none"; txt "nan"; []] = false); [|rewrite E; reflexivity].
  apply not_true_iff_false. intros E. apply existsb_exists in E as (x & J & E). apply text_eqb_eq in E. cbn [In] in J. pose proof (show_int_chars z) as C. destruct J as [<-|[<-|[<-|[]]]]; [rewrite E in C; discriminate C|rewrite E in C; discriminate C|].
  pose proof (read_int_show z) as R. rewrite E in R. discriminate R.
Qed.
Lemma bool_again b s : In s the_styles -> ~ In s list_styles -> validate_value_type (CText (str (CBool b))) (txt "boolean") s = Ok (CBool b).
Proof.
  intros I N. unfold validate_value_type. replace (no_value (CText (str (CBool b)))) with false by (destruct b; reflexivity). change (text_eqb (txt "boolean") (txt "h5py_reference")) with false. change (validate_type (txt "boolean")) with (Ok (txt "boolean")). cbn [bindR].
  change (text_eqb (txt "boolean") (txt "h5py_reference")) with false. rewrite (style_list s I). destruct (in_dec _ _ _); [contradiction|]. destruct b; reflexivity.
Qed.
Lemma text_again x s : In s the_styles -> ~ In s list_styles -> ~ In x [txt "None"; txt "none"; txt "unknown"] -> validate_value_type (CText x) (txt "string") s = Ok (CText x).
Proof.
  intros I N NV. unfold validate_value_type. cbn [no_value]. assert (E : existsb (text_eqb x) [txt "None"; txt "none"; txt "unknown"] = false).
  { apply not_true_iff_false. intros E. apply existsb_exists in E as (y & J & E). apply text_eqb_eq in E. subst y. exact (NV J). }
  rewrite E. change (text_eqb (txt "string") (txt "h5py_reference")) with false. change (validate_type (txt "string")) with (Ok (txt "string")). cbn [bindR].
  change (text_eqb (txt "string") (txt "h5py_reference")) with false. rewrite (style_list s I). destruct (in_dec _ _ _); [contradiction|]. reflexivity.
Qed.
Lemma is_decimal_decimal q : is_decimal q -> decimal q.
Proof. intros H. exact H. Qed.
Lemma float_again q s : In s the_styles -> ~ In s list_styles -> (exists (m e : Z), q == inject_Z m * Qpower (10 # 1) e)%Q -> exists q', validate_value_type (CText (show_float q)) (txt "float") s = Ok (CFloat q') /\ (q == q')%Q.
Proof.
  intros I N D. unfold validate_value_type. cbn [no_value]. assert (E : existsb (text_eqb (show_float q)) [txt "None"; txt "none"; txt "unknown"] = false).
  { apply not_true_iff_false. intros E. apply existsb_exists in E as (y & J & E). apply text_eqb_eq in E. pose proof (show_float_sci q) as C. rewrite E in C. cbn [In] in J. repeat (destruct J as [<-|J]; [discriminate C|]). exact J. }
  rewrite E. change (text_eqb (txt "float") (txt "h5py_reference")) with false. change (validate_type (txt "float")) with (Ok (txt "float")). cbn [bindR].
  change (text_eqb (txt "float") (txt "h5py_reference")) with false. rewrite (style_list s I). destruct (in_dec _ _ _); [contradiction|]. unfold convert; cbv beta zeta iota.
  change (text_eqb (txt "float") (txt "object")) with false. change (text_eqb (txt "float") (txt "string")) with false. change (text_eqb (txt "float") (txt "integer")) with false. change (text_eqb (txt "float") (txt "float")) with true. cbv iota.
  destruct (read_show_float q (is_decimal_decimal q D)) as (q' & R & Q). cbn [float_of]. rewrite R. cbn [bindR]. exists q'. split; [reflexivity|]. symmetry. exact Q.
Qed.
(** The default, validated as it is and from its text. *)
Lemma default_stable r t s x o : In s the_styles -> default_of r t s x -> validate_default r t s o x = Ok x.
Proof.
  intros I D. destruct D as [t s N|t s N|s z N|s q N Q|s b N|s x N NE F NV]; cbn [validate_default].
  - rewrite (style_date s I). destruct (in_dec _ _ _); [contradiction|reflexivity].
  - rewrite (style_date s I). destruct (in_dec _ _ _); [reflexivity|contradiction].
  - reflexivity.
  - reflexivity.
  - reflexivity.
  - apply text_again; assumption.
Qed.
Lemma default_again r t s x o : In s the_styles -> default_of r t s x -> exists x', validate_default r t s o (CText (csv_cell x)) = Ok x' /\ same_cell x x' /\ default_of r t s x'.
Proof.
  intros I D. destruct D as [t s N|t s N|s z N|s q N Q|s b N|s x N NE F NV]; cbn [validate_default].
  - exists CNone. rewrite (style_date s I). destruct (in_dec _ _ _); [contradiction|]. split; [reflexivity|split; [reflexivity|constructor; exact N]].
  - exists (CText date_default). rewrite (style_date s I). destruct (in_dec _ _ _); [|contradiction]. split; [reflexivity|split; [reflexivity|constructor; exact N]].
  - exists (CInt z). split; [apply int_again; assumption|split; [reflexivity|constructor; exact N]].
  - destruct (float_again q s I N Q) as (q' & E & EQ). exists (CFloat q'). split; [exact E|split; [exact EQ|]]. constructor; [exact N|]. destruct Q as (m & e & Q). exists m, e. rewrite <- EQ. exact Q.
  - exists (CBool b). split; [apply bool_again; assumption|split; [reflexivity|constructor; exact N]].
  - exists (CText x). split; [apply text_again; assumption|split; [reflexivity|constructor; assumption]].
Qed.
Lemma units_stable w : lower w = w -> ~ In w [txt "none"; txt "empty"; []] -> validate_units (Some w) = Ok (Some w).
Proof.
  intros L N. unfold validate_units. rewrite L. destruct (existsb _ _) eqn:E; [|reflexivity]. apply existsb_exists in E as (y & J & E). apply text_eqb_eq in E. subst y. contradiction.
Qed.
Lemma entry_stable v : good_entry v -> validate_entry v = Ok v.
Proof.
  intros [t r u s d e x T S D E X U]. unfold validate_entry. cbn [v_type v_required v_units v_style v_description v_options v_alias v_example v_default check_type check_required check_style check_description check_options check_example map str].
  rewrite (proj1 (type_stable t T)), (style_stable s S). cbn [bindR]. assert (EU : check_units u = Ok u) by (destruct U as [->|(w & -> & L & _ & N)]; [reflexivity|cbn [check_units]; rewrite (units_stable w L N); reflexivity]). rewrite EU. cbn [bindR]. rewrite (default_stable r t s x [] S X). reflexivity.
Qed.
Definition csv_entry (v : entry) : entry :=
  mkV (CText (csv_cell (v_type v))) (CText (csv_cell (v_required v))) (CText (csv_cell (v_units v))) (CText (csv_cell (v_style v))) (CText (csv_cell (v_description v)))
      (CText (csv_cell (v_options v))) (CText (csv_cell (v_alias v))) (CText (csv_cell (v_example v))) (CText (csv_cell (v_default v))).
Lemma units_again u : (u = CNone \/ exists w, u = CText w /\ lower w = w /\ field_text w /\ ~ In w [txt "none"; txt "empty"; []]) -> check_units (CText (csv_cell u)) = Ok u.
Proof. intros [->|(w & -> & L & _ & N)]; [reflexivity|]. cbn [csv_cell str check_units]. rewrite (units_stable w L N). reflexivity. Qed.
Lemma entry_again v : good_entry v -> exists v', validate_entry (csv_entry v) = Ok v' /\ same_entry v v' /\ good_entry v'.
Proof.
  intros [t r u s d e x T S D E X U]. destruct (default_again r t s x [] S X) as (x' & EX & SX & DX). exists (mkV (CText t) (CBool r) u (CText s) (CText d) (CList []) (CList []) (CText e) x'). split; [|split].
  - unfold validate_entry, csv_entry. cbn [v_type v_required v_units v_style v_description v_options v_alias v_example v_default]. rewrite (units_again u U). cbn [csv_cell str check_type check_style check_description check_example bindR]. rewrite (proj1 (type_stable t T)), (style_stable s S). cbn [bindR].
    assert (ER : check_required (CText (repr (CBool r))) = Ok (CBool r)) by (destruct r; reflexivity). rewrite ER. cbn [bindR].
    change (check_options (CText (txt "None"))) with (Ok (CList [])). cbn [bindR]. rewrite EX. reflexivity.
  - repeat (split; [reflexivity|]). exact SX.
  - constructor; assumption.
Qed.
Lemma same_refl v : same_entry v v.
Proof. repeat (split; [reflexivity|]). destruct (v_default v); reflexivity. Qed.

(** ** Lines *)
Lemma split_max_join n c : forall l1 l2, List.length l1 = n -> l2 <> [] -> (forall w, In w l1 -> ~ In c w) -> split_max n c (join [c] (l1 ++ l2)) = l1 ++ [join [c] l2].
Proof.
  induction n as [|n IH]; intros l1 l2 L N H; destruct l1 as [|w l1]; cbn [List.length] in L; try discriminate L; [reflexivity|].
  cbn [app]. assert (J : join [c] (w :: l1 ++ l2) = w ++ c :: join [c] (l1 ++ l2)). { destruct (l1 ++ l2) as [|w2 r] eqn:E; [destruct l1; [cbn [app] in E; contradiction|discriminate E]|]. rewrite join_cons2. reflexivity. }
  rewrite J. cbn [split_max]. rewrite (split1_app c w _ (H w (or_introl eq_refl))). rewrite IH; [reflexivity|lia|exact N|]. intros x I. apply H. right. exact I.
Qed.
Lemma split_max_cells n c l : List.length l = S n -> (forall w, In w l -> ~ In c w) -> split_max n c (join [c] l) = l.
Proof.
  intros L H. destruct (exists_last (l := l)) as (l1 & x & ->); [intros ->; discriminate L|]. rewrite app_length in L. cbn [List.length] in L. rewrite (split_max_join n c l1 [x]); [reflexivity|lia|discriminate|]. intros w I. apply H. apply in_or_app. left. exact I.
Qed.
Lemma trimmed_ends sep a l b : trimmed a -> a <> [] -> trimmed b -> b <> [] -> trimmed (join sep (a :: l ++ [b])).
Proof.
  intros A NA B NB. assert (E : exists m, join sep (a :: l ++ [b]) = a ++ m ++ b).
  { revert a A NA. induction l as [|x l IH]; intros a A NA; [exists sep; cbn [app]; rewrite join_cons2; reflexivity|]. cbn [app]. rewrite join_cons2.
    assert (X : exists m, join sep (x :: l ++ [b]) = m ++ b). { clear. revert x. induction l as [|y l IH]; intros x; [exists (x ++ sep); cbn [app]; rewrite join_cons2, <- app_assoc; reflexivity|]. cbn [app]. rewrite join_cons2. destruct (IH y) as (m & ->). exists (x ++ sep ++ m). rewrite <- !app_assoc. reflexivity. }
    destruct X as (m & ->). exists (sep ++ m). rewrite <- !app_assoc. reflexivity. }
  destruct E as (m & ->). apply trimmed_app3; assumption.
Qed.
Lemma readlines_last ls : forall l, (forall x, In x (l :: ls) -> ~ In nl x) -> (forall x, last (l :: ls) [] = x -> x <> []) -> readlines (join [nl] (l :: ls)) = map (fun x => x ++ [nl]) (removelast (l :: ls)) ++ [last (l :: ls) []].
Proof.
  induction ls as [|l2 ls IH]; intros l H NE.
  - cbn [join removelast map app last]. unfold readlines. assert (G : forall x cur, ~ In nl x -> rev cur ++ x <> [] -> readlines_from cur x = [rev cur ++ x]).
    { clear. induction x as [|c x IH]; intros cur N E; [rewrite app_nil_r in *; cbn [readlines_from]; destruct cur; [contradiction E; reflexivity|reflexivity]|]. cbn [readlines_from]. destruct (Ascii.eqb_spec c nl) as [->|D]; [exfalso; apply N; left; reflexivity|].
      rewrite IH; cbn [rev]; rewrite <- ?app_assoc; [reflexivity|intros I; apply N; right; exact I|]. cbn [app]. intros X. apply app_eq_nil in X as [_ X]. discriminate X. }
    rewrite G; [reflexivity|apply H; left; reflexivity|]. cbn [rev app]. apply NE. reflexivity.
  - rewrite join_cons2. cbn [app]. unfold readlines. rewrite (readlines_from_line l [] _ (H l (or_introl eq_refl))). cbn [rev app]. fold (readlines (join [nl] (l2 :: ls))). rewrite IH; [reflexivity|intros x I; apply H; right; exact I|exact NE].
Qed.
(** The cells of a row. *)
Definition cells (k : text) (v : entry) : list text :=
  k :: map csv_cell [v_type v; v_required v; v_units v; v_style v; v_description v; v_options v; v_alias v; v_example v; v_default v].
Lemma good_cells v w : good_entry v -> In w (tl (cells [] v)) -> field_text w.
Proof.
  intros [t r u s d e x T S D E X U] I. cbn [cells tl map v_type v_required v_units v_style v_description v_options v_alias v_example v_default] in I.
  assert (F : forall w0 : text, (forallb (fun c => negb (Ascii.eqb c ",") && negb (Ascii.eqb c nl)) w0 && text_eqb (strip w0) w0)%bool = true -> field_text w0).
  { clear. intros w0 H. apply andb_prop in H as [H T]. apply text_eqb_eq in T. rewrite forallb_forall in H. split; [rewrite <- T; apply trimmed_strip|]. split; intros I; specialize (H _ I); discriminate H. }
  assert (W : forall w0 : text, forallb sci_char w0 = true -> field_text w0).
  { clear. intros w0 H. split; [|split; intros I; rewrite forallb_forall in H; specialize (H _ I); discriminate H]. rewrite forallb_forall in H.
    assert (NS : forall c, In c w0 -> is_space c = false). { intros c I. specialize (H c I). assert (G : implb (sci_char c) (negb (is_space c)) = true) by (clear; revert c; apply ascii_forall; vm_compute; reflexivity). rewrite H in G. apply negb_true_iff in G. exact G. }
    split; intros c l ->; apply NS; [left; reflexivity|apply in_or_app; right; left; reflexivity]. }
  destruct I as [<-|[<-|[<-|[<-|[<-|[<-|[<-|[<-|[<-|[]]]]]]]]]].
  - apply F. unfold the_types in T. cbn [map] in T. repeat (destruct T as [<-|T]; [vm_compute; reflexivity|]). contradiction T.
  - apply F. destruct r; vm_compute; reflexivity.
  - destruct U as [->|(w0 & -> & _ & FT & _)]; [apply F; vm_compute; reflexivity|exact FT].
  - apply F. unfold the_styles in S. cbn [map] in S. repeat (destruct S as [<-|S]; [vm_compute; reflexivity|]). contradiction S.
  - exact D.
  - apply F. vm_compute. reflexivity.
  - apply F. vm_compute. reflexivity.
  - exact E.
  - destruct X as [t0 s0 N|t0 s0 N|s0 z N|s0 q N Q|s0 b N|s0 x N NE FX NV]; [apply F; vm_compute; reflexivity|apply F; vm_compute; reflexivity|apply W|apply W| |exact FX].
    + cbn [csv_cell str repr]. pose proof (show_int_chars z) as C. rewrite forallb_forall in *. intros c I. specialize (C c I). assert (G : implb (num_char c) (sci_char c) = true) by (clear; revert c; apply ascii_forall; vm_compute; reflexivity). rewrite C in G. exact G.
    + apply show_float_sci.
    + apply F. destruct b; vm_compute; reflexivity.
Qed.
Lemma default_cell_ne v : good_entry v -> csv_cell (v_default v) <> [].
Proof.
  intros [t r u s d e x T S D E X U]. cbn [v_default]. destruct X as [t0 s0 N|t0 s0 N|s0 z N|s0 q N Q|s0 b N|s0 x N NE FX NV]; [discriminate|discriminate| | | |].
  - intros H. cbn [csv_cell str repr] in H. pose proof (read_int_show z) as R. rewrite H in R. discriminate R.
  - apply show_float_ne. exact (is_decimal_decimal q Q).
  - destruct b; discriminate.
  - exact NE.
Qed.
Lemma attribute_ok k : attribute_name k -> validate_attribute k = Ok k.
Proof.
  intros (NE & F & NS & NU & ND). unfold validate_attribute. assert (D : starts_with_digit k = false) by (destruct k as [|c k]; [contradiction|exact (ND c k eq_refl)]). rewrite D. rewrite (proj2 (has_char_notIn "/" k) NS).
  assert (U : existsb is_upper k = false); [|rewrite U; reflexivity]. apply not_true_iff_false. intros X. apply existsb_exists in X as (c & I & X). rewrite (NU c I) in X. discriminate X.
Qed.
Lemma row_eq k v : csv_row k v = join [","%char] (cells k v).
Proof. reflexivity. Qed.
Lemma map_strip_id l : (forall w, In w l -> trimmed w) -> map strip l = l.
Proof. intros H. rewrite <- (map_id l) at 2. apply map_ext_in. intros w I. apply strip_trimmed. exact (H w I). Qed.
Lemma row_attribute (a t r u s d o al e x : text) : dget text_dec (txt "attribute") (combine required_keys [a; t; r; u; s; d; o; al; e; x]) = Some a.
Proof. reflexivity. Qed.
Lemma entry_of_row (a t r u s d o al e x : text) : entry_of (combine required_keys [a; t; r; u; s; d; o; al; e; x]) = Ok (mkV (CText t) (CText r) (CText u) (CText s) (CText d) (CText o) (CText al) (CText e) (CText x)).
Proof. reflexivity. Qed.
Lemma read_row_ok k v e : attribute_name k -> good_entry v -> e = [] \/ e = [nl] -> exists v', read_row required_keys (csv_row k v ++ e) = Ok (k, v') /\ same_entry v v' /\ good_entry v'.
Proof.
  intros K G EE. destruct (entry_again v G) as (v' & EV & SV & GV). exists v'. split; [|split; assumption]. unfold read_row.
  assert (FC : forall w, In w (cells k v) -> field_text w). { intros w [<-|I]; [exact (proj1 (proj2 K))|]. exact (good_cells v w G I). }
  assert (TR : trimmed (csv_row k v)).
  { rewrite row_eq. unfold cells. cbn [map]. apply (trimmed_ends [","%char] k [_; _; _; _; _; _; _; _] _); [apply FC; left; reflexivity|exact (proj1 K)|apply FC; do 9 right; left; reflexivity|apply default_cell_ne; exact G]. }
  assert (ST : strip (csv_row k v ++ e) = csv_row k v). { rewrite <- (app_nil_l (csv_row k v ++ e)). apply strip_pad; [reflexivity|destruct EE as [->| ->]; reflexivity|exact TR]. }
  rewrite ST, row_eq. change (List.length required_keys - 1)%nat with 9%nat. rewrite (split_max_cells 9 ","%char (cells k v) eq_refl) by (intros w I; apply FC; exact I). rewrite map_strip_id by (intros w I; apply FC; exact I).
  unfold cells. cbn [map]. rewrite row_attribute. rewrite (attribute_ok k K). cbn [bindR]. rewrite entry_of_row. cbn [bindR]. unfold csv_entry in EV. rewrite EV. reflexivity.
Qed.
