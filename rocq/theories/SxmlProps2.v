(** C54, continued: authors, colons, commas, subjects. *)
From Verif Require Import PyBase PyFacts PyText TextFacts PyNum IsoModel IsoProofs PyFloat PyFloatFacts PyRepr PyReprFacts EdiProofs ValidatorsProofs LicenseData EnumModel EnumSpec EnumProofs EnumProps ZmmModel ZmmProofs SxmlModel SxmlSpec SxmlProofs SxmlChars SxmlProps.
Local Open Scope list_scope.

(** An author and comments are read back exactly; the comments can be any text. *)
Lemma trimmed_space a : trimmed a -> strip (" "%char :: a) = a.
Proof. intros T. pose proof (strip_pad [" "%char] a [] eq_refl eq_refl T) as E. rewrite app_nil_r in E. exact E. Qed.
Theorem C54_author a c : trimmed a -> trimmed c -> contains (txt "comments:") a = false ->
  comment_value (pairs_text [(txt "author", a); (txt "comments", c)]) = Ok (CDict [(txt "author", Some a); (txt "comments", Some c)]).
Proof.
  intros TA TC N.
  assert (E : pairs_text [(txt "author", a); (txt "comments", c)] = txt "author:" ++ " "%char :: a ++ ","%char :: " "%char :: txt "comments:" ++ " "%char :: c) by (unfold pairs_text; cbn [map join]; unfold pair_text; cbn [fst snd]; change (txt "author" ++ txt ": " ++ a) with (txt "author:" ++ " "%char :: a); rewrite <- app_assoc; reflexivity).
  unfold comment_value. change 21%nat with (S 20). generalize 20%nat as f. intros f. assert (HC : has_char ":" (pairs_text [(txt "author", a); (txt "comments", c)]) = true) by (apply pairs_text_colon; discriminate). rewrite HC, E. cbn [parse].
  assert (C1 : contains (txt "author:") (txt "author:" ++ " "%char :: a ++ ","%char :: " "%char :: txt "comments:" ++ " "%char :: c) = true) by (apply contains_spec; eexists [], _; reflexivity).
  assert (C2 : contains (txt "comments:") (txt "author:" ++ " "%char :: a ++ ","%char :: " "%char :: txt "comments:" ++ " "%char :: c) = true).
  { apply contains_spec. exists (txt "author:" ++ " "%char :: a ++ ","%char :: [" "%char]), (" "%char :: c). rewrite <- !app_assoc. cbn [app]. rewrite <- app_assoc. reflexivity. }
  rewrite C1, C2. cbn [andb]. unfold split1_str at 2. rewrite find_start. cbn [snd Nat.add]. change (skipn (List.length (txt "author:")) (txt "author:" ++ " "%char :: a ++ ","%char :: " "%char :: txt "comments:" ++ " "%char :: c)) with (" "%char :: a ++ ","%char :: " "%char :: txt "comments:" ++ " "%char :: c).
  assert (P1 : ~ In ","%char (txt "comments:")) by (intros I; vm_compute in I; repeat (destruct I as [I|I]; [discriminate I|]); exact I).
  assert (N2 : contains (txt "comments:") (" "%char :: a) = false) by (rewrite contains_cons, N; reflexivity).
  unfold split1_str. change (" "%char :: a ++ ","%char :: " "%char :: txt "comments:" ++ " "%char :: c) with ((" "%char :: a) ++ ","%char :: " "%char :: txt "comments:" ++ " "%char :: c).
  rewrite (find_sep (txt "comments:") (" "%char :: a) "," _ ltac:(discriminate) N2 P1).
  assert (F : find (txt "comments:") (" "%char :: txt "comments:" ++ " "%char :: c) = Some 1%nat).
  { change (" "%char :: txt "comments:" ++ " "%char :: c) with ([" "%char] ++ (txt "comments:" ++ " "%char :: c)). cbn [app find]. change (prefix_of (txt "comments:") (" "%char :: txt "comments:" ++ " "%char :: c)) with false. cbv iota. rewrite find_start. reflexivity. }
  rewrite F. set (n := (List.length (" "%char :: a) + 1 + 1)%nat).
  assert (L : (" "%char :: a) ++ ","%char :: " "%char :: txt "comments:" ++ " "%char :: c = ((" "%char :: a) ++ [","%char; " "%char]) ++ (txt "comments:" ++ " "%char :: c)) by (rewrite <- app_assoc; reflexivity).
  assert (LN : List.length ((" "%char :: a) ++ [","%char; " "%char]) = n) by (unfold n; rewrite app_length; cbn [List.length]; lia).
  rewrite L. rewrite firstn_app, LN, Nat.sub_diag, firstn_all2 by (rewrite LN; lia). cbn [firstn]. rewrite app_nil_r.
  rewrite skipn_app, LN. rewrite skipn_all2 by (rewrite LN; lia). cbn [app]. replace (n + List.length (txt "comments:") - n)%nat with (List.length (txt "comments:")) by lia.
  change (skipn (List.length (txt "comments:")) (txt "comments:" ++ " "%char :: c)) with (" "%char :: c). rewrite (trimmed_space c TC). cbn [bindR].
  assert (SA : strip (" "%char :: a ++ [","%char; " "%char]) = a ++ [","%char]).
  { pose proof (strip_pad [" "%char] (a ++ [","%char]) [" "%char] eq_refl eq_refl) as SP. rewrite <- app_assoc in SP. cbn [app] in SP. apply SP. split.
    - intros x r EX. destruct a as [|y a]; [injection EX as <- _; reflexivity|]. injection EX as <- _. exact (proj1 TA y a eq_refl).
    - intros x r EX. apply app_inj_tail in EX as [_ <-]. reflexivity. }
  cbn [app] in *. rewrite SA. unfold ends_comma. rewrite rev_app_distr. cbn [rev app]. rewrite Ascii.eqb_refl, removelast_last. reflexivity.
Qed.
(** An author whose name has "comments:" is cut. *)
Theorem C54_author_refuted : ~ (forall a c, trimmed a -> trimmed c -> comment_value (pairs_text [(txt "author", a); (txt "comments", c)]) = Ok (CDict [(txt "author", Some a); (txt "comments", Some c)])).
Proof. intros H. specialize (H (strip (txt "A, comments: b")) (strip (txt "c")) (trimmed_strip _) (trimmed_strip _)). vm_compute in H. discriminate H. Qed.
Example C54_author_hyp : trimmed (txt "Sam K.,") /\ trimmed (txt "see: notes, author: B") /\ contains (txt "comments:") (txt "Sam K.,") = false.
Proof. split; [exact (trimmed_strip (txt "Sam K.,"))|]. split; [exact (trimmed_strip (txt "see: notes, author: B"))|reflexivity]. Qed.
(** A value with ":" is cut there. *)
Theorem C54_colon_refuted k a b : good_key k -> word_like a -> ~ In ":"%char a -> ~ In ","%char a -> ~ In ","%char b -> contains (txt "author:") (pair_text (k, a ++ ":"%char :: b)) = false ->
  comment_value (pairs_text [(k, a ++ ":"%char :: b)]) = Ok (CDict [(k, Some a)]).
Proof.
  intros (WK & KC & KM) WA AC AM BM NA. unfold comment_value. change 21%nat with (S 20). generalize 20%nat as f. intros f. rewrite pairs_text_colon by discriminate. change (pairs_text [(k, a ++ ":"%char :: b)]) with (pair_text (k, a ++ ":"%char :: b)). cbn [parse]. rewrite NA. cbn [andb].
  rewrite pair_text_eq, (split1_app ":" k _ KC).
  change (" "%char :: a ++ ":"%char :: b) with ((" "%char :: a) ++ ":"%char :: b). rewrite (split1_app ":" (" "%char :: a)) by (intros [I|I]; [discriminate I|contradiction]).
  rewrite (split1_no ",") by (intros I; apply in_app_or in I as [[I|I]|[I|I]]; [discriminate I|contradiction|discriminate I|contradiction]).
  cbn [List.length]. change (0 <? S (List.length a))%nat with true. cbv iota. rewrite (strip_space a WA). reflexivity.
Qed.
Example C54_colon_hyp : comment_value (txt "url: https://x.org") = Ok (CDict [(txt "url", Some (txt "https"))]) /\ good_key (txt "url") /\ word_like (txt "https").
Proof. split; [reflexivity|]. split; [apply word_good; reflexivity|exact (proj1 (word_good (txt "https") eq_refl))]. Qed.
(** A value with "," before another pair is cut there; the rest of it becomes part of the next key. *)
Theorem C54_comma_refuted k a b k2 v : good_key k -> good_key a -> word_like b -> ~ In ":"%char b -> good_key k2 -> word_like v -> ~ In ":"%char v -> contains (txt "author:") (pairs_text [(k, a ++ ","%char :: b); (k2, v)]) = false ->
  k <> b ++ txt ", " ++ k2 -> comment_value (pairs_text [(k, a ++ ","%char :: b); (k2, v)]) = Ok (CDict [(k, Some a); (b ++ txt ", " ++ k2, Some v)]).
Proof.
  intros (WK & KC & KM) (WA & AC & AM) WB BC (WK2 & KC2 & KM2) WV VC NA NK. unfold comment_value. change 21%nat with (S (S 19)). generalize 19%nat as f. intros f. rewrite pairs_text_colon by discriminate. remember (S f) as f1 eqn:F1. cbn [parse]. rewrite NA. cbn [andb].
  assert (E : pairs_text [(k, a ++ ","%char :: b); (k2, v)] = k ++ ":"%char :: (" "%char :: a) ++ ","%char :: (b ++ txt ", " ++ k2) ++ ":"%char :: " "%char :: v).
  { unfold pairs_text. cbn [map join]. rewrite !pair_text_eq. rewrite <- !app_assoc. cbn [app]. rewrite <- !app_assoc. cbn [app]. reflexivity. }
  assert (NA2 : contains (txt "author:") ((b ++ txt ", " ++ k2) ++ ":"%char :: " "%char :: v) = false).
  { destruct (contains (txt "author:") ((b ++ txt ", " ++ k2) ++ ":"%char :: " "%char :: v)) eqn:C; [|reflexivity]. apply contains_spec in C as (x & y & C). rewrite E in NA. rewrite <- not_true_iff_false in NA. exfalso. apply NA. apply contains_spec. rewrite C. exists (k ++ ":"%char :: (" "%char :: a) ++ ","%char :: x), y. rewrite <- !app_assoc. cbn [app]. rewrite <- !app_assoc. cbn [app]. reflexivity. }
  assert (NKC : ~ In ":"%char (b ++ txt ", " ++ k2)) by (intros I; apply in_app_or in I as [I|I]; [contradiction|]; apply in_app_or in I as [I|I]; [vm_compute in I; repeat (destruct I as [I|I]; [discriminate I|]); exact I|contradiction]).
  rewrite E, (split1_app ":" k _ KC). set (key2 := b ++ txt ", " ++ k2) in *.
  assert (E2 : (" "%char :: a) ++ ","%char :: key2 ++ ":"%char :: " "%char :: v = (" "%char :: a ++ ","%char :: key2) ++ ":"%char :: " "%char :: v) by (cbn [app]; rewrite <- app_assoc; reflexivity).
  rewrite E2 at 1. rewrite split1_app by (intros [I|I]; [discriminate I|]; apply in_app_or in I as [I|[I|I]]; [contradiction|discriminate I|contradiction]).
  rewrite (split1_app "," (" "%char :: a)) by (intros [I|I]; [discriminate I|contradiction]).
  assert (LT : (List.length (" "%char :: a ++ ","%char :: key2) <? List.length (" "%char :: a))%nat = false) by (apply Nat.ltb_ge; cbn [List.length]; rewrite app_length; lia). rewrite LT.
  rewrite (strip_space a WA). assert (ST : strip (key2 ++ ":"%char :: " "%char :: v) = key2 ++ ":"%char :: " "%char :: v).
  { apply strip_trimmed. split.
    - intros x r EX. destruct WB as (NB & B1 & _). unfold key2 in EX. destruct b as [|y b]; [congruence|]. injection EX as <- _. exact (B1 y b eq_refl).
    - intros x r EX. destruct WV as (NV & _ & V1). destruct (exists_last NV) as (v' & y & EV). rewrite EV in EX. assert (x = y) as ->.
      { change (":"%char :: " "%char :: v' ++ [y]) with ((":"%char :: " "%char :: v') ++ [y]) in EX. rewrite app_assoc in EX. apply app_inj_tail in EX as [_ EX]. symmetry. exact EX. }
      exact (V1 v' y EV). }
  rewrite ST, F1. cbn [parse]. rewrite NA2. cbn [andb]. rewrite (split1_app ":" key2 _ NKC). rewrite (split1_no ":" (" "%char :: v)) by (intros [I|I]; [discriminate I|contradiction]).
  rewrite (strip_space v WV). cbn [dset]. destruct (text_dec key2 k); [congruence|]. destruct (text_dec k key2); [congruence|]. reflexivity.
Qed.
Example C54_comma_hyp : comment_value (pairs_text [(txt "name", txt "Kelly,Sam"); (txt "x", txt "1")]) = Ok (CDict [(txt "name", Some (txt "Kelly")); (txt "Sam, x", Some (txt "1"))]).
Proof. reflexivity. Qed.
(** Text is kept exactly when it has no ":". *)
Theorem C54_text v : comment_value v = Ok (CText v) <-> ~ In ":"%char v.
Proof.
  rewrite <- has_char_notIn. unfold comment_value. generalize 21%nat as f. intros f. destruct (has_char ":" v); [|split; reflexivity]. split; [|discriminate]. intros H. exfalso. destruct (parse f v []); cbn [bindR] in H; discriminate H.
Qed.
(** Subjects are read in lower case with "_" for blanks; other subjects are kept. *)
Theorem C54_subject s : comment_key (Some s) = s <-> (existsb is_upper s = false /\ ~ In " "%char s /\ trimmed s).
Proof.
  cbn [comment_key]. split.
  - intros E. assert (NU : existsb is_upper s = false) by (rewrite <- E; apply lower_no_upper). assert (NS : ~ In " "%char s).
    { rewrite <- E. intros I. unfold lower in I. apply in_map_iff in I as (c & LC & I).
      assert (C : c = " "%char).
      { pose proof (ascii_forall (fun c => implb (Ascii.eqb (to_lower c) " ") (Ascii.eqb c " ")) eq_refl c) as F. cbn beta in F. rewrite LC, Ascii.eqb_refl in F. cbn [implb] in F. apply Ascii.eqb_eq in F. exact F. }
      subst c. revert I. apply replace_char_out. intros [I|[]]. discriminate I. }
    split; [exact NU|]. split; [exact NS|]. assert (L : List.length (strip s) = List.length s).
    { rewrite <- E at 2. unfold lower. rewrite map_length. change (txt "_") with ["_"%char]. rewrite replace_char_map, map_length. reflexivity. }
    assert (SE : strip s = s). { unfold strip in *. destruct (lstrip_decomp s) as (p & P & _). destruct (rstrip_decomp (lstrip s)) as (q & Q0 & _). assert (LE : List.length s = (List.length p + List.length (lstrip s))%nat) by (rewrite P at 1; apply app_length). assert (LR : List.length (lstrip s) = (List.length (rstrip (lstrip s)) + List.length q)%nat) by (rewrite Q0 at 1; apply app_length).
      assert (p = []) as -> by (destruct p; [reflexivity|cbn [List.length] in LE; lia]). assert (q = []) as -> by (destruct q; [reflexivity|cbn [List.length] in LR; lia]). rewrite app_nil_r in Q0. rewrite <- Q0. symmetry. exact P. }
    rewrite <- SE. apply trimmed_strip.
  - intros (NU & NS & T). rewrite (strip_trimmed s T), (replace_char_absent _ _ s NS). apply lower_fixed. exact NU.
Qed.
