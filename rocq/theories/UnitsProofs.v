From Verif Require Import PyBase PyFacts PyText TextFacts ValidatorsProofs UnitsModel UnitsSpec.

Lemma find_skip p w t :
  (forall c r, p = c :: r -> ~ In c w) -> p <> [] -> find p (w ++ t) = option_map (Nat.add (length w)) (find p t).
Proof.
  intros H NE. induction w as [|x w IH]; simpl.
  - destruct (find p t); reflexivity.
  - destruct p as [|c p]; [congruence|]. simpl prefix_of.
    destruct (Ascii.eqb_spec c x) as [->|n]; [exfalso; eapply H; [reflexivity|now left]|]. simpl.
    rewrite IH by (intros c' r E Hin; eapply H; [exact E|now right]).
    destruct (find (c :: p) t); reflexivity.
Qed.

Lemma find_zero p t : prefix_of p t = true -> find p t = Some 0.
Proof. intros H. destruct t; simpl; now rewrite H. Qed.

Lemma find_pos p t : prefix_of p t = false -> find p t = None \/ exists k, find p t = Some (S k).
Proof.
  intros H. destruct t as [|c t]; simpl; rewrite H; [now left|].
  destruct (find p t); simpl; eauto.
Qed.

Definition shift (n : nat) (o : option (nat * usep)) := option_map (fun p => (n + fst p, snd p)) o.

Lemma better_shift n a b : better (shift n a) (shift n b) = shift n (better a b).
Proof.
  destruct a as [[i s]|], b as [[j s']|]; try reflexivity. unfold better, shift; simpl.
  replace (n + j <? n + i) with (j <? i); [destruct (j <? i); reflexivity|].
  destruct (Nat.ltb_spec j i), (Nat.ltb_spec (n + j) (n + i)); auto; lia.
Qed.

Lemma find_separator_skip w t :
  ~ In "/"%char w -> ~ In " "%char w -> find_separator (w ++ t) = shift (length w) (find_separator t).
Proof.
  intros H1 H2. unfold find_separator.
  assert (forall s, at_sep s (w ++ t) = shift (length w) (at_sep s t)) as E.
  { intros s. unfold at_sep. rewrite find_skip.
    - destruct (find (sep_text s) t); reflexivity.
    - destruct s; simpl; intros c r E; injection E as <- _; assumption.
    - destruct s; discriminate. }
  now rewrite !E, !better_shift.
Qed.

Lemma find_separator_slash t : find_separator (txt "/" ++ t) = Some (0, Slash).
Proof.
  unfold find_separator, at_sep. rewrite (find_zero (sep_text Slash)) by reflexivity.
  destruct (find (sep_text Per) _) as [[|k]|] eqn:E1, (find (sep_text Space) _) as [[|k']|] eqn:E2; reflexivity.
Qed.

Lemma find_separator_per t : find_separator (txt " per " ++ t) = Some (0, Per).
Proof.
  unfold find_separator, at_sep.
  rewrite (find_zero (sep_text Per)), (find_zero (sep_text Space)) by reflexivity.
  destruct (find_pos (sep_text Slash) (txt " per " ++ t)) as [->|[k ->]]; reflexivity.
Qed.

Lemma find_separator_blank t :
  prefix_of (txt "per ") t = false -> find_separator (" "%char :: t) = Some (0, Space).
Proof.
  intros H. unfold find_separator, at_sep.
  rewrite (find_zero (sep_text Space)) by reflexivity.
  assert (H1 : prefix_of (sep_text Slash) (" "%char :: t) = false) by reflexivity.
  assert (H2 : prefix_of (sep_text Per) (" "%char :: t) = false) by exact H.
  destruct (find_pos _ _ H1) as [->|[k ->]], (find_pos _ _ H2) as [->|[k' ->]]; try reflexivity.
  cbn [option_map better]. now destruct (S k' <? S k).
Qed.

Lemma find_separator_none t : ~ In "/"%char t -> ~ In " "%char t -> find_separator t = None.
Proof.
  intros H1 H2. rewrite <- (app_nil_r t). rewrite find_separator_skip by assumption. reflexivity.
Qed.

(** *** Words *)
Lemma word_facts w :
  is_word w = true ->
  w <> [] /\ (forall c, In c w -> is_space c = false) /\ ~ In "/"%char w /\ ~ In " "%char w /\
  ~ In "["%char w /\ ~ In "]"%char w /\ w <> txt "per".
Proof.
  unfold is_word. rewrite !andb_true_iff, forallb_forall, negb_true_iff. intros [[H1 H2] H3].
  assert (forall c, In c w -> is_space c = false /\ c <> "/"%char /\ c <> "["%char /\ c <> "]"%char) as G.
  { intros c Hc. specialize (H2 c Hc). unfold word_char in H2.
    rewrite negb_true_iff, !orb_false_iff in H2. destruct H2 as [[[A B] C] D].
    apply Ascii.eqb_neq in B, C, D. auto. }
  repeat split.
  - intros ->. discriminate.
  - intros c Hc. now apply G.
  - intros Hc. destruct (G _ Hc) as (_ & A & _). congruence.
  - intros Hc. destruct (G _ Hc) as (A & _). discriminate A.
  - intros Hc. destruct (G _ Hc) as (_ & _ & A & _). congruence.
  - intros Hc. destruct (G _ Hc) as (_ & _ & _ & A). congruence.
  - intros ->. rewrite text_eqb_refl in H3. discriminate.
Qed.

Lemma word_trimmed w : is_word w = true -> trimmed w.
Proof.
  intros H. destruct (word_facts w H) as (_ & S & _). split.
  - intros c r ->. apply S. now left.
  - intros c r ->. apply S. apply in_or_app. right. now left.
Qed.

Lemma word_strip w : is_word w = true -> strip w = w.
Proof. intros H. apply strip_trimmed, word_trimmed, H. Qed.

Lemma first_word_word w : (forall c, In c w -> is_space c = false) -> first_word w = w.
Proof.
  induction w as [|c w IH]; intros H; simpl; [reflexivity|]. rewrite H by now left.
  f_equal. apply IH. intros x Hx. apply H. now right.
Qed.

Definition joins (j : joiner) (s : usep) : bool :=
  match j, s with Quotient, Slash | Quotient, Per | Product, Space => true | _, _ => false end.

Inductive all_tight : list (joiner * text * text) -> Prop :=
| at_nil : all_tight []
| at_cons j s w l : tight_spelling j s -> is_word w = true -> all_tight l -> all_tight ((j, s, w) :: l).

Lemma trimmed_write w l : is_word w = true -> all_tight l -> trimmed (w ++ write_rest l).
Proof.
  intros Hw Hl. revert w Hw. induction Hl as [|j s w' l Hs Hw' Hl IH]; intros w Hw; simpl.
  - rewrite app_nil_r. now apply word_trimmed.
  - destruct (word_facts w Hw) as (NE & S & _). destruct (IH w' Hw') as [_ T].
    split.
    + intros c r E. destruct w as [|x w]; [congruence|]. simpl in E. injection E as <- _. apply S. now left.
    + intros c r E.
      destruct (word_facts w' Hw') as (NE' & _).
      destruct (@exists_last _ (w' ++ write_rest l)) as (r' & c' & E').
      { destruct w'; [congruence|discriminate]. }
      rewrite E', !app_assoc in E. apply app_inj_tail in E. destruct E as [_ <-]. eapply T. exact E'.
Qed.

Lemma blanks_spaces n : forallb is_space (blanks n) = true.
Proof. unfold blanks. induction n; simpl; auto. Qed.

Lemma strip_blanks n t : trimmed t -> strip (blanks n ++ t) = t.
Proof.
  intros T. rewrite <- (app_nil_r t) at 1. apply strip_pad; auto using blanks_spaces.
Qed.

Lemma no_per_prefix w l :
  is_word w = true -> all_tight l -> prefix_of (txt "per ") (w ++ write_rest l) = false.
Proof.
  intros Hw Hl. destruct (prefix_of (txt "per ") (w ++ write_rest l)) eqn:E; [|reflexivity]. exfalso.
  apply prefix_of_spec in E. destruct E as [r E].
  destruct (word_facts w Hw) as (NE & S & _ & Sp & _ & _ & NP).
  destruct w as [|a [|b [|c [|d w]]]].
  - congruence.
  - simpl in E. injection E as -> E. destruct l as [|[[j s] w'] l]; simpl in E; [discriminate|].
    inversion Hl; subst. match goal with X : tight_spelling _ _ |- _ => inversion X; subst end; discriminate.
  - simpl in E. injection E as -> -> E. destruct l as [|[[j s] w'] l]; simpl in E; [discriminate|].
    inversion Hl; subst. match goal with X : tight_spelling _ _ |- _ => inversion X; subst end; discriminate.
  - simpl in E. injection E as -> -> -> E. apply NP. reflexivity.
  - simpl in E. injection E as -> -> -> -> E. apply Sp. right. right. right. now left.
Qed.

(** One step of the loop at a separator. *)
Lemma parse_step f w j s w' l :
  is_word w = true -> tight_spelling j s -> is_word w' = true -> all_tight l ->
  exists u, joins j u = true /\
    parse_loop (S f) (w ++ s ++ w' ++ write_rest l) =
    bindR (parse_loop f (w' ++ write_rest l)) (fun rest => Ok ((w, Some u) :: rest)).
Proof.
  intros Hw Hs Hw' Hl.
  destruct (word_facts w Hw) as (NE & S & Sl & Sp & _ & _ & NP).
  assert (forall u b, find_separator (s ++ w' ++ write_rest l) = Some (0, u) ->
          skipn (length (sep_text u)) (s ++ w' ++ write_rest l) = blanks b ++ (w' ++ write_rest l) ->
          parse_loop (Datatypes.S f) (w ++ s ++ w' ++ write_rest l) =
          bindR (parse_loop f (w' ++ write_rest l)) (fun rest => Ok ((w, Some u) :: rest))) as G.
  { intros u b E1 E2. cbn [parse_loop]. rewrite find_separator_skip by assumption. rewrite E1.
    cbn [shift option_map fst snd]. rewrite Nat.add_0_r.
    replace (firstn (length w) (w ++ s ++ w' ++ write_rest l)) with w
      by (rewrite firstn_app, Nat.sub_diag, firstn_all, firstn_O, app_nil_r; reflexivity).
    replace (skipn (length w + length (sep_text u)) (w ++ s ++ w' ++ write_rest l))
      with (blanks b ++ (w' ++ write_rest l)).
    2:{ rewrite skipn_app, skipn_all2 by lia.
        replace (length w + length (sep_text u) - length w) with (length (sep_text u)) by lia.
        now rewrite E2. }
    rewrite (word_strip w Hw). rewrite (strip_blanks b) by now apply trimmed_write.
    destruct w; [congruence|]. reflexivity. }
  inversion Hs; subst.
  - exists Slash. split; [reflexivity|]. apply (G Slash b).
    + rewrite <- app_assoc. apply find_separator_slash.
    + rewrite <- app_assoc. reflexivity.
  - exists Per. split; [reflexivity|]. apply (G Per b).
    + rewrite <- app_assoc. apply find_separator_per.
    + rewrite <- app_assoc. reflexivity.
  - exists Space. split; [reflexivity|]. apply (G Space a); [|reflexivity].
    unfold blanks. simpl. apply find_separator_blank.
    destruct a; simpl; [|reflexivity]. now apply no_per_prefix.
Qed.

Fixpoint entries (w : text) (l : list (joiner * text * text)) (us : list usep) : list (text * option usep) :=
  match l, us with
  | (_, _, w') :: l', u :: us' => (w, Some u) :: entries w' l' us'
  | _, _ => [(w, None)]
  end.

Lemma parse_loop_write f w l :
  is_word w = true -> all_tight l -> length l < f ->
  exists us, length us = length l /\
    Forall2 (fun e u => joins (fst (fst e)) u = true) l us /\
    parse_loop f (w ++ write_rest l) = Ok (entries w l us).
Proof.
  revert w f. induction l as [|[[j s] w'] l IH]; intros w f Hw Hl Hf.
  - exists []. split; [reflexivity|]. split; [constructor|]. destruct f as [|f]; [simpl in Hf; lia|].
    destruct (word_facts w Hw) as (NE & S & Sl & Sp & _). simpl write_rest. rewrite app_nil_r.
    cbn [parse_loop]. rewrite find_separator_none by assumption.
    assert (lstrip w = w) as ->.
    { apply lstrip_fixed. intros c r ->. apply S. now left. }
    rewrite first_word_word by assumption. destruct w; [congruence|]. rewrite word_strip by assumption. reflexivity.
  - inversion Hl; subst. destruct f as [|f]; [simpl in Hf; lia|]. simpl in Hf.
    destruct (IH w' f) as (us & L & F & E); [assumption|assumption|lia|].
    destruct (parse_step f w j s w' l) as (u & Hu & P); [assumption|assumption|assumption|assumption|].
    exists (u :: us). split; [simpl; congruence|]. split; [constructor; assumption|].
    simpl write_rest. rewrite P, E. reflexivity.
Qed.

Lemma write_len w l : is_word w = true -> all_tight l -> length l < length (w ++ write_rest l).
Proof.
  intros Hw Hl. revert w Hw. induction Hl as [|j s w' l Hs Hw' Hl IH]; intros w Hw.
  - destruct (word_facts w Hw) as (NE & _). destruct w; [congruence|]. simpl. lia.
  - simpl. specialize (IH w' Hw'). rewrite !app_length in *. destruct (word_facts w Hw) as (NE & _).
    destruct w; [congruence|]. simpl. lia.
Qed.

Lemma no_bracket c w l :
  (c = "["%char \/ c = "]"%char) -> is_word w = true -> all_tight l -> ~ In c (w ++ write_rest l).
Proof.
  intros Hc Hw Hl. revert w Hw. induction Hl as [|j s w' l Hs Hw' Hl IH]; intros w Hw.
  - simpl. rewrite app_nil_r. destruct (word_facts w Hw) as (_ & _ & _ & _ & A & B & _).
    destruct Hc as [-> | ->]; assumption.
  - simpl. rewrite !in_app_iff. specialize (IH w' Hw'). rewrite in_app_iff in IH.
    assert (forall n, ~ In c (blanks n)) as Hb.
    { intros n H. apply repeat_spec in H. destruct Hc; subst; discriminate. }
    assert (~ In c s) as Hns.
    { inversion Hs; subst; try rewrite in_app_iff; intros HI.
      - destruct HI as [HI|HI]; [|now apply (Hb b)]. simpl in HI. destruct Hc; subst; intuition discriminate.
      - destruct HI as [HI|HI]; [|now apply (Hb b)]. simpl in HI. destruct Hc; subst; intuition discriminate.
      - now apply (Hb (S a)). }
    assert (~ In c w).
    { destruct (word_facts w Hw) as (_ & _ & _ & _ & A & B & _). destruct Hc; subst; assumption. }
    intuition.
Qed.

Lemma remove_brackets_write w l :
  is_word w = true -> all_tight l -> remove_brackets (w ++ write_rest l) = w ++ write_rest l.
Proof.
  intros Hw Hl. unfold remove_brackets.
  rewrite (replace_char_absent "["%char) by (apply no_bracket; auto).
  apply replace_char_absent. apply no_bracket; auto.
Qed.

(** After shifting, each later word carries the separator before it. *)
Lemma shift_entries w l us :
  length us = length l -> l <> [] ->
  shift_seps (entries w l us) = (w, None) :: combine (map snd l) (map Some us).
Proof.
  intros L NE. destruct l as [|[[j s] w'] l]; [congruence|]. destruct us as [|u us]; [discriminate|].
  simpl in L. injection L as L. clear NE. unfold shift_seps. cbn [entries tl map fst snd combine]. f_equal.
  assert (forall w' us, length us = length l ->
     combine (map fst (entries w' l us)) (Some u :: map snd (entries w' l us)) =
     (w', Some u) :: combine (map snd l) (map Some us)) as G.
  { clear. revert u. induction l as [|[[j s] w2] l IH]; intros u w' us L; destruct us as [|u' us]; try discriminate.
    - reflexivity.
    - simpl in L. injection L as L. cbn [entries map fst snd combine]. f_equal.
      specialize (IH u' w2 us L). exact IH. }
  apply G. assumption.
Qed.

Lemma entries_cons2 w e l u us : exists a b, entries w (e :: l) (u :: us) = (w, Some u) :: a :: b.
Proof. destruct e as [[j s] w']. simpl. destruct l as [|[[? ?] ?]]; destruct us; simpl; eauto. Qed.

Lemma parse_write w l :
  is_word w = true -> all_tight l ->
  exists us, length us = length l /\ Forall2 (fun e u => joins (fst (fst e)) u = true) l us /\
    parse_unit_string (w ++ write_rest l) = Ok ((w, None) :: combine (map snd l) (map Some us)).
Proof.
  intros Hw Hl.
  destruct (parse_loop_write (S (length (w ++ write_rest l))) w l) as (us & L & F & E).
  { assumption. } { assumption. } { pose proof (write_len w l Hw Hl). lia. }
  exists us. split; [assumption|]. split; [assumption|].
  unfold parse_unit_string. rewrite remove_brackets_write by assumption. rewrite E. cbn [bindR].
  destruct l as [|e l].
  - destruct us; [reflexivity|discriminate].
  - destruct us as [|u us]; [discriminate|].
    rewrite <- shift_entries by (assumption || discriminate).
    destruct (entries_cons2 w e l u us) as (a & b & ->). destruct e as [[? ?] ?]. reflexivity.
Qed.

(** *** Combining *)
Lemma combine_name a b j u :
  joins j u = true -> u_name (combine_units a b (Some u)) = u_name a ++ spell j ++ u_name b.
Proof. destruct j, u; intros H; try discriminate; reflexivity. Qed.

(** Look every word up and spell the names. *)
Fixpoint lookup_rest (a : bool) (l : list (joiner * text)) : result (list (joiner * text)) :=
  match l with
  | [] => Ok []
  | (j, w) :: r =>
      bindR (get_unit_from_df a w) (fun u => bindR (lookup_rest a r) (fun ns => Ok ((j, u_name u) :: ns)))
  end.

Definition erase (l : list (joiner * text * text)) : list (joiner * text) :=
  map (fun e => (fst (fst e), snd e)) l.

Lemma combine_all_spell a l us acc :
  Forall2 (fun e u => joins (fst (fst e)) u = true) l us ->
  bindR (combine_all a acc (combine (map snd l) (map Some us))) (fun r => Ok (u_name r)) =
  bindR (lookup_rest a (erase l)) (fun ns => Ok (u_name acc ++ spell_rest ns)).
Proof.
  intros F. revert acc. induction F as [|[[j s] w] u l us Hu F IH]; intros acc.
  - simpl. now rewrite app_nil_r.
  - simpl in Hu. cbn [map snd combine combine_all erase fst lookup_rest]. fold (erase l).
    destruct (get_unit_from_df a w) as [r|e]; [|reflexivity]. cbn [bindR].
    rewrite IH. destruct (lookup_rest a (erase l)) as [ns|e]; [|reflexivity]. cbn [bindR].
    f_equal. rewrite (combine_name _ _ j u Hu). cbn [spell_rest]. now rewrite <- !app_assoc.
Qed.

Definition special (u : text) : bool :=
  existsb (text_eqb (lower u)) [txt "digital counts"; txt "counts"; txt "digital count"].

Lemma validate_write a w l :
  is_word w = true -> all_tight l -> special (w ++ write_rest l) = false ->
  validate_unit a (w ++ write_rest l) =
  bindR (get_unit_from_df a w) (fun u =>
  bindR (lookup_rest a (erase l)) (fun ns => Ok (spell_expr (u_name u) ns))).
Proof.
  intros Hw Hl Hs. destruct (parse_write w l Hw Hl) as (us & L & F & E).
  unfold validate_unit, get_unit_object. fold (special (w ++ write_rest l)). rewrite Hs.
  destruct (text_eqb (w ++ write_rest l) []) eqn:En.
  { apply text_eqb_eq in En. destruct (word_facts w Hw) as (NE & _). destruct w; [congruence|discriminate]. }
  rewrite E. cbn [bindR]. destruct (get_unit_from_df a w) as [u|e]; [|reflexivity]. cbn [bindR].
  rewrite combine_all_spell by assumption. reflexivity.
Qed.

(** *** Facts about the table *)
Definition dc : text := txt "digital counts".

Definition known (n : text) : Prop := exists r, In r all_units /\ u_name r = n.

Lemma first_row_In f rows r : first_row f rows = Some r -> In r rows.
Proof.
  induction rows as [|x rows IH]; simpl; [discriminate|]. destruct (f x); [|auto].
  intros H; injection H as <-. now left.
Qed.

Lemma lookup_known a w r : get_unit_from_df a w = Ok r -> known (u_name r).
Proof.
  unfold get_unit_from_df. intros H. unfold known.
  destruct (first_row _ all_units) eqn:E1.
  - apply Ok_inj in H. subst. exists r. split; [eapply first_row_In; eauto|reflexivity].
  - destruct (length w =? 1).
    + destruct (first_row (fun r0 => text_eqb (lower (u_symbol r0)) (lower w)) all_units) eqn:E2.
      * apply Ok_inj in H. subst. exists r. split; [eapply first_row_In; eauto|reflexivity].
      * destruct a; [|discriminate]. apply Ok_inj in H. subst. exists unknown_unit. split; [now left|reflexivity].
    + destruct a; [|discriminate]. apply Ok_inj in H. subst. exists unknown_unit. split; [now left|reflexivity].
Qed.

(** Codes of texts, to compare the rows of the table pairwise quickly. *)
Definition enc (t : text) : N := fold_right (fun c acc => (256 * acc + N_of_ascii c)%N) 0%N t.

Lemma enc_neq a b : enc a <> enc b -> a <> b.
Proof. congruence. Qed.

Definition row_code (r : unit_row) : N * N * N * N :=
  (enc (lower (u_name r)), enc (lower (u_symbol r)), enc (u_symbol r), enc (u_name r)).
Definition codes : list (N * N * N * N) := Eval vm_compute in map row_code all_units.
Lemma codes_eq : map row_code all_units = codes.
Proof. vm_compute. reflexivity. Qed.

Definition name_clash (x y : N * N * N * N) : bool :=
  let '(ln, ls, s, n) := x in let '(ln', _, _, n') := y in
  if N.eqb ln ln' || N.eqb ls ln' then negb (N.eqb n n') else false.
Definition symbol_clash (x y : N * N * N * N) : bool :=
  let '(ln, _, s, n) := x in let '(_, ls', s', n') := y in
  if N.eqb s s' || N.eqb ln ls' then negb (N.eqb n n') else false.

(** [n] and its code: distinct names have distinct codes in the table. *)
Lemma codes_name_clash : forallb (fun y => forallb (fun x => negb (name_clash x y)) codes) codes = true.
Proof. vm_compute. reflexivity. Qed.
Definition coulomb : unit_row := mkUnit (txt "Coulomb") (txt "C").
Lemma codes_symbol_clash :
  forallb (fun y => if N.eqb (snd (fst y)) (enc (u_symbol coulomb)) then true
                    else forallb (fun x => negb (symbol_clash x y)) codes) codes = true.
Proof. vm_compute. reflexivity. Qed.

Lemma enc_inj a b : enc a = enc b -> length a = length b -> a = b.
Proof.
  revert b. induction a as [|x a IH]; intros [|y b] E L; try discriminate; [reflexivity|].
  cbn [enc fold_right] in E. fold (enc a) (enc b) in E.
  assert (forall c, (N_of_ascii c < 256)%N) as B by apply N_ascii_bounded.
  pose proof (B x) as Bx. pose proof (B y) as By.
  assert (N_of_ascii x = N_of_ascii y /\ enc a = enc b) as [E1 E2] by lia.
  f_equal.
  - rewrite <- (ascii_N_embedding x), <- (ascii_N_embedding y). now rewrite E1.
  - apply IH; [assumption|]. simpl in L. lia.
Qed.

(** No character of the table is NUL, so codes are injective on it. *)
Definition no_nul (t : text) : bool := forallb (fun c => negb (Ascii.eqb c zero)) t.
Lemma enc_inj_no_nul a b : no_nul a = true -> no_nul b = true -> enc a = enc b -> a = b.
Proof.
  revert b. induction a as [|x a IH]; intros [|y b] Na Nb E; try reflexivity.
  - exfalso. cbn [enc fold_right] in E. fold (enc b) in E. simpl in Nb. apply andb_true_iff in Nb.
    destruct Nb as [Nb _]. apply negb_true_iff, Ascii.eqb_neq in Nb. apply Nb.
    assert (N_of_ascii y = 0%N) as Z by lia. rewrite <- (ascii_N_embedding y), Z. reflexivity.
  - exfalso. cbn [enc fold_right] in E. fold (enc a) in E. simpl in Na. apply andb_true_iff in Na.
    destruct Na as [Na _]. apply negb_true_iff, Ascii.eqb_neq in Na. apply Na.
    assert (N_of_ascii x = 0%N) as Z by lia. rewrite <- (ascii_N_embedding x), Z. reflexivity.
  - cbn [enc fold_right] in E. fold (enc a) (enc b) in E.
    pose proof (N_ascii_bounded x) as Bx. pose proof (N_ascii_bounded y) as By.
    assert (N_of_ascii x = N_of_ascii y /\ enc a = enc b) as [E1 E2] by lia.
    simpl in Na, Nb. apply andb_true_iff in Na, Nb. f_equal; [|apply IH; tauto].
    rewrite <- (ascii_N_embedding x), <- (ascii_N_embedding y). now rewrite E1.
Qed.

Lemma all_no_nul r : In r all_units -> no_nul (u_name r) = true.
Proof.
  intros H. assert (F : forallb (fun r => no_nul (u_name r)) all_units = true) by (vm_compute; reflexivity).
  rewrite forallb_forall in F. now apply F.
Qed.

Lemma all_no_nul_sym r : In r all_units -> no_nul (u_symbol r) = true.
Proof.
  intros H. assert (F : forallb (fun r => no_nul (u_symbol r)) all_units = true) by (vm_compute; reflexivity).
  rewrite forallb_forall in F. now apply F.
Qed.

(** A row that matches the name of another row (by name or symbol, ignoring case) has its name. *)
Lemma name_unique x y :
  In x all_units -> In y all_units ->
  lower (u_name x) = lower (u_name y) \/ lower (u_symbol x) = lower (u_name y) -> u_name x = u_name y.
Proof.
  intros Hx Hy M. pose proof codes_name_clash as F. rewrite <- codes_eq, forallb_forall in F.
  specialize (F (row_code y) (in_map _ _ _ Hy)). rewrite forallb_forall in F.
  specialize (F (row_code x) (in_map _ _ _ Hx)). apply negb_true_iff in F. unfold name_clash, row_code in F.
  assert (N.eqb (enc (lower (u_name x))) (enc (lower (u_name y))) || N.eqb (enc (lower (u_symbol x))) (enc (lower (u_name y))) = true) as G.
  { apply orb_true_iff. destruct M as [-> | ->]; [left|right]; apply N.eqb_refl. }
  rewrite G in F. apply negb_false_iff, N.eqb_eq in F.
  apply enc_inj_no_nul; auto using all_no_nul.
Qed.

(** The same for symbols (exactly), except for C (celsius and Coulomb). *)
Lemma symbol_unique x y :
  In x all_units -> In y all_units -> u_symbol y <> u_symbol coulomb ->
  u_symbol x = u_symbol y \/ lower (u_name x) = lower (u_symbol y) -> u_name x = u_name y.
Proof.
  intros Hx Hy NC M. pose proof codes_symbol_clash as F. rewrite <- codes_eq, forallb_forall in F.
  specialize (F (row_code y) (in_map _ _ _ Hy)). cbv beta in F. cbn [snd fst row_code] in F.
  destruct (N.eqb (enc (u_symbol y)) (enc (u_symbol coulomb))) eqn:C.
  { apply N.eqb_eq in C. exfalso. apply NC. apply enc_inj_no_nul; auto using all_no_nul_sym. }
  rewrite forallb_forall in F. specialize (F (row_code x) (in_map _ _ _ Hx)). apply negb_true_iff in F.
  unfold symbol_clash, row_code in F.
  assert (N.eqb (enc (u_symbol x)) (enc (u_symbol y)) || N.eqb (enc (lower (u_name x))) (enc (lower (u_symbol y))) = true) as G.
  { apply orb_true_iff. destruct M as [-> | ->]; [left|right]; apply N.eqb_refl. }
  rewrite G in F. apply negb_false_iff, N.eqb_eq in F.
  apply enc_inj_no_nul; auto using all_no_nul.
Qed.

Lemma first_row_Some f rows r : first_row f rows = Some r -> f r = true.
Proof.
  induction rows as [|x rows IH]; simpl; [discriminate|]. destruct (f x) eqn:E; [|auto].
  intros H; injection H as <-. exact E.
Qed.
Lemma first_row_exists f rows r : In r rows -> f r = true -> exists r', first_row f rows = Some r'.
Proof.
  induction rows as [|x rows IH]; simpl; intros H E; [destruct H|]. destruct (f x) eqn:Ex; [eauto|].
  destruct H as [->|H]; [congruence|auto].
Qed.

(** Looking a name up, in any case. *)
Lemma lookup_name a r u :
  In r all_units -> lower u = lower (u_name r) -> exists r', get_unit_from_df a u = Ok r' /\ u_name r' = u_name r.
Proof.
  intros Hr E. unfold get_unit_from_df.
  set (f := fun r0 => text_eqb (lower (u_name r0)) (lower u) || text_eqb (u_symbol r0) u).
  destruct (first_row_exists f all_units r Hr) as [r' Fr].
  { unfold f. rewrite E, text_eqb_refl. reflexivity. }
  rewrite Fr. exists r'. split; [reflexivity|].
  pose proof (first_row_In _ _ _ Fr) as I. apply first_row_Some in Fr. unfold f in Fr.
  apply orb_true_iff in Fr. apply name_unique; [assumption|assumption|].
  destruct Fr as [M|M]; apply text_eqb_eq in M; [left|right]; congruence.
Qed.

(** Looking a symbol up. *)
Lemma lookup_symbol a r :
  In r all_units -> u_symbol r <> u_symbol coulomb ->
  exists r', get_unit_from_df a (u_symbol r) = Ok r' /\ u_name r' = u_name r.
Proof.
  intros Hr NC. unfold get_unit_from_df.
  set (f := fun r0 => text_eqb (lower (u_name r0)) (lower (u_symbol r)) || text_eqb (u_symbol r0) (u_symbol r)).
  destruct (first_row_exists f all_units r Hr) as [r' Fr].
  { unfold f. rewrite (text_eqb_refl (u_symbol r)), orb_true_r. reflexivity. }
  rewrite Fr. exists r'. split; [reflexivity|].
  pose proof (first_row_In _ _ _ Fr) as I. apply first_row_Some in Fr. unfold f in Fr.
  apply orb_true_iff in Fr. apply symbol_unique; [assumption|assumption|assumption|].
  destruct Fr as [M|M]; apply text_eqb_eq in M; [right|left]; assumption.
Qed.

Lemma known_lookup a n : known n -> exists r, get_unit_from_df a n = Ok r /\ u_name r = n.
Proof. intros (r & Hr & <-). now apply lookup_name. Qed.

Lemma known_word n : known n -> n <> dc -> is_word n = true.
Proof.
  intros (r & Hr & <-) ND.
  assert (F : forallb (fun r => text_eqb (u_name r) dc || is_word (u_name r)) all_units = true)
    by (vm_compute; reflexivity).
  rewrite forallb_forall in F. specialize (F r Hr). apply orb_true_iff in F.
  destruct F as [F|F]; [|assumption]. apply text_eqb_eq in F. congruence.
Qed.

Lemma known_not_special n :
  known n -> n <> dc -> lower n <> txt "digital" /\ lower n <> txt "counts".
Proof.
  intros (r & Hr & <-) ND.
  assert (F : forallb (fun r => text_eqb (u_name r) dc ||
     (negb (text_eqb (lower (u_name r)) (txt "digital")) && negb (text_eqb (lower (u_name r)) (txt "counts")))) all_units = true)
    by (vm_compute; reflexivity).
  rewrite forallb_forall in F. specialize (F r Hr). rewrite orb_true_iff, andb_true_iff, !negb_true_iff in F.
  destruct F as [F|[F1 F2]]; [apply text_eqb_eq in F; congruence|].
  split; intros E; [rewrite E in F1|rewrite E in F2]; discriminate.
Qed.

Lemma special_inv u : special u = true -> lower u = dc \/ lower u = txt "counts" \/ lower u = txt "digital count".
Proof.
  unfold special. cbn [existsb]. rewrite !orb_true_iff, !text_eqb_eq. unfold dc. intuition discriminate.
Qed.

Lemma special_len u : special u = true -> length u <= 14.
Proof.
  intros H. apply special_inv in H.
  assert (length u = length (lower u)) as -> by (unfold lower; now rewrite map_length).
  destruct H as [-> | [-> | ->]]; simpl; lia.
Qed.

Lemma lower_no_blank w : ~ In " "%char w -> ~ In " "%char (lower w).
Proof.
  intros H HI. unfold lower in HI. apply in_map_iff in HI. destruct HI as (c & E & Hc).
  assert (c = " "%char).
  { assert (G : implb (Ascii.eqb (to_lower c) " ") (Ascii.eqb c " ") = true)
      by (revert c E Hc; intros c _ _; revert c; apply ascii_forall; vm_compute; reflexivity).
    rewrite E in G. simpl in G. now apply Ascii.eqb_eq in G. }
  subst. auto.
Qed.

(** A known first word is not the start of a special string. *)
Lemma special_spell w l : known w -> w <> dc -> special (spell_expr w l) = false.
Proof.
  intros K ND. destruct (special (spell_expr w l)) eqn:E; [|reflexivity]. exfalso.
  apply special_inv in E. destruct (known_not_special w K ND) as [N1 N2].
  destruct (word_facts w (known_word w K ND)) as (_ & _ & _ & Sp & _).
  assert (exists o, split1 " " (lower (spell_expr w l)) = (lower w, o)) as [o Ho].
  { unfold spell_expr. rewrite lower_app. destruct l as [|[j x] l].
    - simpl. rewrite app_nil_r. rewrite split1_no; [eauto|now apply lower_no_blank].
    - assert (exists t, lower (spell_rest ((j, x) :: l)) = " "%char :: t) as [t ->].
      { destruct j; simpl; eauto. }
      rewrite split1_app by now apply lower_no_blank. eauto. }
  destruct E as [E|[E|E]]; rewrite E in Ho; apply (f_equal fst) in Ho; cbn [fst] in Ho; symmetry in Ho;
    first [exact (N1 Ho) | exact (N2 Ho)].
Qed.

(** *** Shape of an accepted value *)
Lemma combine_all_shape a l acc r :
  combine_all a acc l = Ok r ->
  exists ns, Forall (fun e => known (snd e)) ns /\ u_name r = spell_expr (u_name acc) ns.
Proof.
  revert acc. induction l as [|[n s] l IH]; intros acc H; simpl in H.
  - apply Ok_inj in H. subst. exists []. split; [constructor|]. unfold spell_expr. simpl. now rewrite app_nil_r.
  - destruct (get_unit_from_df a n) as [u|] eqn:E; [|discriminate]. simpl in H.
    apply IH in H. destruct H as (ns & F & E2).
    exists ((match s with Some Slash | Some Per => Quotient | _ => Product end, u_name u) :: ns). split.
    + constructor; [|assumption]. eapply lookup_known; eauto.
    + rewrite E2. unfold spell_expr. cbn [spell_rest]. rewrite !app_assoc. f_equal.
      destruct s as [[| |]|]; cbn [combine_units u_name spell]; now rewrite <- ?app_assoc.
Qed.

Lemma validate_shape a u n :
  validate_unit a u = Ok n -> exists w ns, known w /\ Forall (fun e => known (snd e)) ns /\ n = spell_expr w ns.
Proof.
  unfold validate_unit. destruct (get_unit_object a u) as [r|] eqn:E; [|discriminate]. intros H.
  apply Ok_inj in H. subst n. unfold get_unit_object in E.
  assert (forall r, known (u_name r) -> exists w ns, known w /\ Forall (fun e : joiner * text => known (snd e)) ns /\ u_name r = spell_expr w ns) as G.
  { intros r' K. exists (u_name r'), []. split; [assumption|]. split; [constructor|]. unfold spell_expr. simpl.
    now rewrite app_nil_r. }
  destruct (existsb _ _).
  { apply G. eapply lookup_known; eauto. }
  destruct (text_eqb u []).
  { apply Ok_inj in E. subst. apply G. exists unknown_unit. split; [now left|reflexivity]. }
  destruct (parse_unit_string u) as [parts|]; [|discriminate]. cbn [bindR] in E.
  destruct parts as [|[w s] parts]; [discriminate|].
  destruct (get_unit_from_df a w) as [u0|] eqn:E0; [|discriminate]. cbn [bindR] in E.
  apply combine_all_shape in E. destruct E as (ns & F & E).
  exists (u_name u0), ns. split; [eapply lookup_known; eauto|]. auto.
Qed.

(** *** Re-validation of a canonical expression *)
Definition dress (l : list (joiner * text)) : list (joiner * text * text) :=
  map (fun e => (fst e, spell (fst e), snd e)) l.

Lemma spell_tight j : tight_spelling j (spell j).
Proof. destruct j; [apply (ts_per 0)|apply (ts_blank 0)]. Qed.

Lemma dress_tight l : Forall (fun e => is_word (snd e) = true) l -> all_tight (dress l).
Proof.
  induction 1 as [|[j w] l H F IH]; simpl; constructor; auto using spell_tight.
Qed.

Lemma write_dress l : write_rest (dress l) = spell_rest l.
Proof. induction l as [|[j w] l IH]; simpl; [reflexivity|]. now rewrite IH. Qed.

Lemma erase_dress l : erase (dress l) = l.
Proof.
  unfold erase, dress. rewrite map_map. rewrite <- (map_id l) at 2. apply map_ext. now intros [j w].
Qed.

Lemma validate_spell a w l :
  is_word w = true -> Forall (fun e => is_word (snd e) = true) l -> special (spell_expr w l) = false ->
  validate_unit a (spell_expr w l) =
  bindR (get_unit_from_df a w) (fun u =>
  bindR (lookup_rest a l) (fun ns => Ok (spell_expr (u_name u) ns))).
Proof.
  intros Hw Hl Hs. unfold spell_expr in *. rewrite <- write_dress in *.
  rewrite validate_write by (auto using dress_tight). now rewrite erase_dress.
Qed.

Lemma lookup_rest_known a l :
  Forall (fun e => known (snd e)) l -> lookup_rest a l = Ok l.
Proof.
  induction 1 as [|[j w] l K F IH]; simpl; [reflexivity|]. simpl in K.
  destruct (known_lookup a w K) as (r & -> & E). cbn [bindR]. rewrite IH. cbn [bindR]. now rewrite E.
Qed.

Lemma revalidate_plain a w l :
  known w -> w <> dc -> Forall (fun e => known (snd e)) l -> Forall (fun e => snd e <> dc) l ->
  validate_unit a (spell_expr w l) = Ok (spell_expr w l).
Proof.
  intros K ND F FD. rewrite validate_spell.
  - destruct (known_lookup a w K) as (r & -> & E). cbn [bindR]. rewrite lookup_rest_known by assumption.
    cbn [bindR]. now rewrite E.
  - now apply known_word.
  - rewrite Forall_forall in *. intros e He. apply known_word; auto.
  - now apply special_spell.
Qed.

(** *** Compounds with "digital counts" *)
Definition expand1 (e : joiner * text) : list (joiner * text) :=
  if text_eqb (snd e) dc then [(fst e, txt "digital"); (Product, txt "counts")] else [e].
Definition expand (l : list (joiner * text)) : list (joiner * text) := flat_map expand1 l.

Lemma spell_rest_app a b : spell_rest (a ++ b) = spell_rest a ++ spell_rest b.
Proof. induction a as [|[j w] a IH]; simpl; [reflexivity|]. now rewrite IH, <- !app_assoc. Qed.

Lemma spell_expand l : spell_rest (expand l) = spell_rest l.
Proof.
  induction l as [|[j w] l IH]; [reflexivity|]. unfold expand in *. cbn [flat_map].
  rewrite spell_rest_app, IH. unfold expand1. cbn [snd fst].
  destruct (text_eqb w dc) eqn:E.
  - apply text_eqb_eq in E. subst. cbn [spell_rest spell]. rewrite <- !app_assoc. reflexivity.
  - cbn [spell_rest]. now rewrite <- !app_assoc, app_nil_l.
Qed.

Lemma expand_words l :
  Forall (fun e => known (snd e)) l -> Forall (fun e => is_word (snd e) = true) (expand l).
Proof.
  induction 1 as [|[j w] l K F IH]; [constructor|]. unfold expand. cbn [flat_map].
  apply Forall_app. split; [|assumption]. unfold expand1. cbn [snd fst].
  destruct (text_eqb w dc) eqn:E.
  - repeat constructor.
  - constructor; [|constructor]. apply known_word; [assumption|]. intros EQ. cbn [snd] in EQ. rewrite EQ, text_eqb_refl in E. discriminate.
Qed.

Definition ndc (l : list (joiner * text)) : nat := length (filter (fun e => text_eqb (snd e) dc) l).

Lemma lookup_digital : get_unit_from_df true (txt "digital") = Ok unknown_unit /\
  get_unit_from_df false (txt "digital") = Err KeyError.
Proof. vm_compute. split; reflexivity. Qed.
Lemma lookup_counts a : exists r, get_unit_from_df a (txt "counts") = Ok r /\ u_name r = dc.
Proof. exists (mkUnit dc (txt "counts")). destruct a; vm_compute; split; reflexivity. Qed.

Lemma lookup_expand_true l :
  Forall (fun e => known (snd e)) l ->
  exists ns, lookup_rest true (expand l) = Ok ns /\
    length (spell_rest ns) = length (spell_rest l) + 8 * ndc l.
Proof.
  induction 1 as [|[j w] l K F (ns & E & L)]; [exists []; split; reflexivity|].
  cbn [snd] in K. unfold expand in *. cbn [flat_map]. unfold expand1 at 1. unfold ndc in *. cbn [snd fst filter].
  destruct (text_eqb w dc) eqn:Ew.
  - apply text_eqb_eq in Ew. subst. cbn [app lookup_rest].
    rewrite (proj1 lookup_digital). cbn [bindR].
    destruct (lookup_counts true) as (r & -> & Er). cbn [bindR]. rewrite E. cbn [bindR].
    eexists. split; [reflexivity|]. rewrite Er. cbn [spell_rest u_name unknown_unit length].
    rewrite !app_length, L. unfold dc. change (length (txt "unknown")) with 7.
    change (length (spell Product)) with 1. lia.
  - cbn [app lookup_rest]. destruct (known_lookup true w K) as (r & -> & Er). cbn [bindR]. rewrite E. cbn [bindR].
    eexists. split; [reflexivity|]. rewrite Er. cbn [spell_rest]. rewrite !app_length, L. lia.
Qed.

Lemma lookup_expand_false l :
  Forall (fun e => known (snd e)) l -> ndc l <> 0 -> lookup_rest false (expand l) = Err KeyError.
Proof.
  induction 1 as [|[j w] l K F IH]; intros N; [now cbv in N|].
  cbn [snd] in K. unfold expand in *. cbn [flat_map]. unfold expand1 at 1. unfold ndc in *. cbn [snd fst filter] in *.
  destruct (text_eqb w dc) eqn:Ew.
  - cbn [app lookup_rest]. rewrite (proj2 lookup_digital). reflexivity.
  - cbn [app lookup_rest]. destruct (known_lookup false w K) as (r & -> & Er). cbn [bindR].
    rewrite IH by assumption. reflexivity.
Qed.

Lemma expand_head w l :
  known w -> exists w0 l0, spell_expr w l = spell_expr w0 l0 /\
    (w <> dc -> w0 = w /\ l0 = expand l) /\ (w = dc -> w0 = txt "digital" /\ l0 = (Product, txt "counts") :: expand l).
Proof.
  intros K. destruct (text_dec w dc) as [->|n].
  - exists (txt "digital"), ((Product, txt "counts") :: expand l). split.
    + unfold spell_expr. cbn [spell_rest]. rewrite spell_expand. reflexivity.
    + split; [congruence|auto].
  - exists w, (expand l). split; [unfold spell_expr; now rewrite spell_expand|]. split; [auto|congruence].
Qed.

Lemma length_spell_pos l : l <> [] -> 0 < length (spell_rest l).
Proof. destruct l as [|[[] w] l]; [congruence| |]; intros _; simpl; lia. Qed.

Lemma special_dc_compound l : l <> [] -> special (spell_expr dc l) = false.
Proof.
  intros N. destruct (special (spell_expr dc l)) eqn:E; [|reflexivity]. apply special_len in E.
  unfold spell_expr in E. rewrite app_length in E. apply length_spell_pos in N.
  change (length dc) with 14 in E. lia.
Qed.

Lemma revalidate_compound a w l :
  known w -> Forall (fun e => known (snd e)) l -> l <> [] -> (w = dc \/ ndc l <> 0) ->
  validate_unit a (spell_expr w l) <> Ok (spell_expr w l).
Proof.
  intros K F NE D. destruct (text_dec w dc) as [->|n].
  - assert (E : spell_expr dc l = spell_expr (txt "digital") ((Product, txt "counts") :: expand l)).
    { unfold spell_expr. cbn [spell_rest]. rewrite spell_expand. reflexivity. }
    rewrite E at 1. rewrite validate_spell.
    + destruct a.
      * rewrite (proj1 lookup_digital). cbn [bindR lookup_rest].
        destruct (lookup_counts true) as (r & -> & Er). cbn [bindR].
        destruct (lookup_expand_true l F) as (ns & -> & L). cbn [bindR]. intros X. apply Ok_inj in X.
        apply (f_equal (@length _)) in X. unfold spell_expr in X. cbn [spell_rest] in X.
        rewrite Er, !app_length, L in X. change (length (u_name unknown_unit)) with 7 in X. simpl in X. lia.
      * rewrite (proj2 lookup_digital). discriminate.
    + reflexivity.
    + constructor; [reflexivity|]. now apply expand_words.
    + rewrite <- E. now apply special_dc_compound.
  - destruct D as [D|D]; [congruence|].
    assert (E : spell_expr w l = spell_expr w (expand l)) by (unfold spell_expr; now rewrite spell_expand).
    rewrite E at 1. rewrite validate_spell.
    + destruct (known_lookup a w K) as (r & -> & Er). cbn [bindR]. destruct a.
      * destruct (lookup_expand_true l F) as (ns & -> & L). cbn [bindR]. intros X. apply Ok_inj in X.
        apply (f_equal (@length _)) in X. unfold spell_expr in X. rewrite Er, !app_length, L in X. lia.
      * rewrite (lookup_expand_false l F D). discriminate.
    + now apply known_word.
    + now apply expand_words.
    + now apply special_spell.
Qed.

Lemma ndc_contains w l : ndc l <> 0 -> contains dc (spell_expr w l) = true.
Proof.
  intros N. unfold ndc in N. apply contains_spec.
  destruct (filter (fun e => text_eqb (snd e) dc) l) as [|e r] eqn:E; [now cbv in N|].
  assert (H : In e (filter (fun e => text_eqb (snd e) dc) l)) by (rewrite E; now left).
  apply filter_In in H. destruct H as [H1 H2]. apply text_eqb_eq in H2. destruct e as [j x]. simpl in H2. subst.
  apply in_split in H1. destruct H1 as (l1 & l2 & ->).
  exists (w ++ spell_rest l1 ++ spell j), (spell_rest l2). unfold spell_expr.
  rewrite spell_rest_app. cbn [spell_rest]. now rewrite <- !app_assoc.
Qed.

Lemma ndc_zero l : ndc l = 0 -> Forall (fun e => snd e <> dc) l.
Proof.
  unfold ndc. intros H. apply length_zero_iff_nil in H. apply Forall_forall. intros e He E.
  assert (In e (filter (fun e => text_eqb (snd e) dc) l)) as X by (apply filter_In; split; [assumption|now apply text_eqb_eq]).
  rewrite H in X. destruct X.
Qed.

Lemma prefix_before_blank p s t b : ~ In " "%char p -> s ++ " "%char :: t = p ++ b -> exists b', s = p ++ b'.
Proof.
  intros N. revert s. induction p as [|c p IH]; intros s E; [now exists s|].
  destruct s as [|x s].
  - simpl in E. injection E as <- _. exfalso. apply N. now left.
  - simpl in E. injection E as -> E. destruct (IH (fun H => N (or_intror H)) s E) as [b' ->]. now exists b'.
Qed.

Lemma contains_blank p s t :
  p <> [] -> ~ In " "%char p -> contains p (s ++ " "%char :: t) = true -> contains p s = true \/ contains p t = true.
Proof.
  intros NE N H. apply contains_spec in H. destruct H as (a & b & E). revert a E.
  induction s as [|x s IH]; intros a E.
  - destruct a as [|y a].
    + destruct p as [|c p]; [congruence|]. simpl in E. injection E as <- _. exfalso. apply N. now left.
    + simpl in E. injection E as _ E. right. apply contains_spec. eauto.
  - destruct a as [|y a].
    + simpl in E. destruct (prefix_before_blank p (x :: s) t b N E) as [b' E'].
      left. apply contains_spec. exists [], b'. exact E'.
    + simpl in E. injection E as <- E. destruct (IH a E) as [H|H]; [|now right].
      left. apply contains_spec in H. destruct H as (a' & b' & ->). apply contains_spec. exists (x :: a'), b'. reflexivity.
Qed.

Lemma known_no_counts n : known n -> n <> dc -> contains (txt "counts") n = false.
Proof.
  intros (r & Hr & <-) ND.
  assert (F : forallb (fun r => text_eqb (u_name r) dc || negb (contains (txt "counts") (u_name r))) all_units = true)
    by (vm_compute; reflexivity).
  rewrite forallb_forall in F. specialize (F r Hr). rewrite orb_true_iff, negb_true_iff in F.
  destruct F as [F|F]; [apply text_eqb_eq in F; congruence|assumption].
Qed.

Lemma no_counts w l :
  known w -> w <> dc -> Forall (fun e => known (snd e)) l -> Forall (fun e => snd e <> dc) l ->
  contains (txt "counts") (spell_expr w l) = false.
Proof.
  intros K ND F. revert w K ND. induction F as [|[j x] l K F IH]; intros w Kw ND FD.
  - unfold spell_expr. simpl. rewrite app_nil_r. now apply known_no_counts.
  - inversion FD; subst. cbn [snd] in *.
    assert (NS : ~ In " "%char (txt "counts")) by (simpl; intuition discriminate).
    assert (NN : txt "counts" <> []) by discriminate.
    assert (Ex : contains (txt "counts") (spell_expr x l) = false) by (apply IH; assumption).
    destruct (contains (txt "counts") (spell_expr w ((j, x) :: l))) eqn:E; [|reflexivity]. exfalso.
    unfold spell_expr in *. cbn [spell_rest] in E. destruct j; cbn [spell] in E.
    + change (txt " per " ++ x ++ spell_rest l) with (" "%char :: (txt "per" ++ " "%char :: (x ++ spell_rest l))) in E.
      apply contains_blank in E; [|assumption..]. destruct E as [E|E].
      * rewrite known_no_counts in E by assumption. discriminate.
      * apply contains_blank in E; [|assumption..]. destruct E as [E|E]; [vm_compute in E; discriminate|congruence].
    + change (txt " " ++ x ++ spell_rest l) with (" "%char :: (x ++ spell_rest l)) in E.
      apply contains_blank in E; [|assumption..]. destruct E as [E|E].
      * rewrite known_no_counts in E by assumption. discriminate.
      * congruence.
Qed.

Lemma contains_dc_counts n : contains dc n = true -> contains (txt "counts") n = true.
Proof.
  intros H. apply contains_spec in H. destruct H as (a & b & ->). apply contains_spec.
  exists (a ++ txt "digital "), b. rewrite <- app_assoc. reflexivity.
Qed.

Lemma idempotent_iff a u n :
  validate_unit a u = Ok n ->
  (validate_unit a n = Ok n <-> n = dc \/ contains dc n = false).
Proof.
  intros H. apply validate_shape in H. destruct H as (w & ns & K & F & ->). split.
  - intros V. destruct ns as [|e ns].
    + destruct (text_dec w dc) as [->|n]; [left; unfold spell_expr; simpl; reflexivity|].
      right. destruct (contains dc (spell_expr w [])) eqn:E; [|reflexivity].
      apply contains_dc_counts in E. rewrite no_counts in E by auto. discriminate.
    + assert (NE : e :: ns <> []) by discriminate. destruct (text_dec w dc) as [->|n].
      * exfalso. eapply revalidate_compound; [exact K|exact F|exact NE|now left|exact V].
      * destruct (Nat.eq_dec (ndc (e :: ns)) 0) as [Z|Z].
        -- right. destruct (contains dc (spell_expr w (e :: ns))) eqn:E; [|reflexivity].
           apply contains_dc_counts in E. rewrite no_counts in E by auto using ndc_zero. discriminate.
        -- exfalso. eapply revalidate_compound; [exact K|exact F|exact NE|now right|exact V].
  - intros [->|C].
    + destruct a; vm_compute; reflexivity.
    + apply revalidate_plain; [assumption| |assumption|].
      * intros ->. assert (contains dc (spell_expr dc ns) = true); [|congruence].
        apply contains_spec. exists [], (spell_rest ns). reflexivity.
      * apply ndc_zero. destruct (ndc ns) eqn:E; [reflexivity|].
        rewrite ndc_contains in C by congruence. discriminate.
Qed.

(** *** The parser ends and raises only ValueError *)
Lemma strip_length s : length (strip s) <= length s.
Proof.
  unfold strip, rstrip. rewrite rev_length.
  assert (forall t, length (lstrip t) <= length t) as L.
  { induction t as [|c t IH]; simpl; [lia|]. destruct (is_space c); simpl; lia. }
  specialize (L (rev (lstrip s))) as L1. rewrite rev_length in L1. specialize (L s). lia.
Qed.

Lemma find_separator_bound u i s : find_separator u = Some (i, s) -> i + length (sep_text s) <= length u.
Proof.
  assert (A : forall s i s', at_sep s u = Some (i, s') -> i + length (sep_text s') <= length u).
  { intros s0 i0 s' H. unfold at_sep in H. destruct (find (sep_text s0) u) eqn:E; [|discriminate].
    simpl in H. injection H as <- <-. apply find_Some in E. destruct E as (a & b & -> & <- & _).
    rewrite !app_length. lia. }
  assert (B : forall x y i s, better x y = Some (i, s) -> x = Some (i, s) \/ y = Some (i, s)).
  { intros [[a s1]|] [[b s2]|] i0 s0; simpl; auto. destruct (b <? a); auto. }
  unfold find_separator. intros H. apply B in H. destruct H as [H|H]; [|eauto].
  apply B in H. destruct H as [H|H]; eauto.
Qed.

Lemma parse_loop_total f u : length u < f -> exists l, parse_loop f u = Ok l.
Proof.
  revert u. induction f as [|f IH]; intros u L; [lia|]. cbn [parse_loop].
  destruct (find_separator u) as [[i s]|] eqn:E.
  - apply find_separator_bound in E.
    assert (Ls : 0 < length (sep_text s)) by (destruct s; simpl; lia).
    destruct (IH (strip (skipn (i + length (sep_text s)) u))) as [l ->].
    { pose proof (strip_length (skipn (i + length (sep_text s)) u)) as X. rewrite skipn_length in X. lia. }
    cbn [bindR]. eauto.
  - destruct (first_word (lstrip u)); eauto.
Qed.

Lemma combine_all_err a acc l e : combine_all a acc l = Err e -> a = false /\ e = KeyError.
Proof.
  revert acc. induction l as [|[n s] l IH]; intros acc H; simpl in H; [discriminate|].
  destruct (get_unit_from_df a n) as [u|x] eqn:E; simpl in H; [eauto|].
  injection H as <-. unfold get_unit_from_df in E. destruct (match first_row _ _ with Some r => Some r | None => _ end);
  [discriminate|]. destruct a; [discriminate|]. injection E as <-. auto.
Qed.

Lemma validate_errors a u e : validate_unit a u = Err e -> e = ValueError \/ (a = false /\ e = KeyError).
Proof.
  unfold validate_unit, get_unit_object. set (u' := remove_brackets u).
  assert (G : forall w x, get_unit_from_df a w = Err x -> a = false /\ x = KeyError).
  { intros w x E. unfold get_unit_from_df in E. destruct (match first_row _ _ with Some r => Some r | None => _ end);
    [discriminate|]. destruct a; [discriminate|]. injection E as <-. auto. }
  destruct (existsb _ _).
  - destruct (get_unit_from_df a (txt "digital counts")) eqn:E; cbn [bindR]; [discriminate|].
    intros H; injection H as <-. right. eauto.
  - destruct (text_eqb u []); [discriminate|]. unfold parse_unit_string. fold u'.
    destruct (parse_loop_total (S (length u')) u' (Nat.lt_succ_diag_r _)) as [l ->]. cbn [bindR].
    destruct l as [|x [|y l]]; cbn [bindR].
    + intros H; injection H as <-. now left.
    + destruct x as [w s]. cbn [bindR]. destruct (get_unit_from_df a w) eqn:E; cbn [bindR combine_all]; [discriminate|].
      intros H; injection H as <-. right. eauto.
    + destruct x as [w s]. cbn [shift_seps].
      destruct (get_unit_from_df a w) eqn:E; cbn [bindR]; [|intros H; injection H as <-; right; eauto].
      destruct (combine_all _ _ _) eqn:E2; cbn [bindR]; [discriminate|]. intros H; injection H as <-.
      right. eapply combine_all_err; eauto.
Qed.
