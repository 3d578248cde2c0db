(** What the columns and rows of a Phoenix section write. *)
From Verif Require Import PyBase PyFacts PyText TextFacts PyNum PyFloat PyRepr ValidatorsProofs EdiProofs EdiMetaModel EdiMetaSpec HeadSpec HeadProofs InfoModel InfoSpec InfoProofs InfoProps PhxSpec PhxProofs.
From Coq Require Import Lia.
Local Open Scope list_scope.

Definition put (ws : list (text * text)) (d : info) : info := fold_left (fun d kv => dset text_dec (fst kv) (IText (snd kv)) d) ws d.
Lemma put_app a b d : put (a ++ b) d = put b (put a d).
Proof. apply fold_left_app. Qed.
Lemma not_says w k : ~ says w k -> contains (txt w) (lower k) = false.
Proof. unfold says. destruct (contains _ _); [intros H; contradiction H; reflexivity|reflexivity]. Qed.
Lemma standard_table a b : In (a, b) standard -> dget text_dec (txt a) phoenix_names = Some (txt b).
Proof.
  intros I. assert (P : forallb (fun p => match dget text_dec (txt (fst p)) phoenix_names with Some x => text_eqb x (txt (snd p)) | None => false end) standard = true) by (vm_compute; reflexivity).
  rewrite forallb_forall in P. specialize (P _ I). cbn [fst snd] in P. destruct (dget text_dec (txt a) phoenix_names) as [x|]; [|discriminate P]. apply text_eqb_eq in P. subst x. reflexivity.
Qed.
Lemma unknown_table k : ~ names (map fst standard) k -> dget text_dec k phoenix_names = None.
Proof.
  intros A. destruct (dget text_dec k phoenix_names) as [x|] eqn:E; [|reflexivity]. exfalso. apply dget_In in E.
  assert (P : forallb (fun p => existsb (fun n => text_eqb (fst p) (txt n)) (map fst standard)) phoenix_names = true) by (vm_compute; reflexivity).
  rewrite forallb_forall in P. specialize (P _ E). apply existsb_exists in P as (n & I & X). cbn [fst] in X. apply text_eqb_eq in X. apply A. exists n. split; assumption.
Qed.
Lemma title_table k t : title k t -> match dget text_dec (lower k) phoenix_names with Some s => s | None => txt "phoenix_attribute" end = t.
Proof. intros [a b I E|N]; [rewrite E, (standard_table a b I); reflexivity|rewrite (unknown_table _ N); reflexivity]. Qed.
Lemma first_word_split s w : first_word s w -> exists r, split_ws s = w :: r.
Proof.
  intros (N & S & H). assert (F : forallb (fun c => negb (is_space c)) w = true) by (apply forallb_forall; intros c I; rewrite (S c I); reflexivity). destruct H as [->|(c & r & -> & C)].
  - exists (split_ws []). pose proof (split_ws_cons w [] N F (or_introl eq_refl)) as X. rewrite app_nil_r in X. exact X.
  - exists (split_ws (c :: r)). apply split_ws_cons; [exact N|exact F|right; exists c, r; split; [reflexivity|exact C]].
Qed.
Lemma volts_replace x n : volts x n -> replace (txt "mV") [] x = n.
Proof.
  intros [m N|m N].
  - rewrite (replace_skip (txt "mV") [] "m"%char (txt "V") m eq_refl N). change (replace (txt "mV") [] (txt "mV")) with (@nil ascii). apply app_nil_r.
  - change (txt "mV") with ("m"%char :: txt "V"). apply replace_absent. exact N.
Qed.
Lemma parts_put key ps ws : Forall2 (part (firstn 2 key)) ps ws -> forall d, fold_left (voltage_entry key) ps (Ok d) = Ok (put (concat ws) d).
Proof.
  induction 1 as [|p w ps ws P F IH]; intros d; [reflexivity|]. cbn [fold_left concat]. rewrite put_app. rewrite <- IH. f_equal. unfold voltage_entry. cbn [bindR]. destruct P as [t x n T X V|s S].
  - change equals with "="%char. rewrite split_on_app by exact T. rewrite (split_on_no _ x X). rewrite (volts_replace x n V). reflexivity.
  - change equals with "="%char. rewrite (split_on_no _ s S). reflexivity.
Qed.
Lemma entry_put k v ws : entry k v ws -> forall d, phoenix_entry (lower k) v d = Ok (put ws d).
Proof.
  intros [ps ws' V R NP C J F|t w V R S T W|t c V R S T W|t V R S T] d; unfold phoenix_entry.
  - rewrite (not_says _ _ R). cbn [bindR]. unfold says in V. rewrite V. rewrite replace_filter. change (filter (fun x => negb (Ascii.eqb x " "%char)) v) with (without " " v). rewrite J. change (txt ",") with [","%char]. rewrite (split_join ","%char ps NP C). apply parts_put. exact F.
  - unfold says in R. rewrite R. destruct (first_word_split _ _ W) as (r & ->). cbn [bindR]. rewrite (not_says _ _ V), (not_says _ _ S). cbv zeta. rewrite (title_table k t T). reflexivity.
  - rewrite (not_says _ _ R). cbn [bindR]. rewrite (not_says _ _ V). unfold says in S. rewrite S. cbv zeta. rewrite (title_table k t T). destruct (first_word_split _ _ W) as (r & ->). reflexivity.
  - rewrite (not_says _ _ R). cbn [bindR]. rewrite (not_says _ _ V), (not_says _ _ S). cbv zeta. rewrite (title_table k t T). reflexivity.
Qed.
Lemma separator_colon k a : ~ In ":"%char k -> ~ In "="%char k -> separator (k ++ ":"%char :: a) = Some ":"%char.
Proof.
  induction k as [|c k IH]; intros C E; cbn [app].
  - unfold separator. cbn [find prefix_of]. change (find [colon] (":"%char :: a)) with (Some 0%nat). change (prefix_of [equals] (":"%char :: a)) with false. cbv iota. destruct (find [equals] a); reflexivity.
  - specialize (IH ltac:(intros I; apply C; right; exact I) ltac:(intros I; apply E; right; exact I)). unfold separator in *. cbn [find prefix_of]. destruct (Ascii.eqb colon c) eqn:X; [apply Ascii.eqb_eq in X; exfalso; apply C; left; symmetry; exact X|]. destruct (Ascii.eqb equals c) eqn:Y; [apply Ascii.eqb_eq in Y; exfalso; apply E; left; symmetry; exact Y|].
    cbn [andb]. destruct (find [colon] (k ++ ":"%char :: a)) as [i|]; destruct (find [equals] (k ++ ":"%char :: a)) as [j|]; cbn [option_map]; try exact IH.
Qed.
Lemma column_separator k c s : In c separators -> ~ separated k -> separator (k ++ c :: s) = Some c /\ split1 c (k ++ c :: s) = (k, Some s).
Proof.
  intros C N. apply not_separated in N as [N1 N2]. destruct C as [<-|[<-|[]]]; (split; [|apply split1_app; assumption]); [apply separator_colon; assumption|apply separator_value; assumption].
Qed.
Definition cut (v : text) : text := if contains (txt "  ") v then match split_on " " v with w :: _ => strip w | [] => [] end else v.
Lemma content_value s v : content s v -> cut (strip s) = v.
Proof.
  unfold cut. intros [t H|t w r a b E W E2].
  - destruct (contains (txt "  ") (strip t)) eqn:C; [|reflexivity]. apply contains_spec in C as (a & b & C). contradiction (H a b C).
  - assert (C : contains (txt "  ") (strip t) = true) by (apply contains_spec; exists a, b; exact E2). rewrite C, E. rewrite split_on_app by (intros I; apply W in I; discriminate I). apply strip_trimmed. split; intros c x X; apply W; rewrite X; [left; reflexivity|apply in_or_app; right; left; reflexivity].
Qed.
Lemma phoenix_column_ok k c s d : In c separators -> ~ separated k -> phoenix_column (Ok d) (k ++ c :: s) = phoenix_entry (lower (strip k)) (cut (strip s)) d.
Proof. intros C N. unfold phoenix_column. cbn [bindR]. destruct (column_separator k c s C N) as [-> ->]. reflexivity. Qed.
Lemma column_put s ws : column s ws -> forall d, phoenix_column (Ok d) s = Ok (put ws d).
Proof.
  intros [k c x v ws' C N V E|x N] d.
  - rewrite (phoenix_column_ok k c x d C N), (content_value x v V). apply entry_put. exact E.
  - apply not_separated in N as [N1 N2]. unfold phoenix_column. cbn [bindR]. rewrite (separator_key x N1 N2). reflexivity.
Qed.
Lemma row_put s ws : row s ws -> forall d, phoenix_line (Ok d) s = Ok (put ws d).
Proof.
  intros [x w H C|l sp r w1 w2 NL NR SL SR B N4 NaL NaR W4 S1 S2 C1 C2] d; unfold phoenix_line.
  - rewrite (split_one x H). cbn [fold_left]. apply column_put. exact C.
  - rewrite (split_two l sp r NL NR SL SR B N4 NaL NaR W4 S1 S2). cbn [fold_left]. rewrite (column_put l w1 C1), put_app. apply column_put. exact C2.
Qed.
Lemma rows_put ls wss : Forall2 row ls wss -> forall d, fold_left phoenix_line ls (Ok d) = Ok (put (concat wss) d).
Proof. induction 1 as [|s ws ls wss R F IH]; intros d; [reflexivity|]. cbn [fold_left concat]. rewrite (row_put s ws R), put_app. apply IH. Qed.
(** ** The dictionary *)
Lemma put_get ws : forall d K, dget text_dec K (put ws d) = match last_written K ws with Some v => Some (IText v) | None => dget text_dec K d end.
Proof.
  induction ws as [|[k v] ws IH]; intros d K; [reflexivity|]. cbn [put fold_left last_written fst snd]. change (fold_left (fun (d : info) (kv : text * text) => dset text_dec (fst kv) (IText (snd kv)) d) ws ?x) with (put ws x). rewrite IH. destruct (last_written K ws); [reflexivity|]. destruct (text_eqb k K) eqn:E.
  - apply text_eqb_eq in E. subst k. apply dget_dset_eq.
  - apply dget_dset_neq. intros ->. assert (X : text_eqb k k = true) by (apply text_eqb_eq; reflexivity). rewrite X in E. discriminate E.
Qed.
Lemma put_nodup ws : forall d, NoDup (map fst d) -> NoDup (map fst (put ws d)).
Proof. induction ws as [|[k v] ws IH]; intros d N; [exact N|]. cbn [put fold_left fst snd]. apply IH. apply NoDup_dset. exact N. Qed.
Lemma put_texts ws : forall d, (forall kv, In kv d -> exists s, snd kv = IText s) -> forall kv, In kv (put ws d) -> exists s, snd kv = IText s.
Proof.
  induction ws as [|[k v] ws IH]; intros d N; [exact N|]. cbn [put fold_left fst snd]. apply IH. clear -N. induction d as [|[k' v'] d IHd]; cbn [dset].
  - intros kv [<-|[]]. eexists. reflexivity.
  - destruct (text_dec k k').
    + intros kv [<-|I]; [eexists; reflexivity|apply N; right; exact I].
    + intros kv [<-|I]; [apply N; left; reflexivity|]. apply IHd; [intros z Z; apply N; right; exact Z|exact I].
Qed.
Lemma texts_comments d : (forall kv, In kv d -> exists s, snd kv = IText s) -> comments_to_string d = d.
Proof.
  intros H. unfold comments_to_string. rewrite <- (map_id d) at 2. apply map_ext_in. intros [k v] I. destruct (H _ I) as (s & E). cbn [snd fst] in *. rewrite E. reflexivity.
Qed.
(** ** The section *)
Lemma section_marks s : section_row s -> empower_mark (strip s) = false.
Proof.
  intros (_ & _ & A & B & C). unfold empower_mark. destruct (contains (txt "electrics") (lower (strip s))) eqn:E1; [contradiction A; apply says_strip; exact E1|]. destruct (contains (txt "magnetics") (lower (strip s))) eqn:E2; [contradiction B; apply says_strip; exact E2|]. destruct (contains (txt "empower") (lower (strip s))) eqn:E3; [contradiction C; apply says_strip; exact E3|]. cbn. apply andb_false_r.
Qed.
Lemma says_back w s : trimmed (txt w) -> txt w <> [] -> says w s -> contains (txt w) (lower (strip s)) = true.
Proof.
  intros T NE H. destruct (strip_decomp s) as (sp1 & sp2 & E & S1 & S2). unfold says in H. rewrite E, !lower_app in H.
  assert (LS : forall sp, forallb is_space sp = true -> lower sp = sp). { intros sp F. unfold lower. rewrite <- (map_id sp) at 2. apply map_ext_in. intros c I. rewrite forallb_forall in F. specialize (F c I). pose proof (ascii_forall (fun c => implb (is_space c) (Ascii.eqb (to_lower c) c)) ltac:(vm_compute; reflexivity) c) as X. cbv beta in X. rewrite F in X. apply Ascii.eqb_eq. exact X. }
  rewrite (LS _ S1), (LS _ S2) in H. apply contains_spec in H as (a & b & H). apply contains_spec.
  set (m := lower (strip s)) in *. destruct T as [T1 T2]. rewrite forallb_forall in S1, S2.
  destruct (txt w) as [|c0 w0] eqn:EW; [contradiction|]. pose proof (T1 c0 w0 eq_refl) as C0.
  assert (A : exists a', a = sp1 ++ a' /\ m ++ sp2 = a' ++ (c0 :: w0) ++ b).
  { apply app_eq_app in H as (l & [[H1 H2]|[H1 H2]]).
    - destruct l as [|x l]; [exists []; rewrite app_nil_r in H1; split; [rewrite app_nil_r; symmetry; exact H1|cbn [app] in *; symmetry; exact H2]|]. cbn [app] in H2. injection H2 as <- H2. exfalso. specialize (S1 c0 ltac:(rewrite H1; apply in_or_app; right; left; reflexivity)). rewrite C0 in S1. discriminate S1.
    - exists l. split; assumption. }
  destruct A as (a' & _ & A). rewrite app_assoc in A. apply app_eq_app in A as (l & [[H1 H2]|[H1 H2]]).
  - exists a', l. rewrite H1, <- app_assoc. reflexivity.
  - destruct (exists_last (l := c0 :: w0) ltac:(discriminate)) as (w1 & c1 & E1). destruct l as [|y l]; [exists a', []; rewrite app_nil_r in *; symmetry; exact H1|]. exfalso. destruct (exists_last (l := y :: l) ltac:(discriminate)) as (l1 & z & E2).
    rewrite E2, E1 in H1. rewrite !app_assoc in H1. apply app_inj_tail in H1 as [_ H1]. subst z. specialize (S2 c1). rewrite H2, E2 in S2. specialize (S2 ltac:(apply in_or_app; left; apply in_or_app; right; left; reflexivity)). pose proof (T2 c1 w1 E1) as C1. rewrite C1 in S2. discriminate S2.
Qed.
Lemma section_rows post lines : after_info post -> Forall (fun s => strip s = [] \/ section_row s) lines ->
  section_lines true (lines ++ post) = filter nonempty (map strip lines).
Proof.
  intros P. induction 1 as [|s lines H F IH]; [apply (section_after post P)|]. cbn [app map filter]. destruct H as [H|(NE & G & _)].
  - rewrite H. cbn [nonempty]. rewrite <- IH. cbn [section_lines]. cbv zeta. rewrite H. reflexivity.
  - rewrite (section_line s _ G NE). destruct (strip s) as [|c t] eqn:E; [contradiction|]. cbn [nonempty]. rewrite IH. reflexivity.
Qed.
