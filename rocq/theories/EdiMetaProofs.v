(** Lemmas about the key=value lines of EDI files. *)
From Verif Require Import PyBase PyText TextFacts EdiProofs EdiMetaModel EdiMetaSpec.
Local Open Scope list_scope.

Definition gapb (c : ascii) : bool := (is_space c || Ascii.eqb c "=")%bool.
Lemma gapb_spec c : gapb c = true <-> gap_char c.
Proof. unfold gapb, gap_char. rewrite orb_true_iff, Ascii.eqb_eq. reflexivity. Qed.
Fixpoint split_gap_from (cur s : text) : list text :=
  match s with
  | [] => match cur with [] => [] | _ => [rev cur] end
  | c :: r => if gapb c then match cur with [] => split_gap_from [] r | _ => rev cur :: split_gap_from [] r end
              else split_gap_from (c :: cur) r
  end.
Lemma split_ws_from_nil cur : split_ws_from cur [] = match cur with [] => [] | _ => [rev cur] end.
Proof. reflexivity. Qed.
Lemma split_both s : forall cur, match split_on equals s with p :: ps => split_ws_from cur p ++ flat_map split_ws ps | [] => [] end = split_gap_from cur s.
Proof.
  induction s as [|c s IH]; intros cur; [cbn [split_on split_gap_from]; rewrite split_ws_from_nil; cbn [flat_map]; apply app_nil_r|].
  cbn [split_on split_gap_from]. unfold gapb, equals in *. destruct (Ascii.eqb_spec c "=") as [->|N].
  - rewrite orb_true_r. rewrite split_ws_from_nil. specialize (IH []). pose proof (split_on_nonnil "=" s) as NN. destruct (split_on "=" s) as [|p ps]; [contradiction NN; reflexivity|].
    cbn [flat_map]. unfold split_ws at 1. rewrite IH. destruct cur; reflexivity.
  - rewrite orb_false_r. pose proof (split_on_nonnil "=" s) as NN. destruct (split_on "=" s) as [|p ps]; [contradiction NN; reflexivity|].
    cbn [split_ws_from]. destruct (is_space c); [|apply IH]. specialize (IH []). destruct cur; [exact IH|]. rewrite <- IH. reflexivity.
Qed.
Lemma gap_word w : forall cur r, forallb (fun c => negb (gapb c)) w = true -> split_gap_from cur (w ++ r) = split_gap_from (rev w ++ cur) r.
Proof.
  induction w as [|c w IH]; intros cur r H; [reflexivity|]. cbn [forallb] in H. apply andb_prop in H as [H1 H2]. apply negb_true_iff in H1.
  cbn [app split_gap_from rev]. rewrite H1, IH by exact H2. rewrite <- app_assoc. reflexivity.
Qed.
Lemma gap_lead g : forallb gapb g = true -> forall r, split_gap_from [] (g ++ r) = split_gap_from [] r.
Proof. intros H r. induction g as [|c g IH]; [reflexivity|]. cbn [forallb] in H. apply andb_prop in H as [H1 H2]. cbn [app split_gap_from]. rewrite H1. exact (IH H2). Qed.
Lemma gap_only g : forallb gapb g = true -> forall cur, split_gap_from cur g = match cur with [] => [] | _ => [rev cur] end.
Proof.
  induction g as [|c g IH]; intros H cur; [reflexivity|]. cbn [forallb] in H. apply andb_prop in H as [H1 H2]. cbn [split_gap_from]. rewrite H1, (IH H2). destruct cur; reflexivity.
Qed.
Lemma gap_trail s g : forallb gapb g = true -> forall cur, split_gap_from cur (s ++ g) = split_gap_from cur s.
Proof.
  intros H. induction s as [|c s IH]; intros cur; [cbn [app]; rewrite (gap_only g H); destruct cur; reflexivity|]. cbn [app split_gap_from]. destruct (gapb c); [destruct cur; rewrite IH; reflexivity|apply IH].
Qed.
Lemma spaces_gap s : forallb is_space s = true -> forallb gapb s = true.
Proof. intros H. apply forallb_forall. intros c I. rewrite forallb_forall in H. unfold gapb. rewrite (H c I). reflexivity. Qed.
Lemma strip_parts s : exists a b, s = a ++ strip s ++ b /\ forallb is_space a = true /\ forallb is_space b = true.
Proof.
  destruct (lstrip_decomp s) as (a & E & A). unfold strip. destruct (rstrip_decomp (lstrip s)) as (b & E2 & B). exists a, b. split; [|split; assumption]. rewrite <- E2. exact E.
Qed.
Lemma gap_strip s : split_gap_from [] (strip s) = split_gap_from [] s.
Proof.
  destruct (strip_parts s) as (a & b & E & A & B). rewrite E at 2. rewrite (gap_lead a (spaces_gap a A)), gap_trail by exact (spaces_gap b B). reflexivity.
Qed.
Lemma split_ws_words s : forall cur, forallb (fun c => negb (is_space c)) cur = true -> forall w, In w (split_ws_from cur s) -> forallb (fun c => negb (is_space c)) w = true.
Proof.
  induction s as [|c s IH]; intros cur C w I.
  - cbn [split_ws_from] in I. destruct cur; [contradiction|]. destruct I as [<-|[]]. rewrite forallb_rev. exact C.
  - cbn [split_ws_from] in I. destruct (is_space c) eqn:E.
    + destruct cur; [exact (IH [] eq_refl w I)|]. destruct I as [<-|I]; [rewrite forallb_rev; exact C|exact (IH [] eq_refl w I)].
    + apply (IH (c :: cur)); [|exact I]. cbn [forallb]. rewrite E. exact C.
Qed.
Lemma dense_strip w : forallb (fun c => negb (is_space c)) w = true -> strip w = w.
Proof.
  intros H. rewrite forallb_forall in H. apply strip_trimmed. split; intros c r ->; (assert (N : negb (is_space c) = true) by (apply H; (left; reflexivity) || (apply in_or_app; right; left; reflexivity))); apply negb_true_iff in N; exact N.
Qed.
Lemma strip_words s : map strip (split_ws (strip s)) = split_ws s.
Proof.
  rewrite split_ws_strip. rewrite <- (map_id (split_ws s)) at 2. apply map_ext_in. intros w I. apply dense_strip. exact (split_ws_words s [] eq_refl w I).
Qed.
Lemma equal_words_gap s : equal_words s = split_gap_from [] s.
Proof.
  unfold equal_words. rewrite (flat_map_ext _ split_ws) by (intros p; apply strip_words). rewrite <- (gap_strip s), <- split_both. pose proof (split_on_nonnil equals (strip s)) as NN.
  destruct (split_on equals (strip s)); [contradiction NN; reflexivity|reflexivity].
Qed.
Lemma eword_gap w : eword w -> w <> [] /\ forallb (fun c => negb (gapb c)) w = true.
Proof.
  intros [N H]. split; [exact N|]. apply forallb_forall. intros c I. destruct (H c I) as [S0 E]. unfold gapb. rewrite S0. destruct (Ascii.eqb_spec c "="); [contradiction|reflexivity].
Qed.
Lemma gaps_forallb g : (forall c, In c g -> gap_char c) -> forallb gapb g = true.
Proof. intros H. apply forallb_forall. intros c I. apply gapb_spec, H, I. Qed.
Lemma words_split ws s : words_of ws s -> split_gap_from [] s = ws.
Proof.
  induction 1 as [s G|g w rest ws G W WS IH R].
  - rewrite gap_only by exact (gaps_forallb s G). reflexivity.
  - destruct (eword_gap w W) as [N D]. rewrite (gap_lead g (gaps_forallb g G)), gap_word by exact D. rewrite app_nil_r.
    assert (X : match rev w with [] => @nil text | _ => [rev (rev w)] end = [w]) by (rewrite rev_involutive; destruct (rev w) eqn:E; [apply (f_equal (@rev ascii)) in E; rewrite rev_involutive in E; contradiction|reflexivity]).
    destruct R as [->|(c & r & -> & GC)].
    + cbn [split_gap_from] in *. rewrite X. rewrite <- IH. reflexivity.
    + apply gapb_spec in GC. cbn [split_gap_from] in IH |- *. rewrite GC in IH |- *. rewrite IH. destruct (rev w) eqn:E; [discriminate X|]. rewrite <- E in *. rewrite rev_involutive. reflexivity.
Qed.
Lemma words_of_blank ws b s : blank b -> words_of ws s -> words_of ws (b ++ s).
Proof.
  intros B W. assert (BG : forall c, In c b -> gap_char c) by (intros c I; left; exact (B c I)). destruct W as [s G|g w rest ws G W WS R].
  - constructor. intros c I. apply in_app_or in I as [I|I]; auto.
  - rewrite app_assoc. constructor; auto. intros c I. apply in_app_or in I as [I|I]; auto.
Qed.
Lemma words_of_equals ws s : words_of ws s -> words_of ws ("="%char :: s).
Proof.
  intros W. assert (EG : gap_char "="%char) by (right; reflexivity). destruct W as [s G|g w rest ws G W WS R].
  - constructor. intros c [<-|I]; auto.
  - change ("="%char :: g ++ w ++ rest) with (("="%char :: g) ++ w ++ rest). constructor; auto. intros c [<-|I]; auto.
Qed.
Definition flat (kvs : list (text * text)) : list text := flat_map (fun kv => [fst kv; snd kv]) kvs.
Lemma blank_gap_start b s : blank b -> (b ++ "="%char :: s = [] \/ exists c r, b ++ "="%char :: s = c :: r /\ gap_char c).
Proof. intros B. right. destruct b as [|c b]; [exists "="%char, s; split; [reflexivity|right; reflexivity]|]. exists c, (b ++ "="%char :: s). split; [reflexivity|left; apply B; left; reflexivity]. Qed.
Lemma line_words kvs s : line_of kvs s -> words_of (flat kvs) s.
Proof.
  induction 1 as [s B|b1 k b2 b3 v rest kvs B1 K B2 B3 V L IH R]; [constructor; intros c I; left; exact (B c I)|].
  cbn [flat flat_map fst snd app]. change (flat_map _ kvs) with (flat kvs).
  apply words_word; [intros c I; left; exact (B1 c I)|exact K| |exact (blank_gap_start b2 _ B2)].
  apply words_of_blank; [exact B2|]. apply words_of_equals. apply words_word; [intros c I; left; exact (B3 c I)|exact V|exact IH|].
  destruct R as [->|(c & r & -> & S0)]; [left; reflexivity|right; exists c, r; split; [reflexivity|left; exact S0]].
Qed.
Lemma flat_even kvs : Nat.odd (List.length (flat kvs)) = false.
Proof. induction kvs as [|kv kvs IH]; [reflexivity|exact IH]. Qed.
Lemma pair_flat kvs : pair_words (flat kvs) = map pair_text kvs.
Proof. induction kvs as [|[k v] kvs IH]; [reflexivity|]. cbn [flat flat_map app pair_words map fst snd]. change (flat_map _ kvs) with (flat kvs). rewrite IH. reflexivity. Qed.

(** ** Tags and comments *)
Lemma find_none p s : without p s -> find p s = None.
Proof. intros W. destruct (find p s) as [n|] eqn:F; [|reflexivity]. destruct (find_Some p s n F) as (a & b & E & _). contradiction (W _ _ E). Qed.
Lemma without_sub p a s b : without p (a ++ s ++ b) -> without p s.
Proof. intros W x y E. apply (W (a ++ x) (y ++ b)). rewrite E. repeat rewrite <- app_assoc. reflexivity. Qed.
Lemma without_strip p s : without p s -> without p (strip s).
Proof. intros W. destruct (strip_parts s) as (a & b & E & _). rewrite E in W. exact (without_sub p a _ b W). Qed.

Lemma rstrip_app_ne x y : rstrip y <> [] -> rstrip (x ++ y) = x ++ rstrip y.
Proof.
  intros N. destruct (rstrip_decomp y) as (b & E & B). rewrite E at 1. rewrite app_assoc, (rstrip_spaces b _ B).
  destruct (rev (rstrip y)) as [|c r] eqn:R; [apply (f_equal (@rev ascii)) in R; rewrite rev_involutive in R; contradiction|].
  assert (Y : rstrip y = rev r ++ [c]) by (rewrite <- (rev_involutive (rstrip y)), R; reflexivity). rewrite Y, app_assoc.
  apply rstrip_snoc. exact (rstrip_last y c (rev r) Y).
Qed.
Lemma rstrip_comment c : exists c', rstrip (txt "//" ++ c) = txt "//" ++ c'.
Proof.
  destruct (rstrip c) as [|x r] eqn:E.
  - destruct (rstrip_decomp c) as (b & E2 & B). rewrite E in E2. cbn [app] in E2. subst b. exists []. rewrite (rstrip_spaces c _ B). reflexivity.
  - exists (rstrip c). apply rstrip_app_ne. rewrite E. discriminate.
Qed.
Lemma find_first p l c x : p = [x; x] -> without p (l ++ [x]) -> find p (l ++ p ++ c) = Some (List.length l).
Proof.
  intros ->. induction l as [|y l IH]; intros W.
  - cbn [app List.length find]. destruct (prefix_of [x; x] (x :: x :: c)) eqn:P; [reflexivity|]. rewrite (proj2 (prefix_of_spec [x; x] (x :: x :: c)) (ex_intro _ c eq_refl)) in P. discriminate P.
  - cbn [app List.length find]. destruct (prefix_of [x; x] (y :: l ++ x :: x :: c)) eqn:P.
    + exfalso. apply prefix_of_spec in P as [r E]. cbn [app] in E. injection E as -> E. destruct l as [|z l]; cbn [app] in E.
      * apply (W [] []). reflexivity.
      * injection E as -> E. apply (W [] (l ++ [x])). reflexivity.
    + cbn [app] in IH. rewrite IH; [reflexivity|]. intros a b E. apply (W (y :: a) b). cbn [app]. rewrite E. reflexivity.
Qed.
Lemma drop_comment_at l c : l <> [] -> without (txt "//") (l ++ txt "/") -> drop_comment (l ++ txt "//" ++ c) = l.
Proof.
  intros N W. unfold drop_comment. rewrite (find_first (txt "//") l c "/"%char eq_refl W). destruct l as [|x l]; [contradiction|].
  cbn [List.length]. change (S (List.length l)) with (List.length (x :: l)). rewrite firstn_app, Nat.sub_diag, firstn_all, firstn_O, app_nil_r. reflexivity.
Qed.
Lemma drop_comment_none s : without (txt "//") s -> drop_comment s = s.
Proof. intros W. unfold drop_comment. rewrite (find_none _ _ W). reflexivity. Qed.
Lemma gap_nonblank s ws : ws <> [] -> split_gap_from [] s = ws -> lstrip s <> [].
Proof.
  intros N E L. destruct (lstrip_decomp s) as (a & E2 & A). rewrite L, app_nil_r in E2. subst a. rewrite gap_only in E by exact (spaces_gap s A). congruence.
Qed.
Lemma lstrip_app_ne s r : lstrip s <> [] -> lstrip (s ++ r) = lstrip s ++ r.
Proof.
  intros N. destruct (lstrip_decomp s) as (a & E & A). rewrite E at 1. rewrite <- app_assoc, (lstrip_spaces a _ A).
  apply lstrip_fixed. intros c r' E2. destruct (lstrip s) as [|x l] eqn:L; [contradiction|]. cbn [app] in E2. injection E2 as -> _. exact (lstrip_head s c l L).
Qed.
Lemma rstrip_ne s : lstrip s <> [] -> rstrip s <> [].
Proof.
  intros N R. destruct (rstrip_decomp s) as (b & E & B). rewrite R in E. cbn [app] in E. subst b. apply N. apply lstrip_all. exact B.
Qed.
(** The text before the comment, after [strip]. *)
Lemma commented_words line full ws : commented line full -> ws <> [] -> split_gap_from [] line = ws -> equal_words (drop_comment (strip full)) = ws.
Proof.
  intros C N E. rewrite equal_words_gap. destruct C as [W|c W].
  - rewrite drop_comment_none by (apply without_strip; exact W). rewrite gap_strip. exact E.
  - pose proof (gap_nonblank line ws N E) as NB. unfold strip. rewrite (lstrip_app_ne line _ NB). destruct (rstrip_comment c) as [c' RC].
    rewrite rstrip_app_ne by (rewrite RC; discriminate). rewrite RC. rewrite drop_comment_at; [|exact NB|].
    + destruct (lstrip_decomp line) as (a & E2 & A). rewrite E2 in E. rewrite gap_lead in E by exact (spaces_gap a A). exact E.
    + destruct (lstrip_decomp line) as (a & E2 & A). rewrite E2, <- app_assoc in W. intros x y E3. apply (W (a ++ x) y). rewrite <- app_assoc, <- E3. reflexivity.
Qed.
Lemma find_blank tag r : ~ In " "%char tag -> find (txt " ") (tag ++ " "%char :: r) = Some (List.length tag).
Proof.
  induction tag as [|c t IH]; intros N; [reflexivity|]. cbn [app find]. destruct (prefix_of (txt " ") (c :: t ++ " "%char :: r)) eqn:P; [exfalso; apply prefix_of_spec in P as [r' E]; cbn [app txt list_ascii_of_string] in E; injection E as -> _; apply N; left; reflexivity|].
  rewrite IH by (intros I; apply N; right; exact I). reflexivity.
Qed.
Lemma without_blank p x s : p = [x; x] -> x <> " "%char -> without p s -> without p (" "%char :: s).
Proof.
  intros -> N W a b E. destruct a as [|y a]; cbn [app] in E; [injection E as <- _; contradiction|]. injection E as _ E. exact (W a b E).
Qed.
Lemma tagged_words b0 tag line full ws : blank b0 -> In ">"%char tag -> (forall c, In c tag -> is_space c = false) -> commented line full -> ws <> [] ->
  split_gap_from [] line = ws -> equal_words (drop_comment (drop_tag (strip (b0 ++ tag ++ " "%char :: full)))) = ws.
Proof.
  intros B0 TG TS C N E. rewrite equal_words_gap. pose proof (gap_nonblank line ws N E) as NB. pose proof (rstrip_ne line NB) as NR.
  assert (FN : rstrip full <> []).
  { destruct C as [W|c W]; [exact NR|]. destruct (rstrip_comment c) as [c' RC]. rewrite rstrip_app_ne by (rewrite RC; discriminate). rewrite RC. destruct line; discriminate. }
  assert (ST : strip (b0 ++ tag ++ " "%char :: full) = tag ++ " "%char :: rstrip full).
  { unfold strip. rewrite lstrip_spaces by (apply forallb_forall; exact B0). rewrite lstrip_fixed.
    - change (tag ++ " "%char :: full) with (tag ++ txt " " ++ full). rewrite app_assoc, rstrip_app_ne by exact FN. rewrite <- app_assoc. reflexivity.
    - intros c r E2. apply TS. destruct tag as [|x tag]; [contradiction TG|]. cbn [app] in E2. injection E2 as -> _. left. reflexivity. }
  rewrite ST. unfold drop_tag. assert (G : has_char gt (tag ++ " "%char :: rstrip full) = true) by (apply has_char_In, in_or_app; left; exact TG). rewrite G.
  rewrite find_blank by (intros I; specialize (TS _ I); discriminate TS). rewrite skipn_app, skipn_all, Nat.sub_diag, skipn_O. cbn [app].
  assert (SB : forall s, split_gap_from [] (" "%char :: s) = split_gap_from [] s) by reflexivity.
  destruct C as [W|c W].
  - rewrite drop_comment_none.
    + rewrite SB. destruct (rstrip_decomp line) as (b & E2 & B). rewrite E2 in E. rewrite gap_trail in E by exact (spaces_gap b B). exact E.
    + apply (without_blank (txt "//") "/"%char _ eq_refl); [discriminate|]. destruct (rstrip_decomp line) as (b & E2 & B). rewrite E2 in W. intros x y E3. apply (W x (y ++ b)). rewrite E3. repeat rewrite <- app_assoc. reflexivity.
  - destruct (rstrip_comment c) as [c' RC]. rewrite rstrip_app_ne by (rewrite RC; discriminate). rewrite RC. change (" "%char :: line ++ txt "//" ++ c') with ((" "%char :: line) ++ txt "//" ++ c').
    rewrite drop_comment_at; [rewrite SB; exact E|discriminate|]. cbn [app]. apply (without_blank (txt "//") "/"%char _ eq_refl); [discriminate|exact W].
Qed.
Lemma drop_tag_none s : ~ In ">"%char s -> drop_tag s = s.
Proof. intros N. unfold drop_tag. rewrite (proj2 (has_char_notIn gt s) N). reflexivity. Qed.
Lemma strip_In c s : In c (strip s) -> In c s.
Proof. intros I. destruct (strip_parts s) as (a & b & E & _). rewrite E. apply in_or_app. right. apply in_or_app. left. exact I. Qed.
