(** C56: lines of key=value words. *)
From Verif Require Import PyBase PyText TextFacts EdiMetaModel EdiMetaSpec EdiMetaProofs.
Local Open Scope list_scope.

Lemma line_result kvs s : equal_words s = flat kvs -> (if Nat.odd (List.length (equal_words s)) then equal_words s else pair_words (equal_words s)) = map pair_text kvs.
Proof. intros ->. rewrite flat_even. apply pair_flat. Qed.
Lemma flat_ne (kvs : list (text * text)) : kvs <> [] -> flat kvs <> [].
Proof. destruct kvs; [contradiction|discriminate]. Qed.
(** Pairs with any white space around "=", with or without a comment, are split into exactly those pairs. *)
Theorem C56_pairs kvs line full : line_of kvs line -> kvs <> [] -> commented line full -> ~ In ">"%char full -> equal_lines full = map pair_text kvs.
Proof.
  intros L N C G. unfold equal_lines. rewrite drop_tag_none by (intros I; exact (G (strip_In _ _ I))). apply line_result.
  apply (commented_words line full); [exact C|exact (flat_ne kvs N)|]. exact (words_split _ _ (line_words kvs line L)).
Qed.
(** So are those that follow a tag such as >HMEAS and a blank. *)
Theorem C56_tagged b0 tag kvs line full : line_of kvs line -> kvs <> [] -> commented line full -> blank b0 -> In ">"%char tag ->
  (forall c, In c tag -> is_space c = false) -> equal_lines (b0 ++ tag ++ " "%char :: full) = map pair_text kvs.
Proof.
  intros L N C B0 T TS. unfold equal_lines. apply line_result.
  apply (tagged_words b0 tag line full); try assumption; [exact (flat_ne kvs N)|]. exact (words_split _ _ (line_words kvs line L)).
Qed.
Example C56_tagged_hyp : exists kvs line full, line_of kvs line /\ kvs <> [] /\ commented line full /\
  txt ">EMEAS" ++ " "%char :: full = txt ">EMEAS ID = 4.001 CHTYPE=EX  X2= 50.0 // north" /\
  map pair_text kvs = [txt "ID=4.001"; txt "CHTYPE=EX"; txt "X2=50.0"].
Proof.
  exists [(txt "ID", txt "4.001"); (txt "CHTYPE", txt "EX"); (txt "X2", txt "50.0")], (txt "ID = 4.001 CHTYPE=EX  X2= 50.0 "), (txt "ID = 4.001 CHTYPE=EX  X2= 50.0 // north").
  assert (W : forall s, s <> [] -> forallb (fun c => negb (is_space c) && negb (Ascii.eqb c "="))%bool s = true -> eword s).
  { intros s N F. split; [exact N|]. intros c I. rewrite forallb_forall in F. specialize (F c I). apply andb_prop in F as [F1 F2]. apply negb_true_iff in F1, F2. split; [exact F1|]. intros ->. discriminate F2. }
  assert (B : forall s, forallb is_space s = true -> blank s) by (intros s F c I; rewrite forallb_forall in F; exact (F c I)).
  split; [|split; [discriminate|split; [|split; reflexivity]]].
  - change (txt "ID = 4.001 CHTYPE=EX  X2= 50.0 ") with ([] ++ txt "ID" ++ txt " " ++ "="%char :: txt " " ++ txt "4.001" ++ (txt " " ++ txt "CHTYPE" ++ [] ++ "="%char :: [] ++ txt "EX" ++ (txt "  " ++ txt "X2" ++ [] ++ "="%char :: txt " " ++ txt "50.0" ++ txt " "))).
    constructor; try (apply W; [discriminate|reflexivity]); try (apply B; reflexivity); [|right; exists " "%char; eexists; split; reflexivity].
    constructor; try (apply W; [discriminate|reflexivity]); try (apply B; reflexivity); [|right; exists " "%char; eexists; split; reflexivity].
    constructor; try (apply W; [discriminate|reflexivity]); try (apply B; reflexivity); [|right; exists " "%char; eexists; split; reflexivity]. constructor. apply B. reflexivity.
  - change (txt "ID = 4.001 CHTYPE=EX  X2= 50.0 // north") with (txt "ID = 4.001 CHTYPE=EX  X2= 50.0 " ++ txt "//" ++ txt " north"). apply a_comment.
    intros a b E. assert (contains (txt "//") (txt "ID = 4.001 CHTYPE=EX  X2= 50.0 " ++ txt "/") = true) by (apply contains_spec; exists a, b; exact E). discriminate.
Qed.
(** In general the words between white space and "=" are counted: an even number is taken two by two, an odd number is returned as it is. *)
Theorem C56_words ws line : words_of ws line -> without (txt "//") line -> ~ In ">"%char line ->
  equal_lines line = if Nat.odd (List.length ws) then ws else pair_words ws.
Proof.
  intros W S0 G. unfold equal_lines. rewrite drop_tag_none by (intros I; exact (G (strip_In _ _ I))). rewrite drop_comment_none by (apply without_strip; exact S0).
  rewrite equal_words_gap, gap_strip, (words_split ws line W). reflexivity.
Qed.
Lemma line_of_snoc kvs line k : line_of kvs line -> eword k -> words_of (flat kvs ++ [k]) (line ++ " "%char :: k ++ [ "="%char ]).
Proof.
  intros L K. assert (B : forall c, In c [" "%char] -> gap_char c) by (intros c [<-|[]]; left; reflexivity).
  assert (E : forall c, In c ["="%char] -> gap_char c) by (intros c [<-|[]]; right; reflexivity).
  assert (T : words_of [k] (" "%char :: k ++ ["="%char])) by (change (" "%char :: k ++ ["="%char]) with ([" "%char] ++ k ++ ["="%char]); constructor; [exact B|exact K|constructor; exact E|right; exists "="%char, []; split; [reflexivity|right; reflexivity]]).
  induction L as [s BL|b1 k1 b2 b3 v rest kvs B1 K1 B2 B3 V L IH R].
  - cbn [flat flat_map app]. apply words_of_blank; [exact BL|exact T].
  - cbn [flat flat_map fst snd app]. change (flat_map _ kvs) with (flat kvs). repeat (rewrite <- app_assoc; cbn [app]).
    apply words_word; [intros c I; left; exact (B1 c I)|exact K1| |exact (blank_gap_start b2 _ B2)].
    apply words_of_blank; [exact B2|]. apply words_of_equals. apply words_word; [intros c I; left; exact (B3 c I)|exact V|exact IH|].
    right. destruct R as [->|(c & r & -> & S1)]; [exists " "%char, (k ++ ["="%char]); split; [reflexivity|left; reflexivity]|exists c, (r ++ " "%char :: k ++ ["="%char]); split; [reflexivity|left; exact S1]].
Qed.
(** One key without a value is enough for no pair to be returned: every word of the line comes back alone, without "=". *)
Theorem C56_empty_refuted kvs line k : line_of kvs line -> eword k ->
  let full := line ++ " "%char :: k ++ ["="%char] in without (txt "//") full -> ~ In ">"%char full ->
  equal_lines full = flat kvs ++ [k] /\ (forall w, In w (equal_lines full) -> ~ In "="%char w).
Proof.
  intros L K full S0 G. pose proof (line_of_snoc kvs line k L K) as W. fold full in W.
  assert (E : equal_lines full = flat kvs ++ [k]).
  { rewrite (C56_words _ _ W S0 G). rewrite app_length, Nat.add_comm. cbn [List.length Nat.add]. rewrite Nat.odd_succ, <- Nat.negb_odd, flat_even. reflexivity. }
  split; [exact E|]. rewrite E. clear E S0 G. revert W. generalize (flat kvs ++ [k]). clearbody full. intros ws W.
  induction W as [s0 _|g w rest ws _ [_ EW] _ IH _]; [intros w []|]. intros w' [<-|I]; [|exact (IH w' I)]. intros I. destruct (EW _ I) as [_ N]. exact (N eq_refl).
Qed.
Example C56_empty_hyp : exists kvs line, line_of kvs line /\ line ++ " "%char :: txt "ACQCHAN" ++ ["="%char] = txt "ID=1.0 ACQCHAN=" /\
  equal_lines (txt "ID=1.0 ACQCHAN=") = [txt "ID"; txt "1.0"; txt "ACQCHAN"].
Proof.
  exists [(txt "ID", txt "1.0")], (txt "ID=1.0"). split; [|split; [reflexivity|vm_compute; reflexivity]].
  change (txt "ID=1.0") with ([] ++ txt "ID" ++ [] ++ "="%char :: [] ++ txt "1.0" ++ []).
  assert (W : forall s, s <> [] -> forallb (fun c => negb (is_space c) && negb (Ascii.eqb c "="))%bool s = true -> eword s).
  { intros s N F. split; [exact N|]. intros c I. rewrite forallb_forall in F. specialize (F c I). apply andb_prop in F as [F1 F2]. apply negb_true_iff in F1, F2. split; [exact F1|]. intros ->. discriminate F2. }
  constructor; try (intros c []); try (apply W; [discriminate|reflexivity]); [constructor; intros c []|left; reflexivity].
Qed.
(** Two values with a blank in them: keys become values and values keys. *)
Theorem C56_blank_refuted k1 v1 v2 k2 w1 w2 : eword k1 -> eword v1 -> eword v2 -> eword k2 -> eword w1 -> eword w2 ->
  let line := k1 ++ "="%char :: v1 ++ " "%char :: v2 ++ " "%char :: k2 ++ "="%char :: w1 ++ " "%char :: w2 in
  without (txt "//") line -> ~ In ">"%char line ->
  equal_lines line = [pair_text (k1, v1); pair_text (v2, k2); pair_text (w1, w2)].
Proof.
  intros K1 V1 V2 K2 W1 W2 line S0 G. rewrite (C56_words [k1; v1; v2; k2; w1; w2] line); [reflexivity| |exact S0|exact G]. unfold line.
  assert (B : forall c, In c [" "%char] -> gap_char c) by (intros c [<-|[]]; left; reflexivity).
  assert (E : forall c, In c ["="%char] -> gap_char c) by (intros c [<-|[]]; right; reflexivity).
  assert (GB : forall r, exists c r', " "%char :: r = c :: r' /\ gap_char c) by (intros r; exists " "%char, r; split; [reflexivity|left; reflexivity]).
  assert (GE : forall r, exists c r', "="%char :: r = c :: r' /\ gap_char c) by (intros r; exists "="%char, r; split; [reflexivity|right; reflexivity]).
  apply (words_word [] k1); [intros c []|exact K1| |right; apply GE].
  apply (words_word ["="%char] v1); [exact E|exact V1| |right; apply GB].
  apply (words_word [" "%char] v2); [exact B|exact V2| |right; apply GB].
  apply (words_word [" "%char] k2); [exact B|exact K2| |right; apply GE].
  apply (words_word ["="%char] w1); [exact E|exact W1| |right; apply GB].
  replace (" "%char :: w2) with ([" "%char] ++ w2 ++ []) by (rewrite app_nil_r; reflexivity). apply (words_word [" "%char] w2); [exact B|exact W2|constructor; intros c []|left; reflexivity].
Qed.
Example C56_blank_hyp : equal_lines (txt "A=b c D=e f") = [txt "A=b"; txt "c=D"; txt "e=f"].
Proof. vm_compute. reflexivity. Qed.

Print Assumptions C56_pairs.
Print Assumptions C56_tagged.
Print Assumptions C56_words.
Print Assumptions C56_empty_refuted.
Print Assumptions C56_blank_refuted.
