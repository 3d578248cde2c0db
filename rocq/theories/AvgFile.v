(** The lines of an AVG file are read back row by row. *)
From Coq Require Import Qabs.
From Verif Require Import PyBase PyText PyNum IsoModel PyFloat PySci PyFacts TextFacts PyFloatFacts PySciFacts ValidatorsModel ValidatorsProofs UnitsModel LocationModel EdiProofs Cplx AvgHeadModel AvgHeadSpec AvgHeadProofs AvgHeadValues AvgHeadProps AvgModel AvgSpec AvgText.
Local Open Scope nat_scope.

(** Lines with or without their newline. *)
Definition tailed (l t : list text) : Prop := Forall2 (fun s x => x = s \/ x = s ++ [newline]) l t.
Lemma readlines_last s : s <> [] -> ~ In newline s -> readlines s = [s].
Proof.
  destruct s as [|c s]; [congruence|]. intros _. revert c. induction s as [|c2 s IH]; intros c N.
  - cbn [readlines]. destruct (Ascii.eqb_spec c newline) as [->|]; [exfalso; apply N; left; reflexivity|reflexivity].
  - change (readlines (c :: c2 :: s)) with (if Ascii.eqb c newline then [c] :: readlines (c2 :: s) else match readlines (c2 :: s) with [] => [[c]] | l :: ls => (c :: l) :: ls end).
    destruct (Ascii.eqb_spec c newline) as [->|]; [exfalso; apply N; left; reflexivity|]. rewrite IH by (intros I; apply N; right; exact I). reflexivity.
Qed.
Lemma readlines_tailed l : Forall (fun s => s <> [] /\ ~ In newline s) l -> l <> [] -> tailed l (readlines (join [newline] l)).
Proof.
  induction l as [|s l IH]; intros F N; [congruence|]. destruct (Forall_inv F) as [S NL]. destruct l as [|s2 l].
  - cbn [join]. rewrite (readlines_last s S NL). constructor; [left; reflexivity|constructor].
  - change (join [newline] (s :: s2 :: l)) with (s ++ newline :: join [newline] (s2 :: l)). rewrite readlines_line by exact NL. constructor; [right; reflexivity|]. apply IH; [exact (Forall_inv_tail F)|discriminate].
Qed.
(** The lines that name a component. *)
Definition comp_line (c : text) : text := txt "$Rx.Cmp = " ++ capitalize c.
Lemma capital_word c : lower_word c -> ~ In "="%char (capitalize c) /\ ~ In newline (capitalize c) /\ strip (capitalize c) = capitalize c /\ lower (capitalize c) = c.
Proof.
  intros W. destruct (lower_word_facts c W) as (NE & ST & LO). split; [apply not_in_capitalize; [left; reflexivity|exact NE]|]. destruct W as [NN F].
  assert (NL : ~ In newline c). { intros I. pose proof (proj1 (Forall_forall _ _) F _ I) as X. discriminate X. }
  split; [apply not_in_capitalize; [right; reflexivity|exact NL]|]. split; [|rewrite lower_capitalize; exact LO]. apply no_space_strip. apply Forall_forall.
  assert (G : forall a, is_lower a = true -> is_space a = false /\ is_space (to_upper a) = false).
  { intros a H. assert (K : implb (is_lower a) (negb (is_space a) && negb (is_space (to_upper a))) = true) by (clear H; revert a; apply ascii_forall; vm_compute; reflexivity). rewrite H in K. cbn [implb] in K. apply andb_true_iff in K. destruct K as [K1 K2]. apply negb_true_iff in K1, K2. split; assumption. }
  destruct c as [|a r]; [congruence|]. unfold capitalize. assert (LO' : lower r = r) by (injection LO; auto). rewrite LO'. intros x [<-|I]; [apply G, (Forall_inv F)|apply G]. exact (proj1 (Forall_forall _ _) (Forall_inv_tail F) _ I).
Qed.
Lemma tail_strip s t : t = [] \/ t = [newline] -> strip (s ++ t) = strip s.
Proof. intros [-> | ->]; [rewrite app_nil_r; reflexivity|apply strip_line]. Qed.
Lemma read_comp_line h comp d c t : lower_word c -> t = [] \/ t = [newline] -> exists h', read_line (h, comp, d) (comp_line c ++ t) = Ok (h', Some c, d ++ [comp_line c ++ t]) /\ h_value h' = h_value h /\ h_other h' = h_other h.
Proof.
  intros W T. destruct (capital_word c W) as (NE & NL & ST & LO).
  assert (NE2 : ~ In "="%char (" "%char :: capitalize c ++ t)). { intros [I|I]; [discriminate I|]. apply in_app_or in I. destruct I as [I|I]; [exact (NE I)|]. destruct T as [-> | ->]; [destruct I|destruct I as [I|[]]; discriminate I]. }
  assert (K2 : ~ In "="%char (txt "Rx.Cmp ")) by (cbn; intuition discriminate).
  change (comp_line c ++ t) with ((txt "$Rx.Cmp = " ++ capitalize c) ++ t). rewrite <- app_assoc. change (txt "$Rx.Cmp = " ++ capitalize c ++ t) with (txt "$" ++ txt "Rx.Cmp " ++ txt "=" ++ (" "%char :: capitalize c ++ t)). unfold read_line.
  rewrite (header_line_is _ _ K2), (header_line_split _ _ K2 NE2). change (read_key (txt "Rx.Cmp ")) with (Ok (txt "rx.cmp ")). cbn [bindR]. unfold read_value.
  change (strip (" "%char :: capitalize c ++ t)) with (strip (capitalize c ++ t)). rewrite (tail_strip _ _ T), ST, LO.
  change (ends_with (txt ".proj") (txt "rx.cmp ") || ends_with (txt ".type") (txt "rx.cmp ") || ends_with (txt ".datum") (txt "rx.cmp ")) with false. change (ends_with (txt ".h_p_r") (txt "rx.cmp ")) with false. change (contains (txt "length") (txt "rx.cmp ")) with false.
  rewrite andb_false_r. cbv beta iota. cbn [bindR]. change (contains (txt "rx.cmp") (txt "rx.cmp ")) with true. cbv beta iota. unfold update_comp. change (split_on "." (txt "rx.cmp ")) with [txt "rx"; txt "cmp "]. cbv beta iota.
  change (memb (txt "rx") [txt "rx"; txt "ch"]) with true. cbv iota. unfold comp_value. change (text_eqb (txt "rx") (txt "rx")) with true. change (text_eqb (txt "cmp ") (txt "cmp")) with false. change (text_eqb (txt "cmp ") (txt "length")) with false. change (text_eqb (txt "cmp ") (txt "h_p_r")) with false. cbv iota. cbn [bindR raw_text].
  eexists. split; [reflexivity|]. split; reflexivity.
Qed.
(** Lines of the file after its header. *)
Definition avg_line (s : text) : Prop := data_line s \/ exists c, lower_word c /\ s = comp_line c.
Lemma avg_line_text s : avg_line s -> s <> [] /\ ~ In newline s.
Proof.
  intros [(L & N & _)|(c & W & ->)].
  - split; [intros ->; cbn in L; lia|exact N].
  - split; [discriminate|]. destruct (capital_word c W) as (_ & NL & _). unfold comp_line. intros I. apply in_app_or in I. destruct I as [I|I]; [cbn in I; intuition discriminate|exact (NL I)].
Qed.
Lemma header_keeps l t : tailed l t -> Forall avg_line l -> forall h comp d, exists h' comp', read_lines (h, comp, d) t = Ok (h', comp', d ++ t) /\ h_value h' = h_value h /\ h_other h' = h_other h.
Proof.
  induction 1 as [|s x l t SX T IH]; intros F h comp d.
  - exists h, comp. rewrite app_nil_r. repeat split.
  - cbn [read_lines]. assert (TT : exists tl, x = s ++ tl /\ (tl = [] \/ tl = [newline])). { destruct SX as [-> | ->]; [exists []; rewrite app_nil_r; auto|exists [newline]; auto]. } destruct TT as (tl & -> & TL).
    assert (ST : exists h1 c1, read_line (h, comp, d) (s ++ tl) = Ok (h1, c1, d ++ [s ++ tl]) /\ h_value h1 = h_value h /\ h_other h1 = h_other h).
    { destruct (Forall_inv F) as [(L & N & D)|(c & W & ->)].
      - exists h, comp. assert (D' : forall r, s ++ tl <> "$"%char :: r). { intros r E. destruct s as [|c s']; [cbn in L; lia|]. injection E as -> _. apply (D s'). reflexivity. }
        rewrite read_plain by exact D'. assert (X : (2 <? length (s ++ tl)) = true) by (apply Nat.ltb_lt; rewrite app_length; lia). rewrite X. repeat split.
      - destruct (read_comp_line h comp d c tl W TL) as (h1 & A & B & C). exists h1, (Some c). repeat split; assumption. }
    destruct ST as (h1 & c1 & -> & V & O). cbn [bindR]. destruct (IH (Forall_inv_tail F) h1 c1 (d ++ [s ++ tl])) as (h2 & c2 & R & V2 & O2). exists h2, c2. rewrite R, <- app_assoc. split; [reflexivity|]. split; congruence.
Qed.
(** ** Rows *)
Lemma has_dollar s t : In "$"%char s -> has_char "$" (s ++ t) = true.
Proof. intros I. destruct (has_char "$" (s ++ t)) eqn:E; [reflexivity|]. apply has_char_notIn in E. exfalso. apply E. apply in_or_app. left. exact I. Qed.
Lemma no_dollar s t : ~ In "$"%char s -> t = [] \/ t = [newline] -> has_char "$" (s ++ t) = false.
Proof. intros N T. apply has_char_notIn. intros I. apply in_app_or in I. destruct I as [I|I]; [exact (N I)|]. destruct T as [-> | ->]; [destruct I|destruct I as [I|[]]; discriminate I]. Qed.
Lemma rows_comp comp c t rest : lower_word c -> t = [] \/ t = [newline] -> read_rows comp ((comp_line c ++ t) :: rest) = read_rows (Some (capitalize c)) rest.
Proof.
  intros W T. destruct (capital_word c W) as (NE & NL & ST & LO). cbn [read_rows]. rewrite has_dollar by (left; reflexivity).
  assert (NE2 : ~ In "="%char (" "%char :: capitalize c ++ t)). { intros [I|I]; [discriminate I|]. apply in_app_or in I. destruct I as [I|I]; [exact (NE I)|]. destruct T as [-> | ->]; [destruct I|destruct I as [I|[]]; discriminate I]. }
  assert (S : split_on "=" (comp_line c ++ t) = [txt "$Rx.Cmp "; " "%char :: capitalize c ++ t]).
  { unfold comp_line. rewrite <- app_assoc. change (txt "$Rx.Cmp = " ++ capitalize c ++ t) with (txt "$Rx.Cmp " ++ "="%char :: (" "%char :: capitalize c ++ t)). rewrite split_on_app by (cbn; intuition discriminate). rewrite (split_on_no "="%char _ NE2). reflexivity. }
  rewrite S. change (strip (" "%char :: capitalize c ++ t)) with (strip (capitalize c ++ t)). rewrite (tail_strip _ _ T), ST. reflexivity.
Qed.
Lemma contains_app_l w s t : contains w s = true -> contains w (s ++ t) = true.
Proof. rewrite !contains_spec. intros (a & b & ->). exists a, (b ++ t). rewrite <- !app_assoc. reflexivity. Qed.
Lemma rows_column comp t rest : t = [] \/ t = [newline] -> read_rows comp ((column_line ++ t) :: rest) = read_rows comp rest.
Proof. intros [-> | ->]; reflexivity. Qed.
Lemma rows_row r c s t rest : row_line r = Ok s -> t = [] \/ t = [newline] -> exists r', r_comp r' = lower c /\ rounded r r' /\ read_rows (Some c) ((s ++ t) :: rest) = bindR (read_rows (Some c) rest) (fun rs => Ok (r' :: rs)).
Proof.
  intros H T. destruct (row_line_chars r s H) as [CH L]. destruct (row_back r c s t H T) as (r' & R & C & RO). exists r'. split; [exact C|]. split; [exact RO|]. cbn [read_rows].
  assert (NC : forall x, In x s -> line_char x = true) by (apply forallb_forall; exact CH).
  rewrite no_dollar; [|intros I; apply NC in I; discriminate I|exact T].
  assert (NS : contains (txt "skp") (lower (s ++ t)) = false).
  { destruct (contains (txt "skp") (lower (s ++ t))) eqn:E; [|reflexivity]. apply contains_spec in E. destruct E as (a & b & E). assert (I : In "s"%char (lower (s ++ t))). { rewrite E. apply in_or_app. right. left. reflexivity. }
    unfold lower in I. apply in_map_iff in I. destruct I as (x & EX & I). apply in_app_or in I. destruct I as [I|I]; [exfalso; apply (proj2 (proj2 (proj2 (line_char_not x (NC x I)))) EX)|]. destruct T as [-> | ->]; [destruct I|destruct I as [<-|[]]; discriminate EX]. }
  rewrite NS. assert (LL : (length (s ++ t) <? 2) = false) by (apply Nat.ltb_ge; rewrite app_length; lia). rewrite LL. cbn [orb]. rewrite R. reflexivity.
Qed.
Lemma tail_of s x : x = s \/ x = s ++ [newline] -> exists t, x = s ++ t /\ (t = [] \/ t = [newline]).
Proof. intros [-> | ->]; [exists []; rewrite app_nil_r; auto|exists [newline]; auto]. Qed.
(** What is read from a row that was written. *)
Definition read_from (r r' : row) : Prop := r_comp r' = r_comp r /\ rounded r r'.
Lemma rows_lines c rows : forall lines t rest, lower_word c -> Forall (fun r => r_comp r = c) rows -> map_result row_line rows = Ok lines -> tailed lines t ->
  exists rows', Forall2 read_from rows rows' /\ read_rows (Some (capitalize c)) (t ++ rest) = bindR (read_rows (Some (capitalize c)) rest) (fun rs => Ok (rows' ++ rs)).
Proof.
  induction rows as [|r rows IH]; intros lines t rest W F M T; cbn [map_result] in M.
  - assert (X : lines = []) by (injection M as <-; reflexivity). subst lines. inversion T; subst. exists []. split; [constructor|]. cbn [app]. destruct (read_rows (Some (capitalize c)) rest); reflexivity.
  - destruct (row_line r) as [s|] eqn:R; [|discriminate M]. cbn [bindR] in M. destruct (map_result row_line rows) as [ls|] eqn:M2; [|discriminate M]. cbn [bindR] in M.
    assert (X : lines = s :: ls) by (apply Ok_inj in M; congruence). subst lines. inversion T as [|s0 x ls0 t0 SX T2]; subst. destruct (tail_of s x SX) as (tl & -> & TL).
    destruct (IH ls t0 rest W (Forall_inv_tail F) eq_refl T2) as (rows' & F2 & R2). cbn [app].
    destruct (rows_row r (capitalize c) s tl (t0 ++ rest) R TL) as (r' & C & RO & RR). exists (r' :: rows'). split.
    + constructor; [|exact F2]. split; [|exact RO]. rewrite C, (Forall_inv F). apply (capital_word c W).
    + change (((s ++ tl) :: t0) ++ rest) with ((s ++ tl) :: (t0 ++ rest)). etransitivity; [exact RR|]. change (@app (list ascii) t0 rest) with (@app text t0 rest). rewrite R2. destruct (read_rows (Some (capitalize c)) rest); reflexivity.
Qed.
Definition of_comp (rows : list row) (c : text) : list row := sort_rows (filter (fun r => text_eqb (r_comp r) c) rows).
Lemma insert_in r x l : In x (insert_row r l) <-> x = r \/ In x l.
Proof.
  induction l as [|y l IH]; [cbn; intuition congruence|]. cbn [insert_row]. destruct (freq_le (r_freq r) (r_freq y)); [cbn; intuition congruence|]. cbn [In]. rewrite IH. intuition congruence.
Qed.
Lemma sort_in x l : In x (sort_rows l) <-> In x l.
Proof. induction l as [|y l IH]; [reflexivity|]. cbn [sort_rows fold_right]. fold (sort_rows l). rewrite insert_in, IH. cbn [In]. intuition congruence. Qed.
Lemma of_comp_in rows c r : In r (of_comp rows c) <-> In r rows /\ r_comp r = c.
Proof. unfold of_comp. rewrite sort_in, filter_In, text_eqb_eq. reflexivity. Qed.
Lemma section_rows rows c lines t comp rest : lower_word c -> section rows c = Ok lines -> of_comp rows c <> [] -> tailed lines t ->
  exists rows', Forall2 read_from (of_comp rows c) rows' /\ read_rows comp (t ++ rest) = bindR (read_rows (Some (capitalize c)) rest) (fun rs => Ok (rows' ++ rs)).
Proof.
  intros W S N T. unfold section in S. assert (E : bindR (map_result row_line (of_comp rows c)) (fun lines => Ok ((txt "$Rx.Cmp = " ++ capitalize c) :: column_line :: lines)) = Ok lines).
  { unfold of_comp in *. destruct (filter (fun r => text_eqb (r_comp r) c) rows); [exfalso; apply N; reflexivity|exact S]. }
  destruct (map_result row_line (of_comp rows c)) as [ls|] eqn:M; [|discriminate E]. cbn [bindR] in E. apply Ok_inj in E. subst lines.
  inversion T as [|s0 x1 l0 t1 S1 T1]; subst. inversion T1 as [|s0' x2 l0' t2 S2 T2]; subst. destruct (tail_of _ x1 S1) as (tl1 & -> & TL1). destruct (tail_of _ x2 S2) as (tl2 & -> & TL2).
  destruct (rows_lines c (of_comp rows c) ls t2 rest W) as (rows' & F2 & R2); [|exact M|exact T2|].
  - apply Forall_forall. intros r I. apply of_comp_in in I. apply I.
  - exists rows'. split; [exact F2|]. cbn [app]. change (txt "$Rx.Cmp = " ++ capitalize c) with (comp_line c). rewrite (rows_comp comp c tl1 _ W TL1), (rows_column _ tl2 _ TL2). exact R2.
Qed.
Lemma tailed_app a b t : tailed (a ++ b) t -> exists ta tb, t = ta ++ tb /\ tailed a ta /\ tailed b tb.
Proof.
  intros T. unfold tailed in *. apply Forall2_app_inv_l in T. destruct T as (ta & tb & A & B & E). exists ta, tb. repeat split; assumption.
Qed.
Lemma sections_rows rows : forall comps secs t comp, Forall lower_word comps -> Forall (fun c => of_comp rows c <> []) comps -> map_result (section rows) comps = Ok secs -> tailed (concat secs) t ->
  exists rows', Forall2 read_from (flat_map (of_comp rows) comps) rows' /\ read_rows comp t = Ok rows'.
Proof.
  induction comps as [|c comps IH]; intros secs t comp W N M T; cbn [map_result] in M.
  - assert (X : secs = []) by (injection M as <-; reflexivity). subst secs. inversion T; subst. exists []. split; [constructor|reflexivity].
  - destruct (section rows c) as [ls|] eqn:S; [|discriminate M]. cbn [bindR] in M. destruct (map_result (section rows) comps) as [ss|] eqn:M2; [|discriminate M]. cbn [bindR] in M. apply Ok_inj in M. subst secs.
    cbn [concat] in T. destruct (tailed_app _ _ _ T) as (ta & tb & -> & TA & TB).
    destruct (IH ss tb (Some (capitalize c)) (Forall_inv_tail W) (Forall_inv_tail N) eq_refl TB) as (r2 & F2 & R2).
    destruct (section_rows rows c ls ta comp tb (Forall_inv W) S (Forall_inv N) TA) as (r1 & F1 & R1). exists (r1 ++ r2). split; [cbn [flat_map]; apply Forall2_app; assumption|]. rewrite R1, R2. reflexivity.
Qed.
(** Lines of a section are lines of the file. *)
Lemma section_lines rows c lines : lower_word c -> section rows c = Ok lines -> Forall avg_line lines.
Proof.
  intros W S. unfold section in S. destruct (filter (fun r => text_eqb (r_comp r) c) rows) as [|r0 l]; [apply Ok_inj in S; subst; constructor|].
  destruct (map_result row_line (sort_rows (r0 :: l))) as [ls|] eqn:M; [|discriminate S]. cbn [bindR] in S. apply Ok_inj in S. subst lines.
  constructor; [right; exists c; split; [exact W|reflexivity]|]. constructor.
  - left. split; [cbn; lia|]. split; [apply has_char_notIn; vm_compute; reflexivity|]. intros r E. discriminate E.
  - revert ls M. generalize (sort_rows (r0 :: l)). clear. induction l as [|r l IH]; intros ls M; cbn [map_result] in M; [apply Ok_inj in M; subst; constructor|].
    destruct (row_line r) as [s|] eqn:R; [|discriminate M]. cbn [bindR] in M. destruct (map_result row_line l) as [ss|] eqn:M2; [|discriminate M]. cbn [bindR] in M. apply Ok_inj in M. subst ls. constructor; [|apply IH; reflexivity].
    left. destruct (row_line_chars r s R) as [CH L]. assert (NC : forall x, In x s -> line_char x = true) by (apply forallb_forall; exact CH). split; [exact L|]. split; [intros I; apply NC in I; discriminate I|]. intros r1 E. subst s. specialize (NC "$"%char (or_introl eq_refl)). discriminate NC.
Qed.
Lemma sections_lines rows : forall comps secs, Forall lower_word comps -> map_result (section rows) comps = Ok secs -> Forall avg_line (concat secs).
Proof.
  induction comps as [|c comps IH]; intros secs W M; cbn [map_result] in M; [apply Ok_inj in M; subst; constructor|].
  destruct (section rows c) as [ls|] eqn:S; [|discriminate M]. cbn [bindR] in M. destruct (map_result (section rows) comps) as [ss|] eqn:M2; [|discriminate M]. cbn [bindR] in M. apply Ok_inj in M. subst secs.
  cbn [concat]. apply Forall_app. split; [apply (section_lines rows c ls (Forall_inv W) S)|apply IH; [exact (Forall_inv_tail W)|reflexivity]].
Qed.
(** ** The whole file *)
Lemma file_rows h h0 rows comps secs : good_head h -> Forall lower_word comps -> comps <> [] -> Forall (fun c => of_comp rows c <> []) comps -> map_result (section rows) comps = Ok secs ->
  exists h' lines rows', read_header h0 (readlines (join [newline] (write_header h ++ concat secs))) = Ok (h', lines) /\ (forall f, comes_back f (h_value h f) (h_value h' f)) /\ h_other h' = h_other h0 /\
    read_rows None lines = Ok rows' /\ Forall2 read_from (flat_map (of_comp rows) comps) rows'.
Proof.
  intros G W NC N M. pose proof (sections_lines rows comps secs W M) as AL.
  assert (NE : concat secs <> []).
  { destruct comps as [|c comps]; [congruence|]. cbn [map_result] in M. destruct (section rows c) as [ls|] eqn:S; [|discriminate M]. cbn [bindR] in M. destruct (map_result (section rows) comps) as [ss|]; [|discriminate M]. cbn [bindR] in M. apply Ok_inj in M. subst secs.
    unfold section in S. pose proof (Forall_inv N) as NR. unfold of_comp in NR. destruct (filter (fun r => text_eqb (r_comp r) c) rows) as [|r0 l]; [exfalso; apply NR; reflexivity|]. destruct (map_result row_line (sort_rows (r0 :: l))); [|discriminate S]. cbn [bindR] in S. apply Ok_inj in S. subst ls. discriminate. }
  destruct (header_then h (concat secs) h0 G NE) as (h1 & CB & O & _ & R).
  assert (T : tailed (concat secs) (readlines (join [newline] (concat secs)))) by (apply readlines_tailed; [eapply Forall_impl; [|exact AL]; intros s; apply avg_line_text|exact NE]).
  destruct (header_keeps _ _ T AL h1 None []) as (h2 & c2 & R2 & V2 & O2). destruct (sections_rows rows comps secs _ None W N M T) as (rows' & F & R3).
  exists h2, (readlines (join [newline] (concat secs))), rows'. split; [unfold read_header; rewrite R, R2; reflexivity|]. split; [intros f; rewrite V2; apply CB|]. split; [congruence|]. split; assumption.
Qed.
