(** Lemmas for C51. *)
From Coq Require Import Qabs Qpower Lqa.
From Verif Require Import PyBase PyText TextFacts PyNum IsoModel IsoProofs PyFloat PyFloatFacts PySci PySciFacts EdiModel EdiProofs ZmmModel ZmmSpec.
Local Open Scope list_scope.
Local Open Scope Z_scope.

(** ** Searching and splitting *)
Lemma prefix_of_sep p : forall a c b, ~ In c p -> prefix_of p (a ++ c :: b) = prefix_of p a.
Proof.
  induction p as [|x p IH]; intros a c b N; [destruct a; reflexivity|]. destruct a as [|y a].
  - cbn [app prefix_of]. destruct (Ascii.eqb_spec x c) as [->|E]; [exfalso; apply N; left; reflexivity|reflexivity].
  - cbn [app prefix_of]. rewrite IH; [reflexivity|]. intros I. apply N. right. exact I.
Qed.
Lemma contains_nil p : contains p [] = prefix_of p [].
Proof. unfold contains. cbn [find]. destruct (prefix_of p []); reflexivity. Qed.
Lemma contains_cons p c r : contains p (c :: r) = (prefix_of p (c :: r) || contains p r)%bool.
Proof. unfold contains. cbn [find]. destruct (prefix_of p (c :: r)); [reflexivity|]. destruct (find p r); reflexivity. Qed.
Lemma contains_sep p a c b : ~ In c p -> contains p (a ++ c :: b) = (contains p a || contains p b)%bool.
Proof.
  intros N. induction a as [|x a IH].
  - cbn [app]. rewrite contains_cons, contains_nil. pose proof (prefix_of_sep p [] c b N) as F. cbn [app] in F. rewrite F. reflexivity.
  - change ((x :: a) ++ c :: b) with (x :: (a ++ c :: b)). rewrite !contains_cons, IH.
    change (x :: (a ++ c :: b)) with ((x :: a) ++ c :: b). rewrite (prefix_of_sep p (x :: a) c b N). destruct (prefix_of p (x :: a)); reflexivity.
Qed.
Definition word (p : text) : Prop := p <> [] /\ forallb (fun c => negb (is_space c)) p = true.
Lemma word_no_space p c : word p -> is_space c = true -> ~ In c p.
Proof. intros [_ H] S0 I. rewrite forallb_forall in H. specialize (H c I). rewrite S0 in H. discriminate H. Qed.
Lemma contains_words_from p : word p -> forall s cur, contains p (rev cur ++ s) = existsb (contains p) (split_ws_from cur s).
Proof.
  intros W. assert (E0 : contains p [] = false) by (rewrite contains_nil; destruct W as [W _]; destruct p; [contradiction|reflexivity]).
  induction s as [|c s IH]; intros cur.
  - rewrite app_nil_r. cbn [split_ws_from]. destruct cur as [|x cur]; [exact E0|]. cbn [existsb]. rewrite orb_false_r. reflexivity.
  - cbn [split_ws_from]. destruct (is_space c) eqn:S0.
    + rewrite (contains_sep p _ c s (word_no_space p c W S0)). pose proof (IH []) as I0. cbn [rev app] in I0. rewrite I0. destruct cur as [|x cur].
      * cbn [rev]. rewrite E0. reflexivity.
      * reflexivity.
    + rewrite <- IH. cbn [rev]. rewrite <- app_assoc. reflexivity.
Qed.
Lemma contains_words p s : word p -> contains p s = existsb (contains p) (split_ws s).
Proof. intros W. exact (contains_words_from p W s []). Qed.
Lemma contains_head x p w : ~ In x w -> contains (x :: p) w = false.
Proof.
  intros N. destruct (contains (x :: p) w) eqn:E; [|reflexivity]. apply contains_spec in E as (a & b & ->). exfalso. apply N. apply in_or_app. right. left. reflexivity.
Qed.
Lemma split_str_step p a c s cur : contains p a = false -> ~ In c p -> p <> [] ->
  split_str_from p 0 cur (a ++ c :: s) = split_str_from p 0 (c :: rev a ++ cur) s.
Proof.
  revert cur. induction a as [|x a IH]; intros cur E N P.
  - cbn [app rev]. cbn [split_str_from]. pose proof (prefix_of_sep p [] c s N) as F. cbn [app] in F. rewrite F. destruct p; [contradiction|reflexivity].
  - rewrite contains_cons in E. apply orb_false_elim in E as [E1 E2]. change ((x :: a) ++ c :: s) with (x :: (a ++ c :: s)). cbn [split_str_from].
    change (x :: (a ++ c :: s)) with ((x :: a) ++ c :: s). rewrite (prefix_of_sep p (x :: a) c s N), E1. rewrite IH by assumption.
    cbn [rev]. rewrite <- app_assoc. reflexivity.
Qed.
Lemma split_str_skip p w s cur : split_str_from p (List.length w) cur (w ++ s) = split_str_from p 0 cur s.
Proof. induction w as [|c w IH]; [reflexivity|]. cbn [List.length app split_str_from]. exact IH. Qed.
Lemma split_str_hit p s cur : p <> [] -> split_str_from p 0 cur (p ++ s) = rev cur :: split_str_from p 0 [] s.
Proof.
  intros P. destruct p as [|x p]; [contradiction|]. cbn [app split_str_from].
  assert (F : prefix_of (x :: p) (x :: p ++ s) = true) by (apply prefix_of_spec; exists s; reflexivity).
  rewrite F. cbn [List.length]. replace (S (List.length p) - 1)%nat with (List.length p) by lia. rewrite split_str_skip. reflexivity.
Qed.
Lemma split_str_none p : p <> [] -> forall s cur, contains p s = false -> split_str_from p 0 cur s = [rev cur ++ s].
Proof.
  intros P. induction s as [|c s IH]; intros cur E; [cbn [split_str_from]; rewrite app_nil_r; reflexivity|].
  rewrite contains_cons in E. apply orb_false_elim in E as [E1 E2]. cbn [split_str_from]. rewrite E1, IH by exact E2. cbn [rev]. rewrite <- app_assoc. reflexivity.
Qed.
(** A piece that ends with a character not in the separator. *)
Lemma split_str_piece p a c s : contains p a = false -> ~ In c p -> p <> [] -> split_str p (a ++ c :: p ++ s) = (a ++ [c]) :: split_str p s.
Proof.
  intros E N P. unfold split_str. rewrite split_str_step by assumption. rewrite split_str_hit by exact P. cbn [rev]. rewrite app_nil_r, rev_involutive. reflexivity.
Qed.
Lemma split_str_start p s : p <> [] -> split_str p (p ++ s) = [] :: split_str p s.
Proof. intros P. unfold split_str. rewrite split_str_hit by exact P. reflexivity. Qed.
(** ** Reading one word *)
Lemma word_after_start sep line b w ws : word sep -> strip line = sep ++ b -> split_ws b = w :: ws -> existsb (contains sep) (w :: ws) = false -> word_after sep line = Ok (strip w).
Proof.
  intros W S0 B C. unfold word_after. rewrite S0, (split_str_start sep b (proj1 W)). unfold split_str.
  rewrite (split_str_none sep (proj1 W) b []); [cbn [rev app]; rewrite B; reflexivity|]. rewrite (contains_words sep b W), B. exact C.
Qed.
Lemma word_after_mid sep line a b w ws : word sep -> strip line = a ++ " "%char :: sep ++ b -> existsb (contains sep) (split_ws a) = false ->
  split_ws b = w :: ws -> existsb (contains sep) (w :: ws) = false -> word_after sep line = Ok (strip w).
Proof.
  intros W S0 A B C. unfold word_after. rewrite S0. rewrite split_str_piece; [|rewrite (contains_words sep a W); exact A|apply (word_no_space sep _ W); reflexivity|exact (proj1 W)].
  unfold split_str. rewrite (split_str_none sep (proj1 W) b []); [cbn [rev app]; rewrite B; reflexivity|]. rewrite (contains_words sep b W), B. exact C.
Qed.
(** ** Numbers *)
Lemma read_int_show n : read_int (show_int n) = Some n.
Proof.
  unfold read_int. rewrite (strip_no_space _ (show_int_chars n)). unfold show_int. destruct (Z.ltb_spec n 0) as [L|L].
  - cbn [read_sign]. change (Ascii.eqb "-" "-") with true. cbv iota. rewrite (show_nat_digits (- n)) by lia.
    destruct (show_nat (- n)) as [|c r] eqn:E; [exfalso; apply (show_nat_nonempty (- n)); [lia|exact E]|]. cbn [nonempty andb]. rewrite <- E, number_of_show_nat by lia. f_equal. lia.
  - destruct (show_nat n) as [|c r] eqn:E; [exfalso; apply (show_nat_nonempty n); [lia|exact E]|].
    pose proof (show_nat_digits n L) as D. rewrite E in D. assert (C : is_digit c = true) by (cbn [forallb] in D; apply andb_prop in D as [D _]; exact D).
    rewrite (read_sign_digits c r C). rewrite D. cbn [nonempty andb]. rewrite <- E, number_of_show_nat by lia. f_equal. lia.
Qed.
Lemma num_word s : s <> [] -> forallb num_char s = true -> word s.
Proof. intros N H. split; [exact N|]. rewrite forallb_forall in *. intros c I. destruct (num_char_not c (H c I)) as [S0 _]. rewrite S0. reflexivity. Qed.
Lemma show_int_word n : word (show_int n).
Proof.
  apply num_word; [|apply show_int_chars]. unfold show_int. destruct (Z.ltb_spec n 0); [discriminate|]. apply show_nat_nonempty. lia.
Qed.
Lemma sci_word s : s <> [] -> forallb sci_char s = true -> word s.
Proof. intros N H. split; [exact N|]. rewrite forallb_forall in *. intros c I. destruct (sci_char_not c (H c I)) as [S0 _]. rewrite S0. reflexivity. Qed.
Lemma show_fixed_chars d q : forallb num_char (show_fixed d q) = true.
Proof. apply show_scaled_chars. Qed.
Lemma show_fixed_word d q : word (show_fixed d q).
Proof.
  apply num_word; [|apply show_fixed_chars]. unfold show_fixed, show_scaled. destruct (_ <? 0); [discriminate|]. intros E. apply app_eq_nil in E as [E _].
  revert E. apply show_nat_nonempty. apply Z.div_pos; [apply Z.abs_nonneg|apply Z.pow_pos_nonneg; lia].
Qed.
Lemma num_sci s : forallb num_char s = true -> forallb sci_char s = true.
Proof.
  intros H. rewrite forallb_forall in *. intros c I. unfold sci_char. rewrite (H c I). reflexivity.
Qed.
Lemma sci_no_letter s x : forallb sci_char s = true -> sci_char x = false -> ~ In x s.
Proof. intros H N I. rewrite forallb_forall in H. rewrite (H x I) in N. discriminate N. Qed.
Lemma sci_lower c : sci_char c = true -> to_lower c = c /\ to_lower (to_upper c) = c.
Proof.
  intros H. assert (G : implb (sci_char c) (Ascii.eqb (to_lower c) c && Ascii.eqb (to_lower (to_upper c)) c) = true) by (clear H; revert c; apply ascii_forall; vm_compute; reflexivity).
  rewrite H in G. cbn [implb] in G. apply andb_prop in G as [G1 G2]. split; apply Ascii.eqb_eq; assumption.
Qed.
Lemma lower_sci s : forallb sci_char s = true -> lower s = s.
Proof.
  induction s as [|c s IH]; intros H; [reflexivity|]. cbn [forallb] in H. apply andb_prop in H as [H1 H2]. cbn [lower map]. unfold lower in IH. rewrite IH by exact H2. rewrite (proj1 (sci_lower c H1)). reflexivity.
Qed.
Lemma lower_upper_sci s : forallb sci_char s = true -> lower (upper s) = s.
Proof.
  induction s as [|c s IH]; intros H; [reflexivity|]. cbn [forallb] in H. apply andb_prop in H as [H1 H2]. cbn [lower upper map]. unfold lower, upper in IH. rewrite IH by exact H2. rewrite (proj2 (sci_lower c H1)). reflexivity.
Qed.
Lemma lower_spaces n : lower (repeat " "%char n) = repeat " "%char n.
Proof. induction n as [|n IH]; [reflexivity|]. cbn [repeat lower map]. unfold lower in IH. rewrite IH. reflexivity. Qed.
Lemma spaces_space n : forallb is_space (repeat " "%char n) = true.
Proof. apply forallb_forall. intros c I. apply repeat_spec in I. subst c. reflexivity. Qed.
(** The widths. *)
Lemma show_digits_length f : forall n k, 0 <= n < 10 ^ Z.of_nat (S k) -> (List.length (show_digits f n) <= S k)%nat.
Proof.
  induction f as [|f IH]; intros n k B; [cbn; lia|]. cbn [show_digits]. destruct (Z.ltb_spec n 10) as [L|L]; [cbn; lia|].
  destruct k as [|k]; [change (10 ^ Z.of_nat 1) with 10 in B; lia|]. rewrite app_length. cbn [List.length].
  assert (B' : 0 <= n / 10 < 10 ^ Z.of_nat (S k)).
  { split; [apply Z.div_pos; lia|]. apply Z.div_lt_upper_bound; [lia|]. replace (Z.of_nat (S (S k))) with (Z.succ (Z.of_nat (S k))) in B by lia. rewrite Z.pow_succ_r in B by lia. lia. }
  specialize (IH (n / 10) k B'). lia.
Qed.
Lemma level_length n : -999999 <= n <= 9999999 -> (List.length (show_int n) <= 7)%nat.
Proof.
  intros B. unfold show_int. destruct (Z.ltb_spec n 0) as [L|L].
  - cbn [List.length]. pose proof (show_digits_length (S (Z.to_nat (Z.log2 (- n)))) (- n) 5) as H. change (10 ^ Z.of_nat 6) with 1000000 in H. specialize (H ltac:(lia)). unfold show_nat. lia.
  - pose proof (show_digits_length (S (Z.to_nat (Z.log2 n))) n 6) as H. change (10 ^ Z.of_nat 7) with 10000000 in H. specialize (H ltac:(lia)). unfold show_nat. lia.
Qed.
Local Notation ten := PySciFacts.ten.
Lemma sci4_exp q m e : printable q -> sci 4 q = (m, e) -> -99 <= e <= 99.
Proof.
  intros [Z0|[A B]] E; [|change ((ten (-99) <= Qabs q)%Q) in A; change ((Qabs q < ten 99)%Q) in B].
  - assert (Z1 : sci 4 q = (0, 0)) by (rewrite Z0; reflexivity). rewrite Z1 in E. injection E as <- <-. lia.
  - assert (P : (0 < Qabs q)%Q) by (pose proof (ten_pos (-99)); lra). destruct (sci_exp_spec _ P) as [C D].
    assert (X : -99 <= sci_exp (Qabs q)) by (apply ten_inj; lra).
    assert (Y : sci_exp (Qabs q) <= 98) by (apply ten_inj; change (98 + 1) with 99; lra).
    unfold sci in E. destruct (Qcompare q 0); cbv beta iota zeta in E.
    + injection E as _ <-. lia.
    + destruct (_ =? _); apply pair_equal_spec in E; destruct E; lia.
    + destruct (_ =? _); apply pair_equal_spec in E; destruct E; lia.
Qed.
Lemma show_sci4_length q : printable q -> (List.length (show_sci 4 q) <= 11)%nat.
Proof.
  intros P. unfold show_sci. destruct (sci 4 q) as [m e] eqn:E. pose proof (sci4_exp q m e P E) as B.
  assert (L : List.length (sci_body 4 m e) = 10%nat).
  { unfold sci_body. cbn [List.length]. rewrite app_length, pad_length. unfold sci_exp_text. rewrite !app_length.
    rewrite (proj2 (Z.ltb_lt (Z.abs e) 100)) by lia. rewrite pad_length. destruct (e <? 0); reflexivity. }
  destruct (m <? 0); [cbn [List.length]; rewrite L; lia|rewrite L; lia].
Qed.
Lemma show_sci4_word q : word (show_sci 4 q).
Proof.
  apply sci_word; [|apply show_sci_chars]. unfold show_sci. destruct (sci 4 q) as [m e]. destruct (m <? 0); discriminate.
Qed.
(** A number of the file in lower case: spaces, at least one, and its text. *)
Lemma znumber_shape q : printable q -> exists sp, sp <> [] /\ forallb is_space sp = true /\ ~ In newline sp /\ lower (znumber q) = sp ++ show_sci 4 q.
Proof.
  intros P. unfold znumber, rjust. rewrite lower_app, lower_spaces, (lower_upper_sci _ (show_sci_chars 4 q)).
  exists (repeat " "%char (12 - List.length (upper (show_sci 4 q)))).
  assert (L : (List.length (upper (show_sci 4 q)) <= 11)%nat) by (unfold upper; rewrite map_length; apply show_sci4_length; exact P).
  split; [destruct (12 - List.length (upper (show_sci 4 q)))%nat eqn:Q0; [lia|discriminate]|]. split; [apply spaces_space|]. split; [|reflexivity].
  intros I. apply repeat_spec in I. discriminate I.
Qed.
Lemma split_ws_znumbers xs : Forall printable xs -> split_ws (lower (concat (map znumber xs))) = map (show_sci 4) xs.
Proof.
  induction xs as [|x xs IH]; intros F; [reflexivity|]. inversion F as [|? ? D F']; subst. cbn [map concat]. rewrite lower_app.
  destruct (znumber_shape x D) as (sp & N & H & _ & ->). rewrite <- app_assoc, (split_ws_lead sp _ H).
  destruct (show_sci4_word x) as [W1 W2]. rewrite split_ws_cons; [rewrite IH by exact F'; reflexivity|exact W1|exact W2|].
  destruct xs as [|y xs]; [left; reflexivity|]. right. inversion F' as [|? ? D' _]; subst. cbn [map concat]. rewrite lower_app.
  destruct (znumber_shape y D') as (sp' & N' & H' & _ & ->). destruct sp' as [|c sp']; [contradiction|].
  cbn [forallb] in H'. apply andb_prop in H' as [H' _]. exists c. eexists. cbn [app]. split; [reflexivity|exact H'].
Qed.
Definition flat (l : list (Q * Q)) : list Q := flat_map (fun x => [fst x; snd x]) l.
Lemma zrow_flat l : zrow l = concat (map znumber (flat l)).
Proof.
  unfold zrow, flat. induction l as [|x l IH]; [reflexivity|]. cbn [map concat flat_map app]. rewrite IH. unfold zpair. rewrite <- app_assoc. reflexivity.
Qed.
Lemma flat_printable l : Forall printable_pair l -> Forall printable (flat l).
Proof. intros F. induction F as [|x l [A B] F IH]; [constructor|]. unfold flat. cbn [flat_map app]. constructor; [exact A|constructor; [exact B|exact IH]]. Qed.
Lemma newline_not_znumber q : printable q -> ~ In newline (lower (znumber q)).
Proof.
  intros P. destruct (znumber_shape q P) as (sp & _ & _ & N & ->). intros I. apply in_app_or in I as [I|I]; [contradiction|].
  revert I. apply (sci_no_letter _ _ (show_sci_chars 4 q)). reflexivity.
Qed.
Lemma row_no_newline l : Forall printable_pair l -> ~ In newline (lower (zrow l)).
Proof.
  intros F. rewrite zrow_flat. pose proof (flat_printable l F) as G. induction G as [|x xs P G IH]; [intros []|]. cbn [map concat]. rewrite lower_app. intros I.
  apply in_app_or in I as [I|I]; [exact (newline_not_znumber x P I)|exact (IH I)].
Qed.
Lemma row_words l : Forall printable_pair l -> split_ws (lower (zrow l)) = map (show_sci 4) (flat l).
Proof. intros F. rewrite zrow_flat. apply split_ws_znumbers, flat_printable, F. Qed.
Lemma row_contains l p x : Forall printable_pair l -> word (x :: p) -> sci_char x = false -> contains (x :: p) (lower (zrow l)) = false.
Proof.
  intros F W X. rewrite (contains_words _ _ W), (row_words l F). apply not_true_is_false. intros E. apply existsb_exists in E as (w & I & C).
  apply in_map_iff in I as (q & <- & _). rewrite contains_head in C; [discriminate C|]. apply (sci_no_letter _ _ (show_sci_chars 4 q) X).
Qed.
(** ** Rows of numbers *)
Definition reads (q : Q) (p : pynum) : Prop := exists v, p = Fin v /\ (v == sci_value 4 q)%Q.
Definition reads_pair (x : Q * Q) (y : zval) : Prop := reads (fst x) (fst y) /\ reads (snd x) (snd y).
Lemma read_flat l : exists vs, mapR (fun w => match read_float w with Some v => Ok v | None => Err ValueError end) (map (show_sci 4) (flat l)) = Ok vs /\
  exists ys, pairs_of vs = Ok ys /\ Forall2 reads_pair l ys.
Proof.
  induction l as [|x l (vs & M & ys & P & F)].
  - exists []. split; [reflexivity|]. exists []. split; [reflexivity|constructor].
  - destruct (read_show_sci 4 (fst x) ltac:(lia)) as (v1 & R1 & E1). destruct (read_show_sci 4 (snd x) ltac:(lia)) as (v2 & R2 & E2).
    exists (Fin v1 :: Fin v2 :: vs). unfold flat. cbn [flat_map app map mapR]. rewrite R1, R2. fold (flat l). rewrite M. cbn [bindR]. split; [reflexivity|].
    exists ((Fin v1, Fin v2) :: ys). cbn [pairs_of]. rewrite P. cbn [bindR]. split; [reflexivity|]. constructor; [|exact F]. split; [exists v1|exists v2]; split; (reflexivity || assumption).
Qed.
Lemma read_row l : Forall printable_pair l -> exists ys, read_values (lower (zrow l)) = Ok ys /\ Forall2 reads_pair l ys.
Proof.
  intros F. destruct (read_flat l) as (vs & M & ys & P & G). exists ys. split; [|exact G]. unfold read_values.
  rewrite split_ws_strip, (row_words l F), M. cbn [bindR]. exact P.
Qed.
Lemma row_step k b l r : Forall printable_pair l -> exists ys, Forall2 reads_pair l ys /\
  read_rows k b (lower (zrow l) :: r) = read_rows k (add_row k ys b) r.
Proof.
  intros F. destruct (read_row l F) as (ys & R & G). exists ys. split; [exact G|]. cbn [read_rows].
  assert (LL : lower (lower (zrow l)) = lower (zrow l)) by apply lower_idem. rewrite LL.
  change (txt "transfer") with ("t"%char :: txt "ransfer"). change (txt "signal") with ("s"%char :: txt "ignal"). change (txt "residual") with ("r"%char :: txt "esidual").
  rewrite (row_contains l (txt "ransfer") "t"%char F), (row_contains l (txt "ignal") "s"%char F), (row_contains l (txt "esidual") "r"%char F); try reflexivity.
  - rewrite R. reflexivity.
  - split; [discriminate|reflexivity].
  - split; [discriminate|reflexivity].
  - split; [discriminate|reflexivity].
Qed.
Definition rows_of (k : zkey3) (b : zblock) : list (list zval) := match k with KTf => zb_tf b | KSig => zb_sig b | KRes => zb_res b end.
Lemma rows_step k : forall ls b r, Forall (Forall printable_pair) ls -> exists yss, Forall2 (Forall2 reads_pair) ls yss /\
  read_rows k b (map (fun l => lower (zrow l)) ls ++ r) = read_rows k (fold_left (fun b ys => add_row k ys b) yss b) r.
Proof.
  induction ls as [|l ls IH]; intros b r F.
  - exists []. split; [constructor|reflexivity].
  - inversion F as [|? ? F1 F2]; subst. cbn [map app].
    destruct (row_step k b l (map (fun l => lower (zrow l)) ls ++ r) F1) as (ys & G & ->).
    destruct (IH (add_row k ys b) r F2) as (yss & GG & ->). exists (ys :: yss). split; [constructor; assumption|reflexivity].
Qed.
Lemma add_rows k yss : forall b, fold_left (fun b ys => add_row k ys b) yss b =
  match k with
  | KTf => mkZblock (zb_tf b ++ yss) (zb_sig b) (zb_res b)
  | KSig => mkZblock (zb_tf b) (zb_sig b ++ yss) (zb_res b)
  | KRes => mkZblock (zb_tf b) (zb_sig b) (zb_res b ++ yss)
  end.
Proof.
  induction yss as [|y yss IH]; intros b; cbn [fold_left].
  - rewrite !app_nil_r. destruct b, k; reflexivity.
  - rewrite IH. destruct k; cbn [add_row zb_tf zb_sig zb_res]; rewrite <- app_assoc; reflexivity.
Qed.
