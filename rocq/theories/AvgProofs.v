(** What is read from a file written from the arrays of an object. *)
From Coq Require Import Qabs Qreals.
From Verif Require Import PyBase PyText PyNum IsoModel PyFloat PySci PyFacts TextFacts PyFloatFacts PySciFacts ValidatorsModel ValidatorsProofs UnitsModel LocationModel EdiProofs Cplx AvgHeadModel AvgHeadSpec AvgHeadProofs AvgHeadValues AvgHeadProps AvgModel AvgSpec AvgText AvgFile AvgFill AvgReal.
From Coq Require Import Lqa.
Local Open Scope nat_scope.

Lemma finite_freqs_spec rows : (forall r, In r rows -> exists f, r_freq r = Fin f) -> exists fs, finite_freqs rows = Ok fs /\ forall f, In f fs <-> exists r, In r rows /\ r_freq r = Fin f.
Proof.
  induction rows as [|r rows IH]; intros H; [exists []; split; [reflexivity|]; intros f; split; [intros []|intros (r & [] & _)]|].
  destruct (H r (or_introl eq_refl)) as (f & F). destruct IH as (fs & E & S); [intros r' I; apply H; right; exact I|]. exists (f :: fs). cbn [finite_freqs]. rewrite F, E. split; [reflexivity|]. intros g. cbn [In]. rewrite S. split.
  - intros [<-|(r' & I & G)]; [exists r; split; [left; reflexivity|exact F]|exists r'; split; [right; exact I|exact G]].
  - intros (r' & [<-|I] & G); [left; congruence|right; exists r'; split; assumption].
Qed.
Lemma starts_of r r' : read_from r r' -> r_comp r' = r_comp r. Proof. intros [E _]. exact E. Qed.
Lemma memb_in s l : memb s l = true <-> In s l.
Proof. unfold memb. rewrite existsb_exists. split; [intros (x & I & E); apply text_eqb_eq in E; subst x; exact I|intros I; exists s; split; [exact I|apply text_eqb_eq; reflexivity]]. Qed.
Lemma injective_length (n m : nat) (R : nat -> nat -> Prop) : (forall p, p < n -> exists k, k < m /\ R p k) -> (forall k, k < m -> exists p, p < n /\ R p k) ->
  (forall p k k', R p k -> R p k' -> k = k') -> (forall p p' k, p < n -> p' < n -> R p k -> R p' k -> p = p') -> n = m.
Proof.
  intros T S F J.
  assert (G : exists l, length l = n /\ forall p k, nth_error l p = Some k -> k < m /\ R p k).
  { clear S J. revert T. induction n as [|n IH]; intros T; [exists []; split; [reflexivity|intros [|p] k E; discriminate E]|]. destruct IH as (l & L & H); [intros p P; apply T; lia|]. destruct (T n ltac:(lia)) as (k & K & RK).
    exists (l ++ [k]). split; [rewrite app_length; cbn; lia|]. intros p k' E. destruct (Nat.lt_ge_cases p (length l)) as [P|P]; [rewrite nth_error_app1 in E by exact P; apply H; exact E|].
    rewrite nth_error_app2 in E by exact P. destruct (p - length l) as [|d] eqn:D; cbn in E; [|destruct d; discriminate E]. injection E as <-. replace p with n by lia. split; assumption. }
  destruct G as (l & L & H).
  assert (N : NoDup l). { apply NoDup_nth_error. intros p p' P E. destruct (nth_error l p) as [k|] eqn:A; [|apply nth_error_None in A; lia]. symmetry in E. assert (P' : p' < length l) by (apply nth_error_Some; congruence). apply (J p p' k); [lia|lia|apply H; exact A|apply H; exact E]. }
  assert (I1 : incl l (seq 0 m)). { intros k I. apply In_nth_error in I. destruct I as (p & A). apply in_seq. destruct (H p k A). lia. }
  assert (I2 : incl (seq 0 m) l). { intros k I. apply in_seq in I. destruct (S k ltac:(lia)) as (p & P & RP). destruct (nth_error l p) as [k'|] eqn:A; [|apply nth_error_None in A; lia]. destruct (H p k' A) as [_ R']. rewrite (F p k k' RP R'). apply nth_error_In in A. exact A. }
  pose proof (NoDup_incl_length N I1) as A1. pose proof (NoDup_incl_length (seq_NoDup m 0) I2) as A2. rewrite seq_length in A1, A2. lia.
Qed.
Section Core.
Variable amp phase : Q -> Q -> Q.
Variable o : avg.
Variable freqs : list Q.
Variable z : nat -> bool -> bool -> Q * Q.
Hypothesis NR : a_rows o = [].
Hypothesis HF : a_freq o = Some freqs.
Hypothesis HZ : a_z o = Some z.
Hypothesis K : known_way (a_positive o).
Hypothesis GH : good_head (a_head o).
Hypothesis NE : freqs <> [].
Hypothesis POS : forall f, In f freqs -> (0 < f)%Q.
Hypothesis AP : all_apart freqs.
Let P := a_positive o.
Let rows := rows_of amp phase o freqs.
Let comps := unique_texts (map r_comp rows).
Lemma first_freq : exists f, nth_error freqs 0 = Some f.
Proof. clear -NE. destruct freqs as [|f l]; [congruence|exists f; reflexivity]. Qed.
Lemma z_row_in c i j p f : In (c, (i, j)) (index_of P) -> starts "z" c = true -> nth_error freqs p = Some f -> In (z_row amp phase c f (z p i j) (z_error o p i j)) rows.
Proof. intros I S N. apply (rows_of_in amp phase o freqs _ K). exists c, i, j, p, f. split; [exact I|]. split; [exact N|]. left. split; [exact S|]. exists z. split; [exact HZ|reflexivity]. Qed.
Lemma t_row_in t c j p f : a_t o = Some t -> In (c, (false, j)) (index_of P) -> starts "t" c = true -> starts "z" c = false -> nth_error freqs p = Some f -> In (t_row amp phase c f (t p j) (t_error o p j)) rows.
Proof. intros T I S S2 N. apply (rows_of_in amp phase o freqs _ K). exists c, false, j, p, f. split; [exact I|]. split; [exact N|]. right. split; [exact S|]. split; [exact S2|]. exists t. split; [exact T|reflexivity]. Qed.
Lemma rows_nonempty : rows <> [].
Proof. destruct first_freq as (f & F). destruct (index_z P false false K) as (c & I & S). pose proof (z_row_in c false false 0 f I S F) as J. intros E. rewrite E in J. exact J. Qed.
Lemma row_facts r : In r rows -> exists c i j p f, row_at amp phase o freqs c i j p f r /\ r_comp r = c /\ r_freq r = Fin f /\ exists s, row_line r = Ok s.
Proof. intros I. apply (rows_of_in amp phase o freqs _ K) in I. destruct I as (c & i & j & p & f & H). exists c, i, j, p, f. split; [exact H|]. apply (row_at_facts amp phase o freqs c i j p f r H). Qed.
Lemma comps_words : Forall lower_word comps.
Proof. apply Forall_forall. intros c I. apply (proj1 (unique_in _ _)) in I. apply in_map_iff in I. destruct I as (r & <- & I). destruct (row_facts r I) as (c & i & j & p & f & H & C & _). rewrite C. apply (index_words P c (i, j) K). apply H. Qed.
Lemma comps_nonempty : comps <> [].
Proof. unfold comps. pose proof rows_nonempty as N. destruct rows; [congruence|discriminate]. Qed.
Lemma comps_have : Forall (fun c => of_comp rows c <> []) comps.
Proof.
  apply Forall_forall. intros c I. apply (proj1 (unique_in _ _)) in I. apply in_map_iff in I. destruct I as (r & E & I). intros X. assert (J : In r (of_comp rows c)) by (apply of_comp_in; split; assumption). rewrite X in J. exact J.
Qed.
Lemma secs_ok : exists secs, map_result (section rows) comps = Ok secs.
Proof. apply map_result_all. intros c _. apply section_ok. intros r I. destruct (row_facts r I) as (_ & _ & _ & _ & _ & _ & _ & _ & H). exact H. Qed.
Lemma write_ok secs : map_result (section rows) comps = Ok secs -> write_file amp phase o = Ok (join [newline] (write_header (a_head o) ++ concat secs)).
Proof.
  intros S. unfold write_file. rewrite NR. unfold create_rows. rewrite HZ, HF, (comp_index_known _ K). cbn [bindR].
  assert (Z0 : existsb (fun f => Qeq_bool f 0) freqs = false). { destruct (existsb (fun f => Qeq_bool f 0) freqs) eqn:E; [|reflexivity]. apply existsb_exists in E. destruct E as (f & I & E). apply Qeq_bool_iff in E. pose proof (POS f I) as L. rewrite E in L. exfalso. exact (Qlt_irrefl _ L). }
  rewrite Z0. change (flat_map (fun ci => comp_rows amp phase o freqs (fst ci) (snd ci)) (index_of (a_positive o))) with rows. pose proof rows_nonempty as N. fold comps.
  assert (E : match rows with [] => Err AttributeError | _ => Ok (rows, unique_texts (map r_comp rows)) end = Ok (rows, comps)) by (destruct rows; [congruence|reflexivity]).
  etransitivity; [apply (f_equal (fun x => bindR x _)); exact E|]. cbn [bindR fst snd]. rewrite S. reflexivity.
Qed.
(** Rows that are read. *)
Variable rows' : list row.
Hypothesis RB : Forall2 read_from (flat_map (of_comp rows) comps) rows'.
Lemma back_in r : In r rows -> exists r', In r' rows' /\ read_from r r'.
Proof. intros I. apply (Forall2_in_l _ _ _ r RB). apply of_comps_in. exact I. Qed.
Lemma back_from r' : In r' rows' -> exists r, In r rows /\ read_from r r'.
Proof. intros I. destruct (Forall2_in_r _ _ _ r' RB I) as (r & J & H). apply (proj1 (of_comps_in _ _)) in J. exists r. split; assumption. Qed.
Lemma rows'_nonempty : rows' <> [].
Proof.
  destruct first_freq as (f & F). destruct (index_z P false false K) as (c & I & S). destruct (back_in _ (z_row_in c false false 0 f I S F)) as (r' & J & _). intros E. rewrite E in J. exact J.
Qed.
Lemma freq_back r r' f : read_from r r' -> r_freq r = Fin f -> exists g, r_freq r' = Fin g /\ (g == sci_value 4 f)%Q.
Proof. intros (_ & _ & F & _) E. rewrite E in F. destruct (r_freq r') as [g|]; [|destruct F]. exists g. split; [reflexivity|exact F]. Qed.
Lemma finite_back r' : In r' rows' -> exists f, r_freq r' = Fin f.
Proof. intros I. destruct (back_from r' I) as (r & J & H). destruct (row_facts r J) as (c & i & j & p & f & _ & _ & F & _). destruct (freq_back r r' f H F) as (g & E & _). exists g. exact E. Qed.
Variable fs : list Q.
Hypothesis FE : finite_freqs rows' = Ok fs.
Hypothesis FI : forall f, In f fs <-> exists r, In r rows' /\ r_freq r = Fin f.
Let G := sort_freqs fs.
(** The place of a frequency. *)
Definition at_place (p k : nat) : Prop := exists f, nth_error freqs p = Some f /\ freq_index (sci_value 4 f) G = Some k.
Lemma fs_value f' : In f' fs -> exists p f, nth_error freqs p = Some f /\ (f' == sci_value 4 f)%Q.
Proof.
  intros I. apply FI in I. destruct I as (r' & I & E). destruct (back_from r' I) as (r & J & H). destruct (row_facts r J) as (c & i & j & p & f & A & _ & F & _). destruct (freq_back r r' f H F) as (g & E2 & V). rewrite E in E2. injection E2 as <-. exists p, f. split; [apply A|exact V].
Qed.
Lemma place_total p f : nth_error freqs p = Some f -> exists k, freq_index (sci_value 4 f) G = Some k.
Proof.
  intros N. destruct (index_z P false false K) as (c & I & S). pose proof (z_row_in c false false p f I S N) as J. destruct (back_in _ J) as (r' & I' & H). destruct (freq_back _ r' f H eq_refl) as (g & E & V).
  assert (Ig : In g fs) by (apply FI; exists r'; split; assumption). destruct (sort_has_freq fs g Ig) as (x & Ix & Ex). apply (index_has _ G x Ix). rewrite <- V. exact Ex.
Qed.
Lemma place_unique p p' f f' k : nth_error freqs p = Some f -> nth_error freqs p' = Some f' -> freq_index (sci_value 4 f) G = Some k -> freq_index (sci_value 4 f') G = Some k -> p = p'.
Proof.
  intros N N' A B. destruct (Nat.eq_dec p p') as [E|E]; [exact E|exfalso]. destruct (index_spec _ _ _ A) as (x & X & EX). destruct (index_spec _ _ _ B) as (y & Y & EY). rewrite X in Y. injection Y as <-.
  apply (apart_digits f f' (sci_value 4 f) (sci_value 4 f')); [apply POS; apply nth_error_In in N; exact N|apply POS; apply nth_error_In in N'; exact N'|apply (AP p p' f f' N N' E)|reflexivity|reflexivity|]. rewrite EX, EY. reflexivity.
Qed.
Lemma near_five f f' : In f freqs -> (sci_value 4 f == f')%Q -> near_freq f f'.
Proof. intros I E. apply five_near; [apply POS; exact I|]. rewrite E. reflexivity. Qed.
Lemma all_freqs : freqs_back freqs G.
Proof.
  split; [apply sort_rising|]. split.
  - symmetry. apply (injective_length (length freqs) (length G) at_place).
    + intros p L. destruct (nth_error freqs p) as [f|] eqn:N; [|apply nth_error_None in N; lia]. destruct (place_total p f N) as (k & A). exists k. split; [|exists f; split; assumption]. destruct (index_spec _ _ _ A) as (x & X & _). apply nth_error_Some. congruence.
    + intros k L. destruct (nth_error G k) as [x|] eqn:N; [|apply nth_error_None in N; lia]. pose proof (nth_error_In _ _ N) as I. apply sort_in_freq in I. destruct (fs_value x I) as (p & f & F & V). exists p. split; [apply nth_error_Some; congruence|]. exists f. split; [exact F|].
      rewrite <- (index_comp _ _ G V). apply index_rising; [apply sort_rising|exact N].
    + intros p k k' (f & F & A) (f' & F' & A'). rewrite F in F'. injection F' as <-. congruence.
    + intros p p' k _ _ (f & F & A) (f' & F' & A'). apply (place_unique p p' f f' k); assumption.
  - intros k f' N. pose proof (nth_error_In _ _ N) as I. apply sort_in_freq in I. destruct (fs_value f' I) as (p & f & F & V). exists p, f. split; [exact F|]. apply near_five; [apply nth_error_In in F; exact F|]. rewrite V. reflexivity.
Qed.
Lemma hits_all r' : In r' rows' -> exists k i j, hits (index_of P) G r' k i j.
Proof.
  intros I. destruct (back_from r' I) as (r & J & H). destruct (row_facts r J) as (c & i & j & p & f & A & C & F & _). destruct (freq_back r r' f H F) as (g & E & V). destruct (place_total p f) as (k & X); [apply A|].
  exists k, i, j. split; [rewrite (proj1 H), C; apply (place_in P c (i, j) K); apply A|]. exists g. split; [exact E|]. rewrite (index_comp _ _ G V). exact X.
Qed.
(** The row behind a place. *)
Lemma hits_row r' k i j : In r' rows' -> hits (index_of P) G r' k i j -> forall p f, nth_error freqs p = Some f -> freq_index (sci_value 4 f) G = Some k ->
  exists r c, row_at amp phase o freqs c i j p f r /\ read_from r r' /\ r_comp r' = c.
Proof.
  intros I (PL & g & E & X) p f N A. destruct (back_from r' I) as (r & J & H). destruct (row_facts r J) as (c & i0 & j0 & p0 & f0 & RA & C & F & _). exists r, c.
  assert (C' : r_comp r' = c) by (rewrite (proj1 H); exact C). rewrite C' in PL. apply (place_in P c (i, j) K) in PL. assert (PL0 : place (index_of P) c = Some (i0, j0)) by (apply (place_in P c (i0, j0) K); apply RA).
  apply (place_in P c (i, j) K) in PL. rewrite PL0 in PL. injection PL as -> ->. destruct (freq_back r r' f0 H F) as (g' & E' & V). rewrite E in E'. injection E' as <-.
  assert (PP : p0 = p). { apply (place_unique p0 p f0 f k); [apply RA|exact N| |exact A]. rewrite <- (index_comp _ _ G V). exact X. }
  subst p0. assert (FF : f0 = f) by (destruct RA as (_ & N0 & _); congruence). subst f0. split; [exact RA|]. split; [exact H|exact C'].
Qed.
Lemma z_filled : exists Z' E', fill_z P G rows' = Ok (Z', E') /\ forall p f k i j (W : option Cx -> option R -> Prop), nth_error freqs p = Some f -> freq_index (sci_value 4 f) G = Some k ->
  (forall c r', read_from (z_row amp phase c f (z p i j) (z_error o p i j)) r' -> W (row_value r') (row_z_error r')) -> W (Z' k i j) (E' k i j).
Proof.
  unfold fill_z. rewrite (comp_index_known P K). cbn [bindR]. destruct (fill_spec row_value row_z_error (index_of P) G (filter (fun r => starts "z" (r_comp r)) rows') zeros ones) as (Z' & E' & E & S).
  - intros r I. apply filter_In in I. apply hits_all, I.
  - exists Z', E'. split; [exact E|]. intros p f k i j W N A H. apply S.
    + intros r I HT. apply filter_In in I. destruct I as [I SZ]. destruct (hits_row r k i j I HT p f N A) as (r0 & c & RA & RF & C). rewrite C in SZ. destruct RA as (_ & _ & [(_ & z' & HZ' & ->)|(_ & SZ' & _)]); [|congruence].
      rewrite HZ in HZ'. injection HZ' as <-. apply (H c). exact RF.
    + left. destruct (index_z P i j K) as (c & I & SZ). pose proof (z_row_in c i j p f I SZ N) as J. destruct (back_in _ J) as (r' & I' & RF). exists r'. pose proof (proj1 RF) as C. cbn [z_row r_comp] in C. split; [apply filter_In; split; [exact I'|rewrite C; exact SZ]|].
      split; [rewrite C; apply (place_in P c (i, j) K); exact I|]. destruct (freq_back _ r' f RF eq_refl) as (g & EG & V). exists g. split; [exact EG|]. rewrite (index_comp _ _ G V). exact A.
Qed.
Definition t_value (r : row) : option Cx := match P with Up => Cneg (row_value r) | _ => row_value r end.
Lemma t_filled t : a_t o = Some t -> exists T' E', fill_t P G rows' = Ok (Some (T', E')) /\ forall p f k j (W : option Cx -> option R -> Prop), nth_error freqs p = Some f -> freq_index (sci_value 4 f) G = Some k ->
  (forall c r', read_from (t_row amp phase c f (t p j) (t_error o p j)) r' -> W (t_value r') (row_t_error r')) -> W (T' k false j) (E' k false j).
Proof.
  intros T. unfold fill_t. assert (M : memb (txt "tzx") (map r_comp rows') = true).
  { apply memb_in. destruct first_freq as (f & F). assert (I : exists j, In (txt "tzx", (false, j)) (index_of P)) by (destruct K as [E|E]; unfold P; rewrite E; [exists false|exists true]; cbn; tauto). destruct I as (j & I).
    destruct (back_in _ (t_row_in t (txt "tzx") j 0 f T I eq_refl eq_refl F)) as (r' & I' & (C & _)). apply in_map_iff. exists r'. split; [exact C|exact I']. }
  rewrite M, (comp_index_known P K). cbn [bindR].
  destruct (fill_spec t_value row_t_error (index_of P) G (filter (fun r => starts "t" (r_comp r)) rows') zeros ones) as (T' & E' & E & S).
  - intros r I. apply filter_In in I. apply hits_all, I.
  - exists T', E'. split.
    + assert (X : fill (match P with Up => fun r => Cneg (row_value r) | _ => row_value end) row_t_error (index_of P) G (filter (fun r => starts "t" (r_comp r)) rows') zeros ones = Ok (T', E')) by (rewrite <- E; unfold t_value; destruct P; reflexivity).
      rewrite X. reflexivity.
    + intros p f k j W N A H. apply S.
      * intros r I HT. apply filter_In in I. destruct I as [I ST]. destruct (hits_row r k false j I HT p f N A) as (r0 & c & RA & RF & C). rewrite C in ST. destruct RA as (IX & _ & [(SZ & _)|(_ & SZ' & t' & HT' & ->)]).
        { exfalso. destruct c as [|x c]; [discriminate SZ|]. unfold starts in SZ, ST. change (prefix_of (txt "z") (x :: c)) with (Ascii.eqb "z" x && true) in SZ. change (prefix_of (txt "t") (x :: c)) with (Ascii.eqb "t" x && true) in ST.
          rewrite andb_true_r in SZ, ST. apply Ascii.eqb_eq in SZ, ST. rewrite <- SZ in ST. discriminate ST. }
        rewrite T in HT'. injection HT' as <-. apply (H c). exact RF.
      * left. destruct (index_t P j K) as (c & I & ST & SZ). pose proof (t_row_in t c j p f T I ST SZ N) as J. destruct (back_in _ J) as (r' & I' & RF). exists r'. pose proof (proj1 RF) as C. cbn [t_row r_comp] in C. split; [apply filter_In; split; [exact I'|rewrite C; exact ST]|].
        split; [rewrite C; apply (place_in P c (false, j) K); exact I|]. destruct (freq_back _ r' f RF eq_refl) as (g & EG & V). exists g. split; [exact EG|]. rewrite (index_comp _ _ G V). exact A.
Qed.
Lemma no_t_filled : a_t o = None -> fill_t P G rows' = Ok None.
Proof.
  intros T. unfold fill_t. destruct (memb (txt "tzx") (map r_comp rows')) eqn:M; [|reflexivity]. exfalso. apply memb_in in M. apply in_map_iff in M. destruct M as (r' & C & I). destruct (back_from r' I) as (r & J & (C' & _)).
  destruct (row_facts r J) as (c & i & j & p & f & RA & E & _). rewrite C, E in C'. destruct RA as (_ & _ & [(SZ & _)|(_ & _ & t & T' & _)]); [|congruence]. rewrite <- C' in SZ. discriminate SZ.
Qed.
End Core.

Theorem file_core amp phase o h0 freqs z : a_rows o = [] -> a_freq o = Some freqs -> a_z o = Some z -> known_way (a_positive o) -> good_head (a_head o) -> freqs <> [] -> (forall f, In f freqs -> (0 < f)%Q) -> all_apart freqs ->
  exists secs g, let rows := rows_of amp phase o freqs in let comps := unique_texts (map r_comp rows) in
    map_result (section rows) comps = Ok secs /\ write_file amp phase o = Ok (join [newline] (write_header (a_head o) ++ concat secs)) /\
    read_file (a_positive o) h0 (join [newline] (write_header (a_head o) ++ concat secs)) = Ok g /\
    (forall f, comes_back f (h_value (a_head o) f) (h_value (g_head g) f)) /\ freqs_back freqs (g_freqs g) /\
    Forall2 read_from (flat_map (of_comp rows) comps) (g_rows g) /\ g_comps g = unique_texts (map r_comp (g_rows g)) /\
    forall p f, nth_error freqs p = Some f -> exists k f', nth_error (g_freqs g) k = Some f' /\ near_freq f f' /\
      (forall i j (W : option Cx -> option R -> Prop), (forall c r', read_from (z_row amp phase c f (z p i j) (z_error o p i j)) r' -> W (row_value r') (row_z_error r')) -> W (g_z g k i j) (g_zerr g k i j)) /\
      match a_t o with
      | None => g_t g = None
      | Some t => exists T E, g_t g = Some (T, E) /\
          forall j (W : option Cx -> option R -> Prop), (forall c r', read_from (t_row amp phase c f (t p j) (t_error o p j)) r' -> W (t_value o r') (row_t_error r')) -> W (T k false j) (E k false j)
      end.
Proof.
  intros NR HF HZ K GH NE POS AP. destruct (secs_ok amp phase o freqs K) as (secs & S). exists secs.
  destruct (file_rows (a_head o) h0 _ _ secs GH (comps_words amp phase o freqs K) (comps_nonempty amp phase o freqs z HZ K NE) (comps_have amp phase o freqs) S) as (h' & lines & rows' & RH & CB & _ & RR & RB).
  destruct (finite_freqs_spec rows' (finite_back amp phase o freqs K rows' RB)) as (fs & FE & FI).
  destruct (z_filled amp phase o freqs z HZ K POS AP rows' RB fs FI) as (Z' & E' & FZ & ZP).
  assert (TF : exists te, fill_t (a_positive o) (sort_freqs fs) rows' = Ok te /\ match a_t o with None => te = None | Some t => exists T E, te = Some (T, E) /\
      forall p f k j (W : option Cx -> option R -> Prop), nth_error freqs p = Some f -> freq_index (sci_value 4 f) (sort_freqs fs) = Some k -> (forall c r', read_from (t_row amp phase c f (t p j) (t_error o p j)) r' -> W (t_value o r') (row_t_error r')) -> W (T k false j) (E k false j) end).
  { destruct (a_t o) as [t|] eqn:T.
    - destruct (t_filled amp phase o freqs z HZ K NE POS AP rows' RB fs FI t T) as (T' & TE & FT & TP). exists (Some (T', TE)). split; [exact FT|]. exists T', TE. split; [reflexivity|exact TP].
    - exists None. split; [apply (no_t_filled amp phase o freqs K rows' RB fs T)|reflexivity]. }
  destruct TF as (te & FT & TP).
  exists (mkGot h' rows' (unique_texts (map r_comp rows')) (sort_freqs fs) Z' E' te). cbn zeta. split; [exact S|]. split; [apply (write_ok amp phase o freqs z NR HF HZ K NE POS secs S)|]. split.
  - unfold read_file. rewrite RH. cbn [bindR fst snd]. rewrite RR. cbn [bindR]. pose proof (rows'_nonempty amp phase o freqs z HZ K NE rows' RB) as N.
    destruct rows' as [|r0 rows']; [congruence|]. rewrite FE. cbn [bindR]. rewrite FZ. cbn [bindR]. rewrite FT. reflexivity.
  - cbn [g_head g_freqs g_rows g_comps g_z g_zerr g_t]. split; [exact CB|]. split; [apply (all_freqs amp phase o freqs z HZ K POS AP rows' RB fs FI)|]. split; [exact RB|]. split; [reflexivity|]. intros p f N.
    destruct (place_total amp phase o freqs z HZ K rows' RB fs FI p f N) as (k & A). destruct (index_spec _ _ _ A) as (f' & F' & EF). exists k, f'. split; [exact F'|]. split; [apply (near_five freqs POS); [apply nth_error_In in N; exact N|exact EF]|]. split.
    + intros i j W H. apply (ZP p f k i j W N A H).
    + destruct (a_t o) as [t|]; [|exact TP]. destruct TP as (T & E & -> & TP). exists T, E. split; [reflexivity|]. intros j W H. apply (TP p f k j W N A H).
Qed.
