(** Proofs about TxlModel. *)
From Verif Require Import PyBase PyText TextFacts RrefModel TxlModel TxlSpec.
From Coq Require Import Lia.
Local Open Scope list_scope.

Lemma space_comma : forall a, forallb is_space a = true -> ~ In ","%char a.
Proof. intros a H K. rewrite forallb_forall in H. specialize (H _ K). discriminate. Qed.
Lemma padded_no_comma : forall n p, clean n -> padded n p -> ~ In ","%char p.
Proof.
  intros n p [_ Hn] (a & b & -> & Ha & Hb). rewrite !in_app_iff. intros [K|[K|K]]; [exact (space_comma a Ha K)|exact (Hn K)|exact (space_comma b Hb K)].
Qed.
Lemma cut_listing : forall t ns, Forall clean ns -> listing t ns -> cut t = ns.
Proof.
  intros t ns Hc (ps & Hne & H2 & ->). unfold cut. change (txt ",") with [","%char]. rewrite split_join; [|exact Hne|].
  - clear Hne. revert Hc. induction H2 as [|n p ns ps Hp H IH]; intros Hc; [reflexivity|]. inversion Hc as [|x y Hx Hy]; subst. cbn [map]. f_equal; [|now apply IH].
    destruct Hp as (a & b & -> & Ha & Hb). apply strip_pad; [exact Ha|exact Hb|apply Hx].
  - intros w Hw. clear Hne. revert Hc Hw. induction H2 as [|n p ns ps Hp H IH]; intros Hc Hw; [destruct Hw|].
    inversion Hc as [|x y Hx Hy]; subst. destruct Hw as [<-|Hw]; [now apply padded_no_comma in Hp|now apply IH].
Qed.
Lemma strip_padded : forall s, padded (strip s) s.
Proof.
  intros s. destruct (lstrip_decomp s) as (a & Es & Ha).
  destruct (lstrip_decomp (rev (lstrip s))) as (b & Er & Hb).
  exists a, (rev b). split; [|split; [exact Ha|]].
  - unfold strip, rstrip. rewrite Es at 1. f_equal.
    rewrite <- (rev_involutive (lstrip s)) at 1. rewrite Er at 1. now rewrite rev_app_distr.
  - rewrite forallb_forall in Hb |- *. intros x Hx. apply Hb. now apply in_rev.
Qed.
Lemma strip_In : forall c s, In c (strip s) -> In c s.
Proof. intros c s H. destruct (strip_padded s) as (a & b & E & _). rewrite E, !in_app_iff. auto. Qed.
Lemma cut_clean : forall t, Forall clean (cut t).
Proof.
  intros t. apply Forall_forall. intros x Hx. unfold cut in Hx. apply in_map_iff in Hx. destruct Hx as (p & <- & Hp).
  split; [apply trimmed_strip|]. intros K. apply strip_In in K. now apply split_on_parts in Hp.
Qed.
Lemma listing_cut : forall t, listing t (cut t).
Proof.
  intros t. exists (split_on "," t). split; [apply split_on_nonnil|]. split.
  - unfold cut. induction (split_on "," t) as [|p l IH]; cbn [map]; constructor; [apply strip_padded|exact IH].
  - symmetry. apply join_split.
Qed.
Lemma is_in_false : forall s l, ~ In s l -> is_in s l = false.
Proof. intros s l H. unfold is_in. now destruct (in_dec text_dec s l). Qed.
Lemma is_in_true : forall s l, In s l -> is_in s l = true.
Proof. intros s l H. unfold is_in. now destruct (in_dec text_dec s l). Qed.
Lemma as_names_texts : forall ns, as_names (map IText ns) = Ok (OList ns).
Proof.
  intros ns. unfold as_names.
  assert (E : mapR coerce (map IText ns) = Ok ns) by (induction ns as [|n ns IH]; [reflexivity|cbn; now rewrite IH]).
  now rewrite E.
Qed.
Lemma entries_coerce : forall l ns, Forall2 entry l ns -> mapR coerce l = Ok ns.
Proof. intros l ns H. induction H as [|i n l ns Hi H IH]; [reflexivity|]. destruct Hi; cbn; now rewrite IH. Qed.
Lemma entries_shown : forall l ns, Forall2 entry l ns -> map shown l = ns.
Proof. intros l ns H. induction H as [|i n l ns Hi H IH]; [reflexivity|]. destruct Hi; cbn; now rewrite IH. Qed.

(** *** Indices *)
Lemma digit_code : forall c d, digit c d -> is_digit c = true /\ (code c - 48 = d)%N /\ is_space c = false /\ c <> ","%char /\ is_bracket c = false.
Proof.
  intros c d [Hd ->].
  assert (H : In d [0; 1; 2; 3; 4; 5; 6; 7; 8; 9]%N) by (cbn; lia).
  cbn in H. repeat (destruct H as [<-|H]; [repeat split; discriminate|]). destruct H.
Qed.
Lemma number_facts : forall s n, number s n -> all_digits s = true /\ int_of s = n /\ trimmed s /\ ~ In ","%char s /\
  forallb (fun c => negb (is_bracket c)) s = true.
Proof.
  assert (A : forall s n, number s n -> s <> [] /\ forallb is_digit s = true /\ int_of s = n /\ forallb (fun c => negb (is_space c)) s = true /\
    ~ In ","%char s /\ forallb (fun c => negb (is_bracket c)) s = true).
  { intros s n H. induction H as [c d Hd|s n c d H IH Hd]; destruct (digit_code c d Hd) as (H1 & H2 & H3 & H4 & H5).
    - split; [discriminate|]. cbn [forallb]. rewrite H1, H3, H5. repeat split; [cbn; unfold int_of; cbn [fold_left]; rewrite H2; lia|].
      intros [K|[]]. auto.
    - destruct IH as (I0 & I1 & I2 & I3 & I4 & I5). split; [destruct s; discriminate|]. rewrite !forallb_app. cbn [forallb].
      rewrite I1, I3, I5, H1, H3, H5. repeat split.
      + unfold int_of in *. rewrite fold_left_app, I2. cbn [fold_left]. rewrite H2. reflexivity.
      + rewrite in_app_iff. intros [K|[K|[]]]; auto. }
  intros s n H. destruct (A s n H) as (H0 & H1 & H2 & H3 & H4 & H5). split; [|split; [exact H2|split; [|split; [exact H4|exact H5]]]].
  - unfold all_digits. rewrite H1. now destruct s.
  - rewrite forallb_forall in H3. split; intros c r ->.
    + specialize (H3 c (or_introl eq_refl)). now destruct (is_space c).
    + assert (Hc : In c (r ++ [c])) by (apply in_or_app; right; now left). specialize (H3 c Hc). now destruct (is_space c).
Qed.
Lemma parts_numbers : forall ts ns ps, Forall2 number ts ns -> Forall2 padded ts ps ->
  map (fun p => int_of (strip p)) (filter (fun p => all_digits (strip p)) ps) = ns.
Proof.
  intros ts ns ps H. revert ps. induction H as [|t n ts ns Hn H IH]; intros ps K; inversion K as [|a p b q Hp Hq]; subst; [reflexivity|].
  destruct (number_facts _ _ Hn) as (F1 & F2 & F3 & _). destruct Hp as (u & w & -> & Hu & Hw).
  cbn [filter]. rewrite (strip_pad u t w Hu Hw F3), F1. cbn [map]. rewrite (strip_pad u t w Hu Hw F3), F2. f_equal. now apply IH.
Qed.
Lemma strip_left_plain : forall s, (forall c r, s = c :: r -> is_bracket c = false) -> strip_left s = s.
Proof. intros [|c r] H; [reflexivity|]. cbn. now rewrite (H c r eq_refl). Qed.
Lemma strip_brackets_plain : forall s, forallb (fun c => negb (is_bracket c)) s = true -> strip_brackets s = s.
Proof.
  intros s H. rewrite forallb_forall in H. unfold strip_brackets.
  rewrite (strip_left_plain s), (strip_left_plain (rev s)); [apply rev_involutive| |].
  - intros c r E. assert (K : In c s) by (apply in_rev; rewrite E; now left). specialize (H c K). now destruct (is_bracket c).
  - intros c r ->. specialize (H c (or_introl eq_refl)). now destruct (is_bracket c).
Qed.
Lemma strip_brackets_around : forall s, forallb (fun c => negb (is_bracket c)) s = true -> strip_brackets ("["%char :: s ++ ["]"%char]) = s.
Proof.
  intros s H. unfold strip_brackets. cbn [strip_left]. change (is_bracket "[") with true. cbn iota.
  assert (E : strip_left (s ++ ["]"%char]) = match s with [] => [] | _ => s ++ ["]"%char] end).
  { destruct s as [|c s]; [reflexivity|]. cbn in H |- *. destruct (is_bracket c); [discriminate|reflexivity]. }
  rewrite E. destruct s as [|c s]; [reflexivity|]. rewrite rev_app_distr. cbn [rev app].
  change (strip_left ("]"%char :: rev s ++ [c])) with (strip_left (rev (c :: s))).
  rewrite (strip_left_plain (rev (c :: s))); [apply rev_involutive|].
  intros a b E'. rewrite forallb_forall in H. assert (K : In a (c :: s)) by (apply in_rev; rewrite E'; now left).
  specialize (H a K). now destruct (is_bracket a).
Qed.
Lemma join_no_bracket : forall ps, Forall (fun p => forallb (fun c => negb (is_bracket c)) p = true) ps ->
  forallb (fun c => negb (is_bracket c)) (join (txt ",") ps) = true.
Proof.
  intros ps H. induction H as [|p ps Hp H IH]; [reflexivity|]. destruct ps as [|q ps]; [exact Hp|].
  change (join (txt ",") (p :: q :: ps)) with (p ++ txt "," ++ join (txt ",") (q :: ps)). rewrite !forallb_app, Hp, IH. reflexivity.
Qed.
Lemma space_no_bracket : forall a, forallb is_space a = true -> forallb (fun c => negb (is_bracket c)) a = true.
Proof.
  intros a H. rewrite forallb_forall in H |- *. intros c Hc. specialize (H c Hc). destruct (is_bracket c) eqn:E; [|reflexivity].
  unfold is_bracket in E. apply orb_prop in E. destruct E as [E|E]; apply Ascii.eqb_eq in E; subst; discriminate.
Qed.
Lemma listing_no_bracket : forall t ts ns, listing t ts -> Forall2 number ts ns -> forallb (fun c => negb (is_bracket c)) t = true.
Proof.
  intros t ts ns (ps & _ & H & ->) Hn. apply join_no_bracket. revert ns Hn. induction H as [|n p ts ps Hp H IH]; intros ns Hn; constructor.
  - inversion Hn as [|a b c d Hab Hcd]; subst. destruct Hp as (u & w & -> & Hu & Hw). rewrite !forallb_app.
    rewrite (space_no_bracket u Hu), (space_no_bracket w Hw). destruct (number_facts _ _ Hab) as (_ & _ & _ & _ & ->). reflexivity.
  - inversion Hn as [|a b c d Hab Hcd]; subst. now apply IH with (ns := d).
Qed.
Lemma indices_plain : forall t ts ns, listing t ts -> Forall2 number ts ns ->
  map (fun p => int_of (strip p)) (filter (fun p => all_digits (strip p)) (split_on "," t)) = ns.
Proof.
  intros t ts ns (ps & Hne & H & ->) Hn. change (txt ",") with [","%char]. rewrite split_join; [now apply parts_numbers with (ts := ts)|exact Hne|].
  intros w Hw. clear Hne. revert ns Hn Hw. induction H as [|n p ts ps Hp H IH]; intros ns Hn Hw; [destruct Hw|].
  inversion Hn as [|a b c d Hab Hcd]; subst. destruct Hw as [<-|Hw]; [|now apply IH with (ns := d)].
  destruct (number_facts _ _ Hab) as (_ & _ & F3 & F4 & _). eapply padded_no_comma; [split; [exact F3|exact F4]|exact Hp].
Qed.
Lemma is_digit_digit : forall c, is_digit c = true -> digit c (code c - 48).
Proof.
  intros c H. unfold is_digit, in_range in H. apply andb_prop in H. destruct H as [H1 H2]. apply N.leb_le in H1. apply N.leb_le in H2.
  split; [lia|]. replace (48 + (code c - 48))%N with (code c) by lia. unfold code. symmetry. apply ascii_N_embedding.
Qed.
Lemma digits_number : forall s, s <> [] -> forallb is_digit s = true -> number s (int_of s).
Proof.
  intros s. induction s as [|c s IH] using rev_ind; intros Hne H; [congruence|]. rewrite forallb_app in H. apply andb_prop in H.
  destruct H as [H1 H2]. cbn [forallb] in H2. apply andb_prop in H2. destruct H2 as [H2 _]. apply is_digit_digit in H2.
  unfold int_of. rewrite fold_left_app. cbn [fold_left]. destruct s as [|a s].
  - cbn [fold_left app]. replace (10 * 0 + (code c - 48))%N with (code c - 48)%N by lia. now apply nu_one.
  - apply nu_more; [|exact H2]. apply IH; [discriminate|exact H1].
Qed.
Lemma numbers_strip : forall ps, numbers_of (map strip ps) (map (fun p => int_of (strip p)) (filter (fun p => all_digits (strip p)) ps)).
Proof.
  induction ps as [|p ps IH]; [constructor|]. cbn [map filter]. destruct (all_digits (strip p)) eqn:E.
  - cbn [map]. apply no_number; [|exact IH]. unfold all_digits in E. apply andb_prop in E. destruct E as [E1 E2].
    apply digits_number; [|exact E2]. intros K. rewrite K in E1. discriminate.
  - apply no_other; [|exact IH]. intros n Hn. apply number_facts in Hn. destruct Hn as [Hn _]. congruence.
Qed.
