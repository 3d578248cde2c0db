(** Lemmas for C87: the HEAD section of EDI files. *)
From Coq Require Import Qabs Lqa.
From Verif Require Import PyBase PyFacts PyText TextFacts PyNum PyFloat PyFloatFacts PySci PySciFacts PyRepr PyReprFacts ZmmModel ZmmProofs MTimeModel MTimeSpec MTimeProofs IsoModel IsoSpec IsoProofs IsoProps UnitsModel EnumModel LocationModel LocationSpec LocationProofs LocationProps ValidatorsModel ValidatorsSpec ValidatorsProofs ValidatorsProps EdiProofs EdiMetaModel EdiMetaSpec EdiMetaProofs EdiMeasProofs EdiMeasFile HeadModel HeadSpec.
Local Open Scope list_scope.

(** ** Lines *)
Notation clean := bare.
Lemma replace_filter c s : replace_char c [] s = filter (fun x => negb (Ascii.eqb x c)) s.
Proof. unfold replace_char. induction s as [|x s IH]; [reflexivity|]. cbn [flat_map filter]. rewrite <- IH. destruct (Ascii.eqb x c); reflexivity. Qed.
Lemma filter_filter {A} (f g : A -> bool) l : filter f (filter g l) = filter (fun x => (f x && g x)%bool) l.
Proof. induction l as [|x l IH]; [reflexivity|]. cbn [filter]. destruct (g x); cbn [filter]; destruct (f x); cbn [andb]; rewrite ?IH; reflexivity. Qed.
Lemma edi_clean s : edi_line s = clean s.
Proof.
  unfold edi_line, bare. rewrite !replace_filter, !filter_filter. apply filter_ext. intros c. unfold dropped, quote_char. cbn [existsb]. rewrite orb_false_r, !negb_orb. destruct (Ascii.eqb c "034"), (Ascii.eqb c "'"), (Ascii.eqb c "["), (Ascii.eqb c "]"); reflexivity.
Qed.
Lemma clean_app a b : clean (a ++ b) = clean a ++ clean b.
Proof. apply filter_app. Qed.
Lemma clean_In c s : In c (clean s) -> In c s.
Proof. intros I. apply filter_In in I. apply I. Qed.
Lemma clean_In_iff c s : dropped c = false -> In c (clean s) <-> In c s.
Proof. intros D. unfold bare. rewrite filter_In, D. cbn. tauto. Qed.
Lemma clean_id s : (forall c, In c s -> dropped c = false) -> clean s = s.
Proof. intros H. induction s as [|c s IH]; [reflexivity|]. cbn [bare filter]. rewrite (H c (or_introl eq_refl)). cbn [negb]. f_equal. apply IH. intros x I. apply H. right. exact I. Qed.
Lemma clean_quote s : ~ In quote_char (clean s).
Proof. intros I. apply filter_In in I as [_ I]. discriminate I. Qed.
(** The keys as they are written. *)
Definition key_char (c : ascii) : bool := (negb (is_space c) && negb (dropped c) && negb (Ascii.eqb c "=") && negb (Ascii.eqb c ">"))%bool.
Definition key_text (k : text) : Prop := (2 <= List.length k)%nat /\ forall c, In c k -> key_char c = true.
Lemma key_char_spec c : key_char c = true -> is_space c = false /\ dropped c = false /\ c <> "="%char /\ c <> ">"%char.
Proof.
  unfold key_char. rewrite !andb_true_iff, !negb_true_iff. intros (((A & B) & C) & D). repeat split; try assumption.
  - intros ->. discriminate C. - intros ->. discriminate D.
Qed.
Definition hline (k w : text) : text := "009"%char :: k ++ "="%char :: w ++ [nl].
Lemma key_trim k : key_text k -> trimmed k /\ strip k = k.
Proof.
  intros [_ H]. assert (T : trimmed k). { split; intros c r ->; [assert (I : In c (c :: r)) by (left; reflexivity)|assert (I : In c (r ++ [c])) by (apply in_or_app; right; left; reflexivity)]; apply H, key_char_spec in I; apply I. }
  split; [exact T|apply strip_trimmed; exact T].
Qed.
Lemma key_no k c : key_text k -> c = "="%char \/ c = ">"%char \/ dropped c = true -> ~ In c k.
Proof. intros [_ H] D I. apply H, key_char_spec in I. destruct I as (_ & A & B & C). destruct D as [->|[->|D]]; [exact (B eq_refl)|exact (C eq_refl)|congruence]. Qed.
Lemma edi_hline k w : key_text k -> edi_line (hline k w) = hline k (clean w).
Proof.
  intros K. rewrite edi_clean. unfold hline. change ("009"%char :: k ++ "="%char :: w ++ [nl]) with (["009"%char] ++ k ++ ["="%char] ++ w ++ [nl]). rewrite !clean_app. rewrite (clean_id k); [reflexivity|]. intros c I. destruct (dropped c) eqn:D; [|reflexivity]. exfalso. exact (key_no k c K (or_intror (or_intror D)) I).
Qed.
Lemma hline_gt k w : key_text k -> one_line w -> has_char gt (hline k (clean w)) = false.
Proof.
  intros K [_ G]. apply has_char_notIn. intros [X|I]; [discriminate X|]. apply in_app_or in I as [I|[X|I]]; [exact (key_no k _ K (or_intror (or_introl eq_refl)) I)|discriminate X|]. apply in_app_or in I as [I|[X|[]]]; [exact (G (clean_In _ _ I))|discriminate X].
Qed.
Lemma strip_hline k w : key_text k -> exists a sp, w = a ++ sp /\ forallb is_space sp = true /\ strip a = strip w /\ strip (hline k w) = k ++ "="%char :: a.
Proof.
  intros K. destruct (rstrip_decomp w) as (sp & E & S). exists (rstrip w), sp. split; [exact E|]. split; [exact S|]. split; [apply strip_rstrip|].
  unfold hline. rewrite E at 1. change ("009"%char :: k ++ "="%char :: (rstrip w ++ sp) ++ [nl]) with (["009"%char] ++ k ++ "="%char :: (rstrip w ++ sp) ++ [nl]).
  rewrite <- !app_assoc. replace (k ++ "="%char :: rstrip w ++ sp ++ [nl]) with ((k ++ "="%char :: rstrip w) ++ (sp ++ [nl])) by (rewrite <- app_assoc; reflexivity).
  apply strip_pad; [reflexivity|rewrite forallb_app, S; reflexivity|]. destruct K as [L H]. destruct k as [|c k]; [cbn in L; lia|]. split.
  - intros x r X. injection X as <- _. assert (I : In c (c :: k)) by (left; reflexivity). apply H, key_char_spec in I. apply I.
  - intros x r X. destruct (rstrip w) as [|y l] eqn:R.
    + apply app_inj_tail in X as [_ <-]. reflexivity.
    + assert (NE : y :: l <> []) by discriminate. destruct (exists_last NE) as (l' & z & EL). rewrite EL in X, R. change ("="%char :: l' ++ [z]) with (("="%char :: l') ++ [z]) in X. rewrite app_assoc in X. apply app_inj_tail in X as [_ <-]. exact (rstrip_last w z l' R).
Qed.
Lemma entry_hline k w : key_text k -> ~ In quote_char w -> header_entry (hline k w) = if has_char "=" w then [] else [k ++ "="%char :: strip w].
Proof.
  intros K Q. destruct (strip_hline k w K) as (a & sp & E & S & SA & SH). unfold header_entry. rewrite SH. assert (L : (List.length (k ++ "="%char :: a) <=? 2)%nat = false) by (apply Nat.leb_gt; rewrite app_length; cbn [List.length]; destruct K as [L _]; lia). rewrite L.
  rewrite replace_char_absent; [|intros I; apply in_app_or in I as [I|[X|I]]; [exact (key_no k quote_char K (or_intror (or_intror eq_refl)) I)|discriminate X|apply Q; rewrite E; apply in_or_app; left; exact I]].
  unfold equals. rewrite split_on_app by (apply key_no; [exact K|left; reflexivity]).
  destruct (has_char "=" w) eqn:HW.
  - assert (I : In "="%char a). { apply has_char_In in HW. rewrite E in HW. apply in_app_or in HW as [I|I]; [exact I|]. rewrite forallb_forall in S. apply S in I. discriminate I. }
    apply in_split in I as (a1 & a2 & EA). rewrite EA. assert (X : forall s1 s2, exists p q r, split_on "=" (s1 ++ "="%char :: s2) = p :: q :: r).
    { clear. induction s1 as [|c s1 IH]; intros s2; cbn [app split_on].
      - rewrite Ascii.eqb_refl. pose proof (split_on_nonnil "=" s2) as N. destruct (split_on "=" s2) as [|q r]; [contradiction|]. exists [], q, r. reflexivity.
      - destruct (IH s2) as (p & q & r & EQ). rewrite EQ. destruct (Ascii.eqb c "="); [exists [], p, (q :: r)|exists (c :: p), q, r]; reflexivity. }
    destruct (X a1 a2) as (p & q & r & EQ). rewrite EQ. reflexivity.
  - apply has_char_notIn in HW. rewrite split_on_no by (intros I; apply HW; rewrite E; apply in_or_app; left; exact I). rewrite (proj2 (key_trim k K)), SA. reflexivity.
Qed.
Definition out (k w : text) : list text := if has_char "=" w then [] else [k ++ "="%char :: tidy w].
Lemma list_hline k w r : key_text k -> one_line w -> header_list true (edi_line (hline k w) :: r) = out k w ++ header_list true r.
Proof.
  intros K O. rewrite (edi_hline k w K). cbn [header_list]. rewrite (hline_gt k w K O). cbn [andb]. rewrite (entry_hline k (clean w) K (clean_quote w)). unfold out, tidy, bare. f_equal.
  assert (E : has_char "=" (filter (fun c => negb (dropped c)) w) = has_char "=" w).
  { destruct (has_char "=" w) eqn:H; [apply has_char_In; apply has_char_In in H; apply filter_In; split; [exact H|reflexivity]|]. apply has_char_notIn. apply has_char_notIn in H. intros I. apply filter_In in I as [I _]. exact (H I). }
  rewrite E. reflexivity.
Qed.
Lemma is_line_hline k w : key_text k -> ~ In nl w -> is_line (hline k w).
Proof.
  intros K N. exists ("009"%char :: k ++ "="%char :: w). split; [unfold hline; rewrite <- app_comm_cons, <- app_assoc; reflexivity|]. intros [X|I]; [discriminate X|]. apply in_app_or in I as [I|[X|I]]; [|discriminate X|exact (N I)]. destruct K as [_ H]. apply H in I. discriminate I.
Qed.
(** Texts without white space and marks. *)
Definition safe (s : text) : bool := forallb key_char s.
Lemma safe_tidy s : safe s = true -> tidy s = s.
Proof.
  intros H. unfold safe in H. rewrite forallb_forall in H. unfold tidy. rewrite clean_id by (intros c I; apply H, key_char_spec in I; apply I). apply strip_trimmed. split; intros c r ->; [assert (I : In c (c :: r)) by (left; reflexivity)|assert (I : In c (r ++ [c])) by (apply in_or_app; right; left; reflexivity)]; apply H, key_char_spec in I; apply I.
Qed.
Lemma safe_free s : safe s = true -> free s.
Proof. intros H. unfold safe in H. rewrite forallb_forall in H. split; [split|]; intros I; apply H in I; discriminate I. Qed.
Lemma safe_app a b : safe (a ++ b) = (safe a && safe b)%bool.
Proof. apply forallb_app. Qed.
Lemma digit_key c : is_digit c = true -> key_char c = true.
Proof. intros H. pose proof (ascii_forall (fun c => implb (is_digit c) (key_char c)) eq_refl c) as X. cbv beta in X. rewrite H in X. exact X. Qed.
Lemma digits_safe s : forallb is_digit s = true -> safe s = true.
Proof. intros H. apply forallb_forall. intros c I. rewrite forallb_forall in H. apply digit_key, H, I. Qed.
Lemma sci_key c : sci_char c = true -> key_char c = true.
Proof. intros H. pose proof (ascii_forall (fun c => implb (sci_char c) (key_char c)) eq_refl c) as X. cbv beta in X. rewrite H in X. exact X. Qed.
Lemma sci_safe s : forallb sci_char s = true -> safe s = true.
Proof. intros H. apply forallb_forall. intros c I. rewrite forallb_forall in H. apply sci_key, H, I. Qed.
Lemma num_safe s : forallb num_char s = true -> safe s = true.
Proof. intros H. apply sci_safe. apply forallb_forall. intros c I. rewrite forallb_forall in H. unfold sci_char. rewrite (H c I). reflexivity. Qed.
Lemma iso_safe t : safe (isoformat t) = true.
Proof.
  unfold isoformat, iso_no_tz_text, isodate, show_date, show_clock. cbv zeta. rewrite !safe_app. rewrite !(digits_safe (pad _ _)) by apply pad_digits. destruct (_ mod 1000 =? 0)%Z; [destruct (_ =? 0)%Z|]; rewrite ?safe_app, ?(digits_safe (pad _ _)) by apply pad_digits; reflexivity.
Qed.
Lemma float2str_safe q : safe (float2str q) = true.
Proof.
  unfold float2str. destruct (dms_parts q) as [[[sg d] m] s]. change (show_int (sg * d) ++ ":"%char :: pad 2 m ++ ":"%char :: show_scaled 6 (s * 100)) with (show_int (sg * d) ++ [":"%char] ++ pad 2 m ++ [":"%char] ++ show_scaled 6 (s * 100)). rewrite !safe_app.
  rewrite (digits_safe (pad _ _)) by apply pad_digits. rewrite (num_safe (show_int _)) by apply show_int_chars. rewrite (num_safe (show_scaled _ _)); [reflexivity|]. unfold show_scaled. cbv zeta. set (b := show_nat _ ++ _). assert (B : forallb num_char b = true). { unfold b. rewrite forallb_app. apply andb_true_intro. split; [apply digits_num_char, show_nat_digits; apply Z.div_pos; [lia|apply Z.pow_pos_nonneg; lia]|]. change (6 =? 0)%nat with false. cbn [forallb]. rewrite (digits_num_char _ (pad_digits 6 _)). reflexivity. }
  destruct (_ <? 0)%Z; [exact B|exact B].
Qed.
