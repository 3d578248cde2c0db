(** C97: the header of an AVG file. *)
From Coq Require Import Qabs.
From Verif Require Import PyBase PyText PyNum IsoModel PyFloat PySci PyFacts TextFacts PyFloatFacts ValidatorsModel UnitsModel LocationModel EdiProofs AvgHeadModel AvgHeadSpec AvgHeadProofs AvgHeadValues.

Local Open Scope nat_scope.

(** ** Files *)
Lemma readlines_line s r : ~ In newline s -> readlines (s ++ newline :: r) = (s ++ [newline]) :: readlines r.
Proof.
  induction s as [|c s IH]; intros H; cbn [app readlines].
  - rewrite Ascii.eqb_refl. reflexivity.
  - destruct (Ascii.eqb_spec c newline) as [->|N]; [exfalso; apply H; left; reflexivity|]. rewrite IH by (intros I; apply H; right; exact I). reflexivity.
Qed.
Lemma join_more l more : more <> [] -> l <> [] -> join [newline] (l ++ more) = join [newline] l ++ newline :: join [newline] more.
Proof.
  intros M. induction l as [|x l IH]; intros N; [congruence|]. destruct l as [|y l].
  - cbn [app]. destruct more as [|m more]; [congruence|]. reflexivity.
  - cbn [app]. change (join [newline] (x :: y :: l ++ more)) with (x ++ [newline] ++ join [newline] ((y :: l) ++ more)). rewrite IH by discriminate.
    change (join [newline] (x :: y :: l)) with (x ++ [newline] ++ join [newline] (y :: l)). rewrite <- !app_assoc. reflexivity.
Qed.
Lemma readlines_join l more : more <> [] -> Forall (fun s => ~ In newline s) l -> readlines (join [newline] (l ++ more)) = map (fun s => s ++ [newline]) l ++ readlines (join [newline] more).
Proof.
  intros M. induction l as [|x l IH]; intros F; [reflexivity|]. change (x :: l) with ([x] ++ l). rewrite <- app_assoc. rewrite join_more; [|destruct l; [exact M|discriminate]|discriminate].
  cbn [join app map]. rewrite readlines_line by exact (Forall_inv F). rewrite IH by exact (Forall_inv_tail F). reflexivity.
Qed.
(** ** The whole header *)
Lemma finite_choice (P : hfield -> hvalue -> Prop) : (forall f, exists v, P f v) -> exists g, forall f, P f (g f).
Proof.
  intros H. destruct (H FType) as (a1 & H1), (H FArray) as (a2 & H2), (H FTx) as (a3 & H3), (H FVersion) as (a4 & H4), (H FFlip) as (a5 & H5), (H FSmooth) as (a6 & H6), (H FToZ) as (a7 & H7),
    (H FDplus) as (a8 & H8), (H FStation) as (a9 & H9), (H FLength) as (a10 & H10), (H FHpr) as (a11 & H11), (H FLat) as (a12 & H12), (H FLon) as (a13 & H13), (H FUnit) as (a14 & H14).
  exists (fun f => match f with FType => a1 | FArray => a2 | FTx => a3 | FVersion => a4 | FFlip => a5 | FSmooth => a6 | FToZ => a7 | FDplus => a8 | FStation => a9 | FLength => a10 | FHpr => a11 | FLat => a12 | FLon => a13 | FUnit => a14 end).
  intros []; assumption.
Qed.
Lemma key_unique f k k' : In (f, k) header_keys -> In (f, k') header_keys -> k = k'.
Proof.
  intros A B. assert (N : NoDup (map fst header_keys)). { cbn. repeat constructor; cbn; intuition discriminate. }
  revert A B N. generalize header_keys. induction l as [|[f0 k0] l IH]; intros A B N; [destruct A|]. inversion N as [|x y N1 N2]; subst. cbn in N1.
  destruct A as [A|A], B as [B|B].
  - congruence.
  - exfalso. injection A as -> ->. apply N1. apply in_map_iff. exists (f, k'). split; [reflexivity|exact B].
  - exfalso. injection B as -> ->. apply N1. apply in_map_iff. exists (f, k). split; [reflexivity|exact A].
  - apply IH; assumption.
Qed.
Definition field_back (h : head) (f : hfield) (v' : hvalue) : Prop :=
  one_line (value_text (h_value h f)) /\ (forall k, In (f, k) header_keys -> bindR (read_value k (capitalize (value_text (h_value h f)) ++ [nl])) (validate_field f) = Ok v') /\ comes_back f (h_value h f) v'.
Lemma in_keys f k : In (f, k) header_keys -> forall k', In (f, k') header_keys -> k' = k.
Proof. intros A k' B. apply (key_unique f k' k B A). Qed.
Lemma enum_field h f k l : In (f, k) header_keys -> forallb (fun s => closed_check f k (txt s)) l = true -> one_of l (h_value h f) -> comes_back f (h_value h f) (h_value h f) -> exists v', field_back h f v'.
Proof.
  intros I C O CB. exists (h_value h f). destruct (enum_back f k l I C _ O) as [A B]. split; [exact A|]. split; [|exact CB]. intros k' I'. rewrite (in_keys f k I k' I'). exact B.
Qed.
Ltac in_keys_now := cbn; tauto.
Lemma good_fields h : good_head h -> forall f, exists v', field_back h f v'.
Proof.
  intros (G1 & G2 & G3 & (ver & G4 & V4) & G5 & G6 & G7 & G8 & (stn & G9 & V9) & (len & G10) & (hpr & G11 & V11) & (lat & G12 & V12) & (lon & G13 & V13) & (un & name & G14 & W14 & U14)) f. destruct f.
  - apply (enum_field h FType (txt "survey.type") surveys); [in_keys_now|vm_compute; reflexivity|exact G1|reflexivity].
  - apply (enum_field h FArray (txt "survey.array") ["tensor"%string]); [in_keys_now|vm_compute; reflexivity|exact G2|reflexivity].
  - apply (enum_field h FTx (txt "tx.type") ["natural"; "controlled source"]%string); [in_keys_now|vm_compute; reflexivity|exact G3|reflexivity].
  - exists (HText (lower (strip ver))). unfold field_back. rewrite G4. split; [exact V4|]. split; [|exists ver; split; reflexivity]. intros k I. rewrite (in_keys FVersion (txt "m_t_edit.version") ltac:(in_keys_now) k I). apply texts_back. left. split; reflexivity.
  - apply (enum_field h FFlip (txt "m_t_edit.auto.phase_flip") ["yes"; "no"]%string); [in_keys_now|vm_compute; reflexivity|exact G5|reflexivity].
  - apply (enum_field h FSmooth (txt "m_t_edit.phase_slope.smooth") ["robust"; "normal"; "minimal"]%string); [in_keys_now|vm_compute; reflexivity|exact G6|reflexivity].
  - apply (enum_field h FToZ (txt "m_t_edit.phase_slope.to_z_mag") ["yes"; "no"]%string); [in_keys_now|vm_compute; reflexivity|exact G7|reflexivity].
  - apply (enum_field h FDplus (txt "m_t_edit.d_plus.use") ["yes"; "no"]%string); [in_keys_now|vm_compute; reflexivity|exact G8|reflexivity].
  - exists (HText (lower (strip stn))). unfold field_back. rewrite G9. split; [exact V9|]. split; [|exists stn; split; reflexivity]. intros k I. rewrite (in_keys FStation (txt "rx.gdp_stn") ltac:(in_keys_now) k I). apply texts_back. right. split; reflexivity.
  - destruct (length_back len) as (q' & R & C). exists (HNum (Fin q')). unfold field_back. rewrite G10. split; [apply num_one_line, fixed_chars|]. split; [|exists len, q'; repeat split; exact C]. intros k I. rewrite (in_keys FLength (txt "rx.length") ltac:(in_keys_now) k I). exact R.
  - destruct (angles_back hpr V11) as (l' & R & C). exists (HList (map Fin l')). unfold field_back. rewrite G11. split.
    + split; [apply (list_no (ascii_of_N 10) _ (list_chars hpr)); reflexivity|apply (list_no "="%char _ (list_chars hpr)); reflexivity].
    + split; [|exists hpr, l'; repeat split; exact C]. intros k I. rewrite (in_keys FHpr (txt "rx.h_p_r") ltac:(in_keys_now) k I). exact R.
  - destruct (position_back Latitude (txt "g_p_s.lat") FLat lat 90 ltac:(left; repeat split; reflexivity) V12) as (q' & R & C). exists (HNum (Fin q')). unfold field_back. rewrite G12. split; [apply num_one_line, fixed_chars|]. split; [|exists lat, q'; repeat split; exact C]. intros k I. rewrite (in_keys FLat (txt "g_p_s.lat") ltac:(in_keys_now) k I). exact R.
  - destruct (position_back Longitude (txt "g_p_s.lon") FLon lon 180 ltac:(right; repeat split; reflexivity) V13) as (q' & R & C). exists (HNum (Fin q')). unfold field_back. rewrite G13. split; [apply num_one_line, fixed_chars|]. split; [|exists lon, q'; repeat split; exact C]. intros k I. rewrite (in_keys FLon (txt "g_p_s.lon") ltac:(in_keys_now) k I). exact R.
  - exists (HText name). unfold field_back. rewrite G14. split.
    + destruct W14 as (_ & F & NE). split; [|exact NE]. intros I. pose proof (proj1 (Forall_forall _ _) F _ I) as X. discriminate X.
    + split; [|exists un, name; repeat split; exact U14]. intros k I. rewrite (in_keys FUnit (txt "unit.length") ltac:(in_keys_now) k I). apply unit_back; assumption.
Qed.
(** The lines of the header, before any other lines. *)
Lemma key_no_newline : forallb (fun fk => negb (has_char newline (key_text (snd fk)))) header_keys = true. Proof. vm_compute. reflexivity. Qed.
Lemma line_no_newline f k s : In (f, k) header_keys -> ~ In newline s -> ~ In newline (line_of k s).
Proof.
  intros I N J. pose proof (proj1 (forallb_forall _ _) key_no_newline (f, k) I) as C. cbn [snd] in C. apply negb_true_iff in C. apply has_char_notIn in C.
  unfold line_of in J. apply in_app_or in J. destruct J as [[E|[]]|J]; [discriminate E|]. apply in_app_or in J. destruct J as [J|J]; [exact (C J)|]. apply in_app_or in J. destruct J as [[E|[]]|J]; [discriminate E|exact (N J)].
Qed.
Lemma write_header_lines h : write_header h = [] :: map (fun fk => line_of (snd fk) (capitalize (value_text (h_value h (fst fk))))) header_keys.
Proof. reflexivity. Qed.
Lemma file_lines h more : (forall f, ~ In newline (value_text (h_value h f))) -> more <> [] ->
  readlines (join [newline] (write_header h ++ more)) = [nl] :: map (fun fk => line_of (snd fk) (capitalize (value_text (h_value h (fst fk)))) ++ [nl]) header_keys ++ readlines (join [newline] more).
Proof.
  intros N M. rewrite readlines_join; [|exact M|].
  - rewrite write_header_lines. cbn [map]. rewrite map_map. reflexivity.
  - rewrite write_header_lines. constructor; [intros []|]. apply Forall_forall. intros s I. apply in_map_iff in I. destruct I as ((f & k) & <- & I). cbn [fst snd]. apply (line_no_newline f k _ I). apply not_in_capitalize; [right; reflexivity|]. apply N.
Qed.
Lemma header_then h more st0 : good_head h -> more <> [] -> exists h', (forall f, comes_back f (h_value h f) (h_value h' f)) /\ h_other h' = h_other st0 /\ h_comps h' = h_comps st0 /\
  forall d, read_lines (st0, None, d) (readlines (join [newline] (write_header h ++ more))) = read_lines (h', None, d) (readlines (join [newline] more)).
Proof.
  intros G M. destruct (finite_choice (field_back h) (good_fields h G)) as (g & H). exists (set_all header_keys g st0).
  split; [|split; [apply set_all_rest|split; [apply set_all_rest|]]].
  - intros f. rewrite set_all_value. destruct (in_dec hfield_dec f (map fst header_keys)) as [I|I]; [apply H|exfalso; apply I, all_fields].
  - intros d. rewrite file_lines; [|intros f; apply (proj1 (H f))|exact M]. cbn [app read_lines]. change (read_line (st0, None, d) [nl]) with (Ok (st0, @None text, d)). cbn [bindR].
    rewrite (read_all (fun f => capitalize (value_text (h_value h f))) g d header_keys st0); [reflexivity|]. intros f k I. destruct (H f) as ((_ & NE) & R & _).
    split; [exact I|]. split; [apply not_in_capitalize; [left; reflexivity|exact NE]|apply R; exact I].
Qed.
(** Lines of data. *)
Definition data_line (s : text) : Prop := 3 <= length s /\ ~ In newline s /\ forall r, s <> "$"%char :: r.
Lemma not_header s : (forall r, s <> "$"%char :: r) -> is_header_line s = false.
Proof.
  intros H. unfold is_header_line. destruct (find (txt "=") s) as [[|n]|]; try reflexivity. destruct s as [|c r]; [reflexivity|]. change (prefix_of (txt "$") (c :: r)) with (Ascii.eqb "$" c && true). rewrite andb_true_r.
  apply Ascii.eqb_neq. intros E. apply (H r). subst c. reflexivity.
Qed.
Lemma read_plain h comp d s : (forall r, s <> "$"%char :: r) -> read_line (h, comp, d) s = Ok (h, comp, if 2 <? length s then d ++ [s] else d).
Proof. intros H. unfold read_line. rewrite (not_header s H). reflexivity. Qed.
Lemma data_kept h comp : forall more d, more <> [] -> Forall data_line more -> read_lines (h, comp, d) (readlines (join [newline] more)) = Ok (h, comp, d ++ readlines (join [newline] more)).
Proof.
  induction more as [|s more IH]; intros d M F; [congruence|]. pose proof (Forall_inv F) as (L & N & D). destruct more as [|s2 more].
  - cbn [join]. assert (R : readlines s = [s]). { clear -L N. destruct s as [|c s]; [cbn in L; lia|]. clear L. revert c N. induction s as [|c2 s IH]; intros c N; cbn [readlines].
      - destruct (Ascii.eqb_spec c newline) as [->|]; [exfalso; apply N; left; reflexivity|reflexivity].
      - destruct (Ascii.eqb_spec c newline) as [->|]; [exfalso; apply N; left; reflexivity|]. change (readlines (c2 :: s)) with (readlines (c2 :: s)) in *. specialize (IH c2). cbn [readlines] in IH. rewrite IH by (intros I; apply N; right; exact I). reflexivity. }
    rewrite R. cbn [read_lines]. rewrite read_plain by exact D. assert (X : (2 <? length s) = true) by (apply Nat.ltb_lt; lia). rewrite X. reflexivity.
  - change (join [newline] (s :: s2 :: more)) with (s ++ newline :: join [newline] (s2 :: more)). rewrite readlines_line by exact N. cbn [read_lines].
    assert (D' : forall r, s ++ [newline] <> "$"%char :: r). { intros r E. destruct s as [|c s']; [cbn in L; lia|]. injection E as -> _. apply (D s'). reflexivity. }
    rewrite read_plain by exact D'. assert (X : (2 <? length (s ++ [newline])) = true) by (apply Nat.ltb_lt; rewrite app_length; lia). rewrite X. cbn [bindR].
    rewrite IH; [|discriminate|exact (Forall_inv_tail F)]. rewrite <- app_assoc. reflexivity.
Qed.

(** ** Theorems *)

(** A header that is written, followed by any lines of data, and read into any header: every attribute comes back, and the
    lines of data are those that follow. *)
Theorem C97_header h h0 more : good_head h -> more <> [] -> Forall data_line more ->
  exists h', read_header h0 (readlines (join [newline] (write_header h ++ more))) = Ok (h', readlines (join [newline] more)) /\
    (forall f, comes_back f (h_value h f) (h_value h' f)) /\ h_other h' = h_other h0 /\ h_comps h' = h_comps h0.
Proof.
  intros G M F. destruct (header_then h more h0 G M) as (h' & CB & O & C & R). exists h'. split; [|split; [exact CB|split; [exact O|exact C]]].
  unfold read_header. rewrite R, (data_kept h' None more [] M F). reflexivity.
Qed.
(** Errors in one of the lines. *)
Lemma line_state h d f k s st : In (f, k) header_keys -> read_line (h, None, d) (line_of k s ++ [nl]) = Ok st -> exists h', st = (h', None, d).
Proof.
  intros I R. destruct (in_dec ascii_dec "="%char s) as [E|E].
  - destruct (equals_line h d f k s I E) as (e & X). congruence.
  - rewrite (read_header_line h d f k s I E) in R. destruct (read_value k (s ++ [nl])) as [v|e]; [|discriminate R]. cbn [bindR] in R. destruct (validate_field f v) as [x|e]; [|discriminate R]. cbn [bindR] in R. injection R as <-. eauto.
Qed.
Lemma bad_line (w : hfield -> text) fb : (forall k h d, In (fb, k) header_keys -> exists e, read_line (h, None, d) (line_of k (w fb) ++ [nl]) = Err e) ->
  forall l rest h d, (forall f k, In (f, k) l -> In (f, k) header_keys) -> In fb (map fst l) -> exists e, read_lines (h, None, d) (map (fun fk => line_of (snd fk) (w (fst fk)) ++ [nl]) l ++ rest) = Err e.
Proof.
  intros B. induction l as [|[f k] l IH]; intros rest h d S I; [destruct I|]. cbn [map app read_lines fst snd].
  destruct (read_line (h, None, d) (line_of k (w f) ++ [nl])) as [st|e] eqn:R; [|exists e; reflexivity]. cbn [bindR].
  destruct (line_state h d f k (w f) st (S f k (or_introl eq_refl)) R) as (h' & ->). cbn [map fst] in I. destruct I as [->|I].
  - destruct (B k h d (S fb k (or_introl eq_refl))) as (e & X). congruence.
  - apply IH; [intros f' k' J; apply S; right; exact J|exact I].
Qed.
Definition no_newline (h : head) : Prop := forall f s, h_value h f = HText s -> ~ In newline s.
Lemma value_no_newline h f : no_newline h -> ~ In newline (value_text (h_value h f)).
Proof.
  intros N. destruct (h_value h f) as [s|x|l] eqn:E; cbn [value_text].
  - exact (N f s E).
  - destruct x as [q|]; [apply (num_not newline _ (fixed_chars 7 q)); reflexivity|]. intros I. cbn in I. intuition discriminate.
  - intros I. assert (X : exists y, In y l /\ In newline (show_num 1 y)).
    { clear E. induction l as [|y l IH]; [destruct I|]. cbn [map join] in I. destruct (map (show_num 1) l) as [|z r] eqn:M; [exists y; split; [left; reflexivity|exact I]|]. apply in_app_or in I.
      destruct I as [I|I]; [exists y; split; [left; reflexivity|exact I]|]. destruct I as [I|I]; [discriminate I|]. destruct (IH I) as (y' & J & K). exists y'. split; [right; exact J|exact K]. }
    destruct X as (y & _ & X). destruct y as [q|]; [apply (num_not newline _ (fixed_chars 1 q)) in X; [exact X|reflexivity]|]. cbn in X. intuition discriminate.
Qed.
Lemma bad_field h fb : no_newline h -> (forall k h1 d, In (fb, k) header_keys -> exists e, read_line (h1, None, d) (line_of k (capitalize (value_text (h_value h fb))) ++ [nl]) = Err e) ->
  forall h0 more, more <> [] -> exists e, read_header h0 (readlines (join [newline] (write_header h ++ more))) = Err e.
Proof.
  intros N B h0 more M. unfold read_header. rewrite file_lines; [|intros f; apply value_no_newline; exact N|exact M]. cbn [app read_lines]. change (read_line (h0, None, []) [nl]) with (Ok (h0, @None text, @nil text)). cbn [bindR].
  destruct (bad_line (fun f => capitalize (value_text (h_value h f))) fb B header_keys (readlines (join [newline] more)) h0 [] ltac:(auto) (all_fields fb)) as (e & ->). exists e. reflexivity.
Qed.
(** No header without a smoothing can be read back: the default of the library is written as None, read as none and refused. *)
Theorem C97_no_smoothing_refuted h h0 more : no_newline h -> h_value h FSmooth = HText (txt "None") -> more <> [] ->
  exists e, read_header h0 (readlines (join [newline] (write_header h ++ more))) = Err e.
Proof.
  intros N S M. apply (bad_field h FSmooth N); [|exact M]. intros k h1 d I. rewrite (in_keys FSmooth (txt "m_t_edit.phase_slope.smooth") ltac:(in_keys_now) k I). rewrite S.
  rewrite (read_header_line h1 d FSmooth (txt "m_t_edit.phase_slope.smooth") _ ltac:(in_keys_now)); [exists ValueError; vm_compute; reflexivity|]. cbn. intuition discriminate.
Qed.
(** No header with fewer than two orientation angles can be read back. *)
Theorem C97_few_angles_refuted h h0 more l : no_newline h -> h_value h FHpr = HList l -> length l < 2 -> more <> [] ->
  exists e, read_header h0 (readlines (join [newline] (write_header h ++ more))) = Err e.
Proof.
  intros N S L M. apply (bad_field h FHpr N); [|exact M]. intros k h1 d I. rewrite (in_keys FHpr (txt "rx.h_p_r") ltac:(in_keys_now) k I). rewrite S.
  destruct (in_dec ascii_dec "="%char (capitalize (value_text (HList l)))) as [E|E]; [apply (equals_line h1 d FHpr (txt "rx.h_p_r") _ ltac:(in_keys_now) E)|].
  rewrite (read_header_line h1 d FHpr (txt "rx.h_p_r") _ ltac:(in_keys_now) E). destruct (read_value (txt "rx.h_p_r") (capitalize (value_text (HList l)) ++ [nl])) as [v|e] eqn:R; [|exists e; reflexivity].
  cbn [bindR]. rewrite (short_angles l L v R). exists ValueError. reflexivity.
Qed.
(** So the header of a new object cannot be read back. *)
Theorem C97_new_refuted h0 more : more <> [] -> exists e, read_header h0 (readlines (join [newline] (write_header new_head ++ more))) = Err e.
Proof. apply C97_no_smoothing_refuted; [|reflexivity]. intros f s E. destruct f; try discriminate E; injection E as <-; cbn; intuition discriminate. Qed.
(** No header with an equals sign in the name of the station or the version can be read back. *)
Theorem C97_equals_refuted h h0 more f s : no_newline h -> f = FVersion \/ f = FStation -> h_value h f = HText s -> In "="%char s -> more <> [] ->
  exists e, read_header h0 (readlines (join [newline] (write_header h ++ more))) = Err e.
Proof.
  intros N F S I M. apply (bad_field h f N); [|exact M]. intros k h1 d K. rewrite S. cbn [value_text]. apply (equals_line h1 d f k _ K).
  destruct s as [|c r]; [destruct I|]. cbn [capitalize]. destruct I as [->|I]; [left; reflexivity|]. right. apply in_map_iff. exists "="%char. split; [reflexivity|exact I].
Qed.
(** The name of a station with a capital letter is not kept. *)
Theorem C97_capital_refuted h h0 more s c : good_head h -> more <> [] -> Forall data_line more -> h_value h FStation = HText s -> In c s -> is_upper c = true ->
  exists h' d, read_header h0 (readlines (join [newline] (write_header h ++ more))) = Ok (h', d) /\ h_value h' FStation <> h_value h FStation.
Proof.
  intros G M F S I U. destruct (C97_header h h0 more G M F) as (h' & R & CB & _). exists h', (readlines (join [newline] more)). split; [exact R|].
  destruct (CB FStation) as (s' & E & E'). rewrite S in E. injection E as <-. rewrite E', S. intros X. injection X as X. rewrite <- X in I. pose proof (lower_no_upper (strip s)) as L. rewrite <- not_true_iff_false in L. apply L. apply existsb_exists. exists c. split; assumption.
Qed.
(** A component that a receiver does not know is accepted with a blank before the equals sign and refused without it. *)
Definition lower_word (c : text) : Prop := c <> [] /\ Forall (fun x => is_lower x = true) c.
Lemma lower_word_facts c : lower_word c -> ~ In "="%char c /\ strip (c ++ [newline]) = c /\ lower c = c.
Proof.
  intros (N & F). assert (G : forall x, is_lower x = true -> is_space x = false /\ x <> "="%char /\ to_lower x = x).
  { intros x H. assert (G : implb (is_lower x) (negb (is_space x) && negb (Ascii.eqb x "=") && Ascii.eqb (to_lower x) x) = true) by (clear; revert x; apply ascii_forall; vm_compute; reflexivity).
    rewrite H in G. cbn [implb] in G. apply andb_true_iff in G. destruct G as [G G3]. apply andb_true_iff in G. destruct G as [G1 G2]. apply negb_true_iff in G1. apply negb_true_iff in G2. apply Ascii.eqb_neq in G2. apply Ascii.eqb_eq in G3. auto. }
  split; [|split].
  - intros I. pose proof (proj1 (Forall_forall _ _) F _ I) as X. discriminate X.
  - rewrite strip_line. apply no_space_strip. revert F. apply Forall_impl. intros x H. apply G. exact H.
  - clear N. induction c as [|x r IH]; [reflexivity|]. cbn [lower map]. rewrite (proj2 (proj2 (G x (Forall_inv F)))). f_equal. apply IH. exact (Forall_inv_tail F).
Qed.
Theorem C97_component_refuted h c : lower_word c -> ~ In c (map txt ["zxx"; "zyy"; "zyx"; "zxy"; "txy"; "tyx"]%string) ->
  read_header h [txt "$Rx.Cmp=" ++ c ++ [newline]] = Err ValueError /\
  exists h', read_header h [txt "$Rx.Cmp = " ++ c ++ [newline]] = Ok (h', [txt "$Rx.Cmp = " ++ c ++ [newline]]).
Proof.
  intros W NI. destruct (lower_word_facts c W) as (NE & ST & LO). assert (NE' : ~ In "="%char (c ++ [newline])) by (intros I; apply in_app_or in I; destruct I as [I|[I|[]]]; [exact (NE I)|discriminate I]).
  assert (NE2 : ~ In "="%char (" "%char :: c ++ [newline])) by (intros [I|I]; [discriminate I|exact (NE' I)]).
  assert (K : ~ In "="%char (txt "Rx.Cmp")) by (cbn; intuition discriminate). assert (K2 : ~ In "="%char (txt "Rx.Cmp ")) by (cbn; intuition discriminate).
  split.
  - unfold read_header, read_lines. change (txt "$Rx.Cmp=" ++ c ++ [newline]) with (txt "$" ++ txt "Rx.Cmp" ++ txt "=" ++ (c ++ [newline])). unfold read_line.
    rewrite (header_line_is _ _ K), (header_line_split _ _ K NE'). change (read_key (txt "Rx.Cmp")) with (Ok (txt "rx.cmp")). cbn [bindR]. unfold read_value. rewrite ST, LO.
    change (ends_with (txt ".proj") (txt "rx.cmp") || ends_with (txt ".type") (txt "rx.cmp") || ends_with (txt ".datum") (txt "rx.cmp")) with false. change (ends_with (txt ".h_p_r") (txt "rx.cmp")) with false. change (contains (txt "length") (txt "rx.cmp")) with false.
    rewrite andb_false_r. cbv beta iota. cbn [bindR]. change (contains (txt "rx.cmp") (txt "rx.cmp")) with true. cbv beta iota. unfold update_comp. change (split_on "." (txt "rx.cmp")) with [txt "rx"; txt "cmp"]. cbv beta iota.
    change (memb (txt "rx") [txt "rx"; txt "ch"]) with true. cbv iota. unfold comp_value. change (text_eqb (txt "rx") (txt "rx")) with true. change (text_eqb (txt "cmp") (txt "cmp")) with true. cbv iota. unfold strict_enum.
    destruct (List.find (fun m => text_eqb c m) cmps) as [m|] eqn:FI; [|reflexivity]. exfalso. apply find_some in FI. destruct FI as [I E]. apply text_eqb_eq in E. subst m. destruct W as (NN & _).
    cbn in I. destruct I as [I|[I|[I|[I|[I|[I|[I|[]]]]]]]]; subst c; try (apply NI; cbn; tauto).
  - eexists. unfold read_header, read_lines. change (txt "$Rx.Cmp = " ++ c ++ [newline]) with (txt "$" ++ txt "Rx.Cmp " ++ txt "=" ++ (" "%char :: c ++ [newline])). unfold read_line.
    rewrite (header_line_is _ _ K2), (header_line_split _ _ K2 NE2). change (read_key (txt "Rx.Cmp ")) with (Ok (txt "rx.cmp ")). cbn [bindR]. unfold read_value.
    change (strip (" "%char :: c ++ [newline])) with (strip (c ++ [newline])). rewrite ST, LO.
    change (ends_with (txt ".proj") (txt "rx.cmp ") || ends_with (txt ".type") (txt "rx.cmp ") || ends_with (txt ".datum") (txt "rx.cmp ")) with false. change (ends_with (txt ".h_p_r") (txt "rx.cmp ")) with false. change (contains (txt "length") (txt "rx.cmp ")) with false.
    rewrite andb_false_r. cbv beta iota. cbn [bindR]. change (contains (txt "rx.cmp") (txt "rx.cmp ")) with true. cbv beta iota. unfold update_comp. change (split_on "." (txt "rx.cmp ")) with [txt "rx"; txt "cmp "]. cbv beta iota.
    change (memb (txt "rx") [txt "rx"; txt "ch"]) with true. cbv iota. unfold comp_value. change (text_eqb (txt "rx") (txt "rx")) with true. change (text_eqb (txt "cmp ") (txt "cmp")) with false. change (text_eqb (txt "cmp ") (txt "length")) with false. change (text_eqb (txt "cmp ") (txt "h_p_r")) with false. cbv iota. cbn [bindR app]. reflexivity.
Qed.

(** ** Instances *)
Definition sample_head : head :=
  mkHead (fun f => match f with
    | FType => HText (txt "MT") | FVersion => HText (txt "3.12a applied 2021/02/18") | FSmooth => HText (txt "robust") | FStation => HText (txt "MT2813")
    | FLength => HNum (Fin 50) | FHpr => HList [Fin 0; Fin 0; Fin 180] | FLat => HNum (Fin (441479163 # 10000000)) | FLon => HNum (Fin (-1110497517 # 10000000))
    | _ => default_value f end) [] [].
Definition sample_more : list text := map txt ["Skp,Freq"; "2, 1.0E+00"]%string.
Lemma one_line_bool s : has_char (ascii_of_N 10) s = false -> has_char "=" s = false -> one_line s.
Proof. intros A B. split; apply has_char_notIn; assumption. Qed.
Example C97_header_hyp : good_head sample_head /\ sample_more <> [] /\ Forall data_line sample_more.
Proof.
  split; [|split; [discriminate|]].
  - do 3 (split; [eexists; split; [|reflexivity]; cbn; tauto|]). split; [eexists; split; [reflexivity|apply one_line_bool; reflexivity]|].
    do 4 (split; [eexists; split; [|reflexivity]; cbn; tauto|]). split; [eexists; split; [reflexivity|apply one_line_bool; reflexivity]|]. split; [eexists; reflexivity|].
    split; [exists [0; 0; 180]%Q; split; [reflexivity|cbn; lia]|]. split; [eexists; split; [reflexivity|split; vm_compute; discriminate]|]. split; [eexists; split; [reflexivity|split; vm_compute; discriminate]|].
    exists (txt "m"), (txt "meter"). split; [reflexivity|]. split; [split; [discriminate|split; [repeat constructor|apply has_char_notIn; reflexivity]]|]. eexists. split; [vm_compute; reflexivity|reflexivity].
  - repeat (constructor; [split; [cbn; lia|split; [apply has_char_notIn; reflexivity|intros r E; discriminate E]]|]). constructor.
Qed.
Example C97_refuted_hyp : no_newline new_head /\ h_value new_head FSmooth = HText (txt "None") /\ h_value new_head FHpr = HList [].
Proof. split; [|split; reflexivity]. intros f s E. destruct f; try discriminate E; injection E as <-; cbn; intuition discriminate. Qed.
Example C97_equals_hyp : exists h, no_newline h /\ h_value h FStation = HText (txt "a=b") /\ In "="%char (txt "a=b").
Proof.
  exists (set_field sample_head FStation (HText (txt "a=b"))). split; [|split; [reflexivity|cbn; tauto]].
  intros f s E. apply has_char_notIn. destruct f; try discriminate E; injection E as <-; reflexivity.
Qed.
Example C97_capital_hyp : h_value sample_head FStation = HText (txt "MT2813") /\ In "M"%char (txt "MT2813") /\ is_upper "M" = true.
Proof. split; [reflexivity|split; [cbn; tauto|reflexivity]]. Qed.
Example C97_component_hyp : lower_word (txt "tzx") /\ ~ In (txt "tzx") (map txt ["zxx"; "zyy"; "zyx"; "zxy"; "txy"; "tyx"]%string).
Proof. split; [split; [discriminate|repeat constructor]|]. cbn. intuition discriminate. Qed.
(** A length with its unit on the line, as in files of the instruments: the number is read and the unit is left *)
Theorem C97_length_with_unit h d w unit x : word w -> ~ In "="%char unit -> read_float (lower w) = Some x ->
  exists h', read_line (h, None, d) (txt "$Rx.Length=" ++ w ++ txt " " ++ unit ++ [nl]) = Ok (h', None, d) /\ h_value h' FLength = HNum x /\ (forall f, f <> FLength -> h_value h' f = h_value h f).
Proof.
  intros (NE & SP & EQ) U R.
  assert (NQ : ~ In "="%char (w ++ txt " " ++ unit)) by (intros I; apply in_app_or in I as [I|I]; [exact (EQ I)|]; destruct I as [I|I]; [discriminate I|exact (U I)]).
  pose proof (read_header_line h d FLength (txt "rx.length") (w ++ txt " " ++ unit) ltac:(in_keys_now) NQ) as L.
  exists (set_field h FLength (HNum x)). split; [|split; [unfold set_field; cbn [h_value]; destruct (hfield_dec FLength FLength) as [_|X]; [reflexivity|elim X; reflexivity]|intros f N; unfold set_field; cbn [h_value]; destruct (hfield_dec f FLength) as [->|_]; [elim N; reflexivity|reflexivity]]].
  replace (txt "$Rx.Length=" ++ w ++ txt " " ++ unit ++ [nl])%list with (line_of (txt "rx.length") (w ++ txt " " ++ unit) ++ [nl])%list by (unfold line_of; change (key_text (txt "rx.length")) with (txt "Rx.Length"); rewrite <- !app_assoc; reflexivity).
  rewrite L.
  assert (V : read_value (txt "rx.length") ((w ++ txt " " ++ unit) ++ [nl]) = Ok (GStr (lower w))).
  { unfold read_value. change (ends_with (txt ".proj") (txt "rx.length")) with false. change (ends_with (txt ".type") (txt "rx.length")) with false. change (ends_with (txt ".datum") (txt "rx.length")) with false. change (ends_with (txt ".h_p_r") (txt "rx.length")) with false. change (contains (txt "length") (txt "rx.length")) with true. cbn [orb]. rewrite andb_false_r.
    rewrite <- strip_lower, split_ws_strip, !lower_app. rewrite <- !app_assoc. change (lower (txt " ")) with (txt " "). change (txt " " ++ lower unit ++ lower [nl])%list with (" "%char :: (lower unit ++ lower [nl]))%list.
    rewrite split_ws_cons; [reflexivity| | |right; eexists; eexists; split; reflexivity].
    - intros E. apply NE. destruct w; [reflexivity|discriminate E].
    - apply forallb_forall. intros c I. unfold lower in I. apply in_map_iff in I as (c' & <- & I). rewrite to_lower_space. rewrite Forall_forall in SP. rewrite (SP c' I). reflexivity. }
  rewrite V. cbn [bindR validate_field]. unfold to_number. rewrite R. reflexivity.
Qed.
Example C97_length_with_unit_hyp : word (txt "100.0") /\ ~ In "="%char (txt "m") /\ exists q, read_float (lower (txt "100.0")) = Some (Fin q).
Proof. split; [split; [discriminate|split; [repeat constructor|cbn; intuition discriminate]]|]. split; [cbn; intuition discriminate|]. eexists. vm_compute. reflexivity. Qed.
Print Assumptions C97_header.
Print Assumptions C97_no_smoothing_refuted.
Print Assumptions C97_few_angles_refuted.
Print Assumptions C97_new_refuted.
Print Assumptions C97_equals_refuted.
Print Assumptions C97_capital_refuted.
Print Assumptions C97_component_refuted.
Print Assumptions C97_length_with_unit.
