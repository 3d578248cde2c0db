(** C81: comments of runs.  C82: descriptions of equipment and ids of runs.  C83: electrodes, dipoles and the runs of a channel. *)
From Verif Require Import PyBase PyFacts PyText TextFacts PyNum IsoModel IsoProofs PyFloat PyFloatFacts PyRepr PyReprFacts EdiProofs ValidatorsProofs ZmmModel ZmmProofs SxmlModel SxmlSpec SxmlProofs SxmlChars SxmlProps SxmlProps2.
Local Open Scope list_scope.

(** ** C81 *)
Definition subject_of (id attr : text) : text := txt "mt.run:" ++ id ++ txt "." ++ attr.
(** An id that survives as part of a subject. *)
Definition plain_id (s : text) : Prop := existsb is_upper s = false /\ ~ In " "%char s /\ ~ In "."%char s.
Lemma subject_key id attr : plain_id id -> existsb is_upper attr = false -> ~ In " "%char attr -> word_like attr -> comment_key (Some (subject_of id attr)) = subject_of id attr.
Proof.
  intros (U & S0 & _) UA SA (NA & _ & LA). apply C54_subject. unfold subject_of. split; [|split].
  - rewrite !existsb_app, U, UA. reflexivity.
  - intros I. apply in_app_or in I as [I|I]; [vm_compute in I; repeat (destruct I as [I|I]; [discriminate I|]); exact I|]. apply in_app_or in I as [I|[I|I]]; [contradiction|discriminate I|contradiction].
  - split; [intros c r E; injection E as <- _; reflexivity|]. intros c r E. destruct (exists_last NA) as (a' & y & EA). rewrite EA in E. assert (c = y) as ->.
    { change (txt "." ++ a' ++ [y]) with ((txt "." ++ a') ++ [y]) in E. rewrite !app_assoc in E. apply app_inj_tail in E as [_ E]. symmetry. exact E. }
    exact (LA a' y EA).
Qed.
Lemma run_comment_key ids id attr v : ~ In "."%char id -> In id ids -> run_comment ids (subject_of id attr) (CDict v) =
  Ok (map (fun kv => (id, if nonempty attr then if text_eqb attr (txt "comments") then RComment (fst kv ++ txt ": " ++ show_opt (snd kv)) else RSet (attr ++ txt "." ++ fst kv) (snd kv) else RSet (fst kv) (snd kv))) v).
Proof.
  intros ND I. unfold run_comment, subject_of. change (txt "mt.run:" ++ id ++ txt "." ++ attr) with (txt "mt.run" ++ ":"%char :: (id ++ "."%char :: attr)).
  rewrite split1_app by (intros X; vm_compute in X; repeat (destruct X as [X|X]; [discriminate X|]); exact X). rewrite (split1_app "." id attr ND).
  assert (X : existsb (text_eqb id) ids = true) by (apply existsb_exists; exists id; split; [exact I|apply text_eqb_refl]). rewrite X. reflexivity.
Qed.
(** The author and the comments of a run's [acquired_by] or [metadata_by] reach the run they were written for, and no other. *)
Theorem C81_person ids id attr a c : In attr [txt "acquired_by"; txt "metadata_by"] -> plain_id id -> In id ids ->
  trimmed a -> trimmed c -> a <> [] -> c <> [] -> contains (txt "comments:") a = false ->
  let get p := if text_eqb p (attr ++ txt ".author") then Some a else if text_eqb p (attr ++ txt ".comments") then Some c else None in
  bindR (read_comment (Some (subject_of id attr)) (dict_comment get [attr ++ txt ".author"; attr ++ txt ".comments"])) (fun kv => run_comment ids (fst kv) (snd kv)) =
  Ok [(id, RSet (attr ++ txt ".author") (Some a)); (id, RSet (attr ++ txt ".comments") (Some c))].
Proof.
  intros IA P I TA TC NA NC NN get. rewrite C54_written.
  assert (E : set_values get [attr ++ txt ".author"; attr ++ txt ".comments"] = [(txt "author", a); (txt "comments", c)]).
  { unfold set_values, get. rewrite text_eqb_refl. destruct a as [|x a]; [congruence|]. destruct c as [|y c]; [congruence|]. cbn [In] in IA. destruct IA as [<-|[<-|[]]]; reflexivity. }
  rewrite E. unfold read_comment. rewrite (C54_author a c TA TC NN). cbn [bindR].
  assert (W : existsb is_upper attr = false /\ ~ In " "%char attr /\ word_like attr /\ nonempty attr = true /\ text_eqb attr (txt "comments") = false).
  { cbn [In] in IA. destruct IA as [<-|[<-|[]]]; (split; [reflexivity|]; split; [intros X; vm_compute in X; repeat (destruct X as [X|X]; [discriminate X|]); exact X|]; split; [apply word_good; reflexivity|split; reflexivity]). }
  destruct W as (W1 & W2 & W3 & W4 & W5). rewrite (subject_key id attr P W1 W2 W3). cbn [fst snd]. rewrite run_comment_key by (try assumption; apply P). rewrite W4, W5. cbn [map fst snd]. reflexivity.
Qed.
Example C81_person_hyp : plain_id (txt "mt01a") /\ trimmed (txt "Sam K.") /\ trimmed (txt "wind: high, rain") /\
  run_comment [txt "mt01a"; txt "mt01b"] (subject_of (txt "mt01a") (txt "acquired_by")) (CDict [(txt "author", Some (txt "Sam K."))]) = Ok [(txt "mt01a", RSet (txt "acquired_by.author") (Some (txt "Sam K.")))].
Proof. split; [repeat split; try reflexivity; intros X; vm_compute in X; repeat (destruct X as [X|X]; [discriminate X|]); exact X|]. split; [exact (trimmed_strip (txt "Sam K."))|]. split; [exact (trimmed_strip (txt "wind: high, rain"))|reflexivity]. Qed.
(** Comments never reach a run with another id than that of the subject. *)
Theorem C81_only ids key v us : run_comment ids key v = Ok us -> forall id u, In (id, u) us -> In id ids /\ exists p r, key = p ++ ":"%char :: id ++ r.
Proof.
  unfold run_comment. destruct (split1 ":" key) as [p [r|]] eqn:K; [|discriminate]. apply split1_Some in K as [-> _].
  destruct (split1 "." r) as [a [b|]] eqn:R.
  - apply split1_Some in R as [-> _]. destruct (existsb (text_eqb a) ids) eqn:X; [|intros H; injection H as <-; intros ? ? []].
    apply existsb_exists in X as (y & IY & EY). apply text_eqb_eq in EY as <-. destruct v as [s|d]; intros H; injection H as <-; [intros ? ? []|]. intros id u I. apply in_map_iff in I as (kv & E & _). injection E as <- _. split; [exact IY|]. exists p, ("."%char :: b). reflexivity.
  - destruct (existsb (text_eqb r) ids) eqn:X; [|intros H; injection H as <-; intros ? ? []].
    apply existsb_exists in X as (y & IY & EY). apply text_eqb_eq in EY as <-. destruct v as [s|d]; intros H; injection H as <-; [intros ? ? []|]. intros id u I. apply in_map_iff in I as (kv & E & _). injection E as <- _. split; [exact IY|]. exists p, []. rewrite app_nil_r. reflexivity.
Qed.
(** Comments of a run whose id has capital letters are lost, unless another run has the id in lower case: then it gets them. *)
Theorem C81_capital_refuted ids id attr v : existsb is_upper id = true -> ~ In " "%char id -> ~ In "."%char id -> existsb is_upper attr = false -> ~ In " "%char attr -> word_like attr -> ~ In (lower id) ids ->
  run_comment ids (comment_key (Some (subject_of id attr))) v = Ok [].
Proof.
  intros U S0 D UA SA WA N.
  assert (LD : ~ In "."%char (lower id)).
  { intros I. unfold lower in I. apply in_map_iff in I as (c & LC & I). pose proof (ascii_forall (fun c => implb (Ascii.eqb (to_lower c) ".") (Ascii.eqb c ".")) eq_refl c) as F. cbn beta in F. rewrite LC, Ascii.eqb_refl in F. cbn [implb] in F. apply Ascii.eqb_eq in F. subst c. contradiction. }
  assert (K : comment_key (Some (subject_of id attr)) = subject_of (lower id) attr).
  { cbn [comment_key]. rewrite strip_trimmed.
    - rewrite replace_char_absent; [|unfold subject_of; intros I; apply in_app_or in I as [I|I]; [vm_compute in I; repeat (destruct I as [I|I]; [discriminate I|]); exact I|]; apply in_app_or in I as [I|[I|I]]; [contradiction|discriminate I|contradiction]].
      unfold subject_of. rewrite !lower_app. rewrite (lower_fixed attr UA). reflexivity.
    - destruct WA as (NA & _ & LA). split; [intros c r E; injection E as <- _; reflexivity|]. intros c r E. destruct (exists_last NA) as (a' & y & EA). unfold subject_of in E. rewrite EA in E. assert (c = y) as ->.
      { change (txt "." ++ a' ++ [y]) with ((txt "." ++ a') ++ [y]) in E. rewrite !app_assoc in E. apply app_inj_tail in E as [_ E]. symmetry. exact E. }
      exact (LA a' y EA). }
  rewrite K. unfold run_comment, subject_of. change (txt "mt.run:" ++ lower id ++ txt "." ++ attr) with (txt "mt.run" ++ ":"%char :: (lower id ++ "."%char :: attr)).
  rewrite split1_app by (intros X; vm_compute in X; repeat (destruct X as [X|X]; [discriminate X|]); exact X). rewrite (split1_app "." (lower id) attr LD).
  assert (X : existsb (text_eqb (lower id)) ids = false) by (rewrite <- not_true_iff_false; intros X; apply existsb_exists in X as (y & IY & EY); apply text_eqb_eq in EY; subst y; contradiction). rewrite X. reflexivity.
Qed.
Example C81_capital_hyp : existsb is_upper (txt "MT01a") = true /\ run_comment [txt "MT01a"] (comment_key (Some (subject_of (txt "MT01a") (txt "acquired_by")))) (CDict [(txt "author", Some (txt "Sam"))]) = Ok [].
Proof. split; reflexivity. Qed.
(** A run's comments without ":" are lost. *)
Theorem C81_text_refuted ids id attr s : ~ In ":"%char s -> forall c, comment_value s = Ok c -> run_comment ids (subject_of id attr) c = Ok [].
Proof.
  intros N c E. rewrite (proj2 (C54_text s) N) in E. injection E as <-. unfold run_comment, subject_of. change (txt "mt.run:" ++ id ++ txt "." ++ attr) with (txt "mt.run" ++ ":"%char :: (id ++ "."%char :: attr)).
  rewrite split1_app by (intros X; vm_compute in X; repeat (destruct X as [X|X]; [discriminate X|]); exact X). destruct (split1 "." _) as [a [b|]]; destruct (existsb _ ids); reflexivity.
Qed.

(** ** C82 *)
Lemma split_on_cat c a b : split_on c (a ++ c :: b) = split_on c a ++ split_on c b.
Proof.
  remember (List.length a) as n eqn:L. revert a L. induction n as [n IH] using lt_wf_ind. intros a L. destruct (split1 c a) as [x [y|]] eqn:E.
  - apply split1_Some in E as [-> NX]. rewrite <- app_assoc. cbn [app]. rewrite (split_on_app c x (y ++ c :: b) NX), (split_on_app c x y NX). cbn [app]. rewrite (IH (List.length y)); [reflexivity|rewrite L, app_length; cbn [List.length]; lia|reflexivity].
  - apply split1_None in E as [_ N]. rewrite (split_on_no c a N), split_on_app by exact N. reflexivity.
Qed.
Definition plain_pair (kv : text * text) : Prop :=
  good_key (fst kv) /\ good_key (snd kv) /\ snd kv <> txt "None" /\ snd kv <> txt "null".
Lemma parse_part p k v r : strip p = k -> k = k -> split_on ":" (p ++ ":"%char :: " "%char :: v) = [p; " "%char :: v] -> word_like v -> v <> txt "None" -> v <> txt "null" ->
  parse_parts ((p ++ ":"%char :: " "%char :: v) :: r) = bindR (parse_parts r) (fun d => Ok ((txt "data_logger." ++ k, v) :: d)).
Proof.
  intros SP _ SO WV N1 N2. cbn [parse_parts]. rewrite SO, (strip_space v WV), SP. f_equal.
  assert (X : existsb (text_eqb v) unset_words = false).
  { rewrite <- not_true_iff_false. intros X. apply existsb_exists in X as (y & IY & EY). apply text_eqb_eq in EY as <-. destruct IY as [IY|[IY|[IY|[]]]]; [destruct WV as [NV _]; congruence|congruence|congruence]. }
  rewrite X. reflexivity.
Qed.
Lemma parse_description_pairs kvs : forall lead, forallb is_space lead = true -> ~ In ":"%char lead -> ~ In ","%char lead -> kvs <> [] -> Forall plain_pair kvs ->
  parse_parts (split_on "," (lead ++ pairs_text kvs)) = Ok (map (fun kv => (txt "data_logger." ++ fst kv, snd kv)) kvs).
Proof.
  induction kvs as [|[k v] kvs IH]; intros lead LS LC LM NE F; [congruence|]. inversion F as [|? ? ((WK & KC & KM) & (WV & VC & VM) & N1 & N2) F2]; subst. cbn [fst snd] in *.
  assert (SP : strip (lead ++ k) = k) by (pose proof (strip_pad lead k [] LS eq_refl (word_like_trimmed k WK)) as E; rewrite app_nil_r in E; exact E).
  assert (SO : split_on ":" ((lead ++ k) ++ ":"%char :: " "%char :: v) = [lead ++ k; " "%char :: v]).
  { rewrite split_on_app by (intros I; apply in_app_or in I as [I|I]; contradiction). rewrite split_on_no by (intros [I|I]; [discriminate I|contradiction]). reflexivity. }
  assert (NM : ~ In ","%char (lead ++ pair_text (k, v))).
  { rewrite pair_text_eq. intros I. apply in_app_or in I as [I|I]; [contradiction|]. apply in_app_or in I as [I|[I|[I|I]]]; [contradiction|discriminate I|discriminate I|contradiction]. }
  destruct kvs as [|kv2 kvs].
  - change (pairs_text [(k, v)]) with (pair_text (k, v)). rewrite (split_on_no "," _ NM). rewrite pair_text_eq, app_assoc. rewrite (parse_part (lead ++ k) k v [] SP eq_refl SO WV N1 N2). reflexivity.
  - rewrite pairs_text_cons by discriminate. rewrite app_assoc. rewrite (split_on_app "," _ _ NM). rewrite pair_text_eq, app_assoc. rewrite (parse_part (lead ++ k) k v _ SP eq_refl SO WV N1 N2).
    change (" "%char :: pairs_text (kv2 :: kvs)) with ([" "%char] ++ pairs_text (kv2 :: kvs)). rewrite IH; [reflexivity|reflexivity|intros [I|[]]; discriminate I|intros [I|[]]; discriminate I|discriminate|exact F2].
Qed.
(** The values of a data logger written into the description of its equipment are read back. *)
Theorem C82_description kvs : kvs <> [] -> Forall plain_pair kvs -> parse_description (pairs_text kvs) = Ok (map (fun kv => (txt "data_logger." ++ fst kv, snd kv)) kvs).
Proof. intros NE F. apply (parse_description_pairs kvs [] eq_refl); [intros []|intros []|exact NE|exact F]. Qed.
Theorem C82_description_written get names :
  make_description get names = pairs_text (flat_map (fun p => match get p with Some (c :: v) => [(p, c :: v)] | _ => [] end) names).
Proof. unfold make_description. f_equal. induction names as [|p names IH]; [reflexivity|]. cbn [flat_map]. rewrite IH. destruct (get p) as [[|c v]|]; reflexivity. Qed.
Example C82_description_hyp : Forall plain_pair [(txt "firmware.version", txt "1.2"); (txt "type", txt "long period")] /\
  parse_description (txt "firmware.version: 1.2, type: long period") = Ok [(txt "data_logger.firmware.version", txt "1.2"); (txt "data_logger.type", txt "long period")].
Proof.
  split; [|reflexivity]. repeat constructor; try (intros E; discriminate E); try discriminate; cbn [fst snd];
  try (apply word_good; reflexivity); try (intros X; vm_compute in X; repeat (destruct X as [X|X]; [discriminate X|]); exact X);
  try (intros c r E; apply (f_equal (fun l => hd "000"%char l)) in E; cbn in E; subst c; reflexivity); try (intros r c E; apply (f_equal (fun l => last l "000"%char)) in E; rewrite last_last in E; cbn in E; subst c; reflexivity).
Qed.
(** A part without exactly one ":" fails the whole description. *)
Lemma parse_parts_err parts p : In p parts -> (forall k v, split_on ":" p <> [k; v]) -> parse_parts parts = Err ValueError.
Proof.
  induction parts as [|q parts IH]; [intros []|]. intros I B. cbn [parse_parts]. destruct (split_on ":" q) as [|k [|v [|]]] eqn:E; try reflexivity. destruct I as [->|I]; [destruct (B _ _ E)|]. rewrite (IH I B). reflexivity.
Qed.
(** A run without values of the data logger is written with an empty description, which cannot be read. *)
Theorem C82_empty_refuted get names : (forall p, In p names -> get p = None \/ get p = Some []) -> parse_description (make_description get names) = Err ValueError.
Proof.
  intros H. assert (E : make_description get names = []).
  { rewrite C82_description_written. replace (flat_map _ names) with (@nil (text * text)); [reflexivity|]. induction names as [|p names IH]; [reflexivity|]. cbn [flat_map]. destruct (H p (or_introl eq_refl)) as [-> | ->]; (rewrite <- IH; [reflexivity|]); intros q I; apply H; right; exact I. }
  rewrite E. reflexivity.
Qed.
Lemma in_pairs_text (kvs1 : list (text * text)) (k v : text) kvs2 : exists x y, pairs_text (kvs1 ++ (k, v) :: kvs2) = x ++ (k ++ ":"%char :: " "%char :: v) ++ y /\ (x = [] \/ exists x', x = x' ++ [","%char; " "%char]) /\ (y = [] \/ exists y', y = ","%char :: y').
Proof.
  induction kvs1 as [|kv kvs1 IH]; cbn [app].
  - destruct kvs2 as [|kv2 kvs2]; [exists [], []; split; [rewrite app_nil_r; reflexivity|tauto]|]. exists [], (","%char :: " "%char :: pairs_text (kv2 :: kvs2)). split; [rewrite pairs_text_cons by discriminate; reflexivity|]. split; [tauto|right; eexists; reflexivity].
  - destruct IH as (x & y & E & X & Y). rewrite pairs_text_cons by (destruct kvs1; discriminate). rewrite E. exists (pair_text kv ++ ","%char :: " "%char :: x), y. split; [rewrite <- !app_assoc; cbn [app]; rewrite <- ?app_assoc; reflexivity|]. split; [|exact Y]. right.
    destruct X as [->|(x' & ->)]; [exists (pair_text kv); reflexivity|]. exists (pair_text kv ++ ","%char :: " "%char :: x'). rewrite <- app_assoc. reflexivity.
Qed.
(** A value with ":" (such as a time), or with ",", fails the whole description. *)
Theorem C82_colon_refuted (kvs1 : list (text * text)) (k v : text) kvs2 : ~ In ","%char k -> In ":"%char v -> ~ In ","%char v -> parse_description (pairs_text (kvs1 ++ (k, v) :: kvs2)) = Err ValueError.
Proof.
  intros KM VC VM. destruct (in_pairs_text kvs1 k v kvs2) as (x & y & E & X & Y). rewrite E. unfold parse_description.
  assert (B : forall lead, (forall a b, split_on ":" (lead ++ k ++ ":"%char :: " "%char :: v) <> [a; b])).
  { intros lead a b H. rewrite app_assoc, split_on_cat in H. apply in_split in VC as (v1 & v2 & ->). change (" "%char :: v1 ++ ":"%char :: v2) with ((" "%char :: v1) ++ ":"%char :: v2) in H. rewrite split_on_cat in H. apply (f_equal (@List.length text)) in H. rewrite !app_length in H. cbn [List.length] in H.
    pose proof (split_on_nonnil ":" (lead ++ k)). pose proof (split_on_nonnil ":" (" "%char :: v1)). pose proof (split_on_nonnil ":" v2). destruct (split_on ":" (lead ++ k)); [congruence|]. destruct (split_on ":" (" "%char :: v1)); [congruence|]. destruct (split_on ":" v2); [congruence|]. cbn [List.length] in H. lia. }
  set (m := k ++ ":"%char :: " "%char :: v) in *. assert (MM : ~ In ","%char m) by (unfold m; intros I; apply in_app_or in I as [I|[I|[I|I]]]; [contradiction|discriminate I|discriminate I|contradiction]).
  assert (P : exists lead, In (lead ++ m) (split_on "," (x ++ m ++ y))).
  { assert (P1 : forall lead, ~ In ","%char lead -> In (lead ++ m) (split_on "," ((lead ++ m) ++ y))).
    { intros lead NL. assert (NM : ~ In ","%char (lead ++ m)) by (intros I; apply in_app_or in I as [I|I]; contradiction). destruct Y as [->|(y' & ->)]; [rewrite app_nil_r, (split_on_no "," _ NM)|rewrite (split_on_app "," _ _ NM)]; left; reflexivity. }
    destruct X as [->|(x' & ->)].
    - exists []. exact (P1 [] (fun i => i)).
    - exists [" "%char]. rewrite <- app_assoc. cbn [app]. rewrite split_on_cat. apply in_or_app. right. apply (P1 [" "%char]). intros [I|[]]. discriminate I. }
  destruct P as (lead & P). exact (parse_parts_err _ _ P (B lead)).
Qed.
Theorem C82_comma_refuted (kvs1 : list (text * text)) (k v : text) kvs2 : ~ In ":"%char v -> In ","%char v -> parse_description (pairs_text (kvs1 ++ (k, v) :: kvs2)) = Err ValueError.
Proof.
  intros VC VM. destruct (in_pairs_text kvs1 k v kvs2) as (x & y & E & X & Y). rewrite E. unfold parse_description. apply in_split in VM as (v1 & v2 & ->).
  replace (x ++ (k ++ ":"%char :: " "%char :: v1 ++ ","%char :: v2) ++ y) with ((x ++ k ++ ":"%char :: " "%char :: v1) ++ ","%char :: v2 ++ y) by (repeat (rewrite <- app_assoc; cbn [app]); reflexivity).
  rewrite split_on_cat. assert (P : exists p, In p (split_on "," (v2 ++ y)) /\ ~ In ":"%char p).
  { destruct (split1 "," v2) as [a [b|]] eqn:S1.
    - apply split1_Some in S1 as [-> NA]. exists a. split; [rewrite <- app_assoc; cbn [app]; rewrite split_on_app by exact NA; left; reflexivity|]. intros I. apply VC. apply in_or_app. right. right. apply in_or_app. left. exact I.
    - apply split1_None in S1 as [_ N]. exists v2. split; [|intros I; apply VC; apply in_or_app; right; right; exact I]. destruct Y as [->|(y' & ->)]; [rewrite app_nil_r, (split_on_no "," _ N)|rewrite (split_on_app "," _ _ N)]; left; reflexivity. }
  destruct P as (p & IP & NP). apply (parse_parts_err _ p); [apply in_or_app; right; exact IP|]. intros a b H. rewrite (split_on_no ":" p NP) in H. discriminate H.
Qed.
Example C82_refuted_hyp : parse_description (txt "firmware.name: a:b, type: x") = Err ValueError /\ parse_description (txt "firmware.name: a,b") = Err ValueError.
Proof. split; reflexivity. Qed.
(** The id of a run is read back exactly when it has no ":". *)
Theorem C82_run_id id : read_run_id (run_resource id) = Ok id <-> ~ In ":"%char id.
Proof.
  unfold read_run_id, nth_part, run_resource. change (txt "mt.run.id:" ++ id) with (txt "mt.run.id" ++ ":"%char :: id).
  rewrite split_on_app by (intros X; vm_compute in X; repeat (destruct X as [X|X]; [discriminate X|]); exact X). cbn [nth_error]. split.
  - intros H I. destruct (split_on ":" id) as [|w ws] eqn:E; [destruct (split_on_nonnil ":" id E)|]. cbn [nth_error] in H. injection H as ->. apply (split_on_parts ":" id id); [rewrite E; left; reflexivity|exact I].
  - intros N. rewrite (split_on_no ":" id N). reflexivity.
Qed.

(** ** C83 *)
(** The ids of the two electrodes are read back. *)
Theorem C83_electrodes p n : trimmed p -> trimmed n -> ~ In ":"%char p -> ~ In ","%char p -> ~ In ":"%char n -> ~ In ","%char n -> electrode_ids (electrode_text p n) = Ok (p, n).
Proof.
  intros TP TN PC PM NC NM. unfold electrode_ids, electrode_text.
  change (txt "positive: " ++ p ++ txt ", negative: " ++ n) with (txt "positive" ++ ":"%char :: (" "%char :: p) ++ ","%char :: (txt " negative" ++ ":"%char :: " "%char :: n)).
  set (s := txt "positive" ++ _). assert (S0 : s = (txt "positive" ++ ":"%char :: " "%char :: p) ++ ","%char :: (txt " negative" ++ ":"%char :: " "%char :: n)) by (unfold s; rewrite <- app_assoc; reflexivity).
  assert (HM : has_char "," s = true) by (apply has_char_In; rewrite S0; apply in_or_app; right; left; reflexivity).
  assert (HC : has_char ":" s = true) by (apply has_char_In; unfold s; apply in_or_app; right; left; reflexivity).
  rewrite HM, HC. rewrite S0 at 1. rewrite split_on_app, split_on_no.
  - unfold nth_part. rewrite split_on_app by (intros X; vm_compute in X; repeat (destruct X as [X|X]; [discriminate X|]); exact X). rewrite split_on_no by (intros [X|X]; [discriminate X|contradiction]). cbn [nth_error bindR].
    rewrite split_on_app by (intros X; vm_compute in X; repeat (destruct X as [X|X]; [discriminate X|]); exact X). rewrite split_on_no by (intros [X|X]; [discriminate X|contradiction]). cbn [nth_error bindR].
    rewrite (trimmed_space p TP), (trimmed_space n TN). reflexivity.
  - intros X. apply in_app_or in X as [X|[X|[X|X]]]; [vm_compute in X; repeat (destruct X as [X|X]; [discriminate X|]); exact X|discriminate X|discriminate X|contradiction].
  - intros X. apply in_app_or in X as [X|[X|[X|X]]]; [vm_compute in X; repeat (destruct X as [X|X]; [discriminate X|]); exact X|discriminate X|discriminate X|contradiction].
Qed.
(** Ids with "," cannot be read. *)
Theorem C83_electrodes_refuted p n : In ","%char p \/ In ","%char n -> electrode_ids (electrode_text p n) = Err ValueError.
Proof.
  intros H. unfold electrode_ids, electrode_text. assert (E : txt "positive: " ++ p ++ txt ", negative: " ++ n = (txt "positive: " ++ p) ++ ","%char :: (txt " negative: " ++ n)) by (rewrite <- app_assoc; reflexivity). rewrite E.
  assert (HM : has_char "," ((txt "positive: " ++ p) ++ ","%char :: txt " negative: " ++ n) = true) by (apply has_char_In; apply in_or_app; right; left; reflexivity). rewrite HM, split_on_cat.
  assert (L : forall s c, In c s -> (2 <= List.length (split_on c s))%nat).
  { intros s c I. apply in_split in I as (a & b & ->). rewrite split_on_cat, app_length. pose proof (split_on_nonnil c a). pose proof (split_on_nonnil c b). destruct (split_on c a); [congruence|]. destruct (split_on c b); [congruence|]. cbn [List.length]. lia. }
  assert (M : (3 <= List.length (split_on "," (txt "positive: " ++ p) ++ split_on "," (txt " negative: " ++ n)))%nat).
  { rewrite app_length. pose proof (split_on_nonnil "," (txt "positive: " ++ p)) as A. pose proof (split_on_nonnil "," (txt " negative: " ++ n)) as B.
    assert (LA : (1 <= List.length (split_on "," (txt "positive: " ++ p)))%nat) by (destruct (split_on "," (txt "positive: " ++ p)); [congruence|cbn [List.length]; lia]).
    assert (LB : (1 <= List.length (split_on "," (txt " negative: " ++ n)))%nat) by (destruct (split_on "," (txt " negative: " ++ n)); [congruence|cbn [List.length]; lia]).
    destruct H as [H|H]; [pose proof (L (txt "positive: " ++ p) _ (in_or_app _ _ _ (or_intror H)))|pose proof (L (txt " negative: " ++ n) _ (in_or_app _ _ _ (or_intror H)))]; lia. }
  destruct (split_on "," (txt "positive: " ++ p) ++ split_on "," (txt " negative: " ++ n)) as [|a [|b [|c l]]]; cbn [List.length] in M; try lia; reflexivity.
Qed.
Example C83_electrodes_hyp : electrode_ids (txt "positive: 12 a, negative: 13") = Ok (txt "12 a", txt "13") /\ trimmed (txt "12 a") /\ electrode_ids (txt "positive: a:b, negative: 13") = Ok (txt "a", txt "13").
Proof. split; [reflexivity|]. split; [exact (trimmed_strip (txt "12 a"))|reflexivity]. Qed.
(** The length of a dipole is read back. *)
Theorem C83_dipole q : decimal q -> exists v, dipole_length (dipole_text q) = Ok (Fin v) /\ (v == q)%Q.
Proof.
  intros D. destruct (read_show_float q D) as (v & R & E). exists v. split; [|exact E]. unfold dipole_length, dipole_text.
  rewrite (split_ws_cons (show_float q) (txt " meters")); [rewrite R; reflexivity|exact (show_float_ne q D)|exact (show_float_dense q)|right; exists " "%char, (txt "meters"); split; reflexivity].
Qed.
Example C83_dipole_hyp : dipole_text (503 # 10) = txt "50.3 meters" /\ dipole_length (txt "50.3 meters") = Ok (Fin (503 # 10)).
Proof. split; reflexivity. Qed.
(** The runs of a channel: comments give the list of runs, and the list of runs gives the same comments back. *)
Definition run_word (s : text) : Prop := word_like s /\ ~ In ","%char s /\ ~ In ":"%char s /\ ~ In "["%char s /\ ~ In "]"%char s.
Definition run_comments (runs : list text) : list (text * text) := map (fun r => (txt "mt.run.id", r)) runs.
Definition run_text (runs : list text) : text := txt "run_ids: [" ++ join (txt ",") runs ++ txt "]".
Lemma read_run_comments runs : forall acc, read_runs (run_comments runs) acc [] = (acc ++ runs, []).
Proof.
  induction runs as [|r runs IH]; intros acc; [cbn; rewrite app_nil_r; reflexivity|]. cbn [run_comments map read_runs]. change (text_eqb (comment_key (Some (txt "mt.run.id"))) (txt "mt.run.id")) with true. cbv iota. fold (run_comments runs). rewrite IH, <- app_assoc. reflexivity.
Qed.
Theorem C83_runs_read runs : channel_runs (run_comments runs) = (runs, run_text runs).
Proof. unfold channel_runs. rewrite read_run_comments. reflexivity. Qed.
Lemma join_In sep (l : list text) c : In c (join sep l) -> In c sep \/ exists w, In w l /\ In c w.
Proof.
  induction l as [|w l IH]; [intros []|]. destruct l as [|w2 l]; cbn [join]; [intros I; right; exists w; split; [left; reflexivity|exact I]|]. intros I. apply in_app_or in I as [I|I]; [right; exists w; split; [left; reflexivity|exact I]|]. apply in_app_or in I as [I|I]; [left; exact I|]. destruct (IH I) as [J|(x & X & J)]; [left; exact J|right; exists x; split; [right; exact X|exact J]].
Qed.
Lemma filter_all {A} (f : A -> bool) l : (forall x, In x l -> f x = true) -> filter f l = l.
Proof. induction l as [|x l IH]; intros H; [reflexivity|]. cbn [filter]. rewrite (H x (or_introl eq_refl)), IH; [reflexivity|]. intros y I. apply H. right. exact I. Qed.
Theorem C83_runs runs : runs <> [] -> Forall run_word runs -> channel_comments (Some (run_text runs)) = Ok (run_comments runs).
Proof.
  intros NE F. assert (NI : forall c, In c [":"%char; "["%char; "]"%char] -> ~ In c (join (txt ",") runs)).
  { intros c IC I. apply join_In in I as [[<-|[]]|(w & IW & I)]; [cbn [In] in IC; destruct IC as [IC|[IC|[IC|[]]]]; discriminate IC|]. rewrite Forall_forall in F. destruct (F w IW) as (_ & _ & A & B & C). cbn [In] in IC. destruct IC as [<-|[<-|[<-|[]]]]; contradiction. }
  unfold channel_comments, run_text. change (txt "run_ids: [" ++ join (txt ",") runs ++ txt "]") with (txt "run_ids:" ++ " "%char :: "["%char :: join (txt ",") runs ++ ["]"%char]).
  rewrite split_str_start by discriminate.
  assert (NC : ~ In ":"%char (" "%char :: "["%char :: join (txt ",") runs ++ ["]"%char])).
  { intros [I|[I|I]]; [discriminate I|discriminate I|]. apply in_app_or in I as [I|[I|[]]]; [|discriminate I]. apply (NI ":"%char); [left; reflexivity|exact I]. }
  unfold split_str. rewrite (split_str_none (txt "run_ids:") ltac:(discriminate)) by (apply (contains_no _ ":"%char); [vm_compute; tauto|exact NC]). cbn [rev app].
  cbn [channel_items]. change (has_char ":" []) with false. cbv iota. change (has_char "[" [] && has_char "]" [])%bool with false. cbv iota. cbn [bindR].
  apply has_char_notIn in NC. rewrite NC. assert (H1 : has_char "[" (" "%char :: "["%char :: join (txt ",") runs ++ ["]"%char]) = true) by (apply has_char_In; right; left; reflexivity).
  assert (H2 : has_char "]" (" "%char :: "["%char :: join (txt ",") runs ++ ["]"%char]) = true) by (apply has_char_In; right; right; apply in_or_app; right; left; reflexivity). rewrite H1, H2. cbn [andb].
  assert (FI : filter (fun c => negb (Ascii.eqb c "[") && negb (Ascii.eqb c "]"))%bool (" "%char :: "["%char :: join (txt ",") runs ++ ["]"%char]) = " "%char :: join (txt ",") runs).
  { cbn [filter]. change (negb (Ascii.eqb " " "[") && negb (Ascii.eqb " " "]"))%bool with true. change (negb (Ascii.eqb "[" "[") && negb (Ascii.eqb "[" "]"))%bool with false. cbv iota. rewrite filter_app. cbn [filter]. change (negb (Ascii.eqb "]" "[") && negb (Ascii.eqb "]" "]"))%bool with false. cbv iota. rewrite app_nil_r. f_equal. apply filter_all. intros c I.
    apply andb_true_intro. split; apply negb_true_iff, Ascii.eqb_neq; intros ->; [apply (NI "["%char); [right; left; reflexivity|exact I]|apply (NI "]"%char); [right; right; left; reflexivity|exact I]]. }
  rewrite FI. cbn [bindR]. rewrite app_nil_r. f_equal.
  assert (G : forall rs lead, rs <> [] -> Forall run_word rs -> (lead = [] \/ lead = [" "%char]) -> flat_map (fun w => let w := strip w in if nonempty w then [(txt "mt.run.id", w)] else []) (split_on "," (lead ++ join (txt ",") rs)) = run_comments rs).
  { clear. induction rs as [|r rs IH]; intros lead NE F L; [congruence|]. inversion F as [|? ? (W & M & _) F2]; subst.
    assert (NL : ~ In ","%char (lead ++ r)) by (intros I; apply in_app_or in I as [I|I]; [destruct L as [-> | ->]; [destruct I|destruct I as [I|[]]; discriminate I]|contradiction]).
    assert (SR : strip (lead ++ r) = r) by (destruct L as [-> | ->]; [exact (strip_trimmed r (word_like_trimmed r W))|exact (strip_space r W)]).
    assert (NR : nonempty r = true) by (destruct W as [NR _]; destruct r; [congruence|reflexivity]).
    destruct rs as [|r2 rs].
    - cbn [join]. rewrite (split_on_no "," _ NL). cbn [flat_map]. rewrite SR, NR. reflexivity.
    - change (join (txt ",") (r :: r2 :: rs)) with (r ++ ","%char :: join (txt ",") (r2 :: rs)). rewrite app_assoc, (split_on_app "," _ _ NL). cbn [flat_map]. rewrite SR, NR. cbv zeta. cbn [app].
      pose proof (IH [] ltac:(discriminate) F2 (or_introl eq_refl)) as E. cbn [app] in E. cbn [run_comments map]. fold (run_comments rs). rewrite E. reflexivity. }
  exact (G runs [" "%char] NE F (or_intror eq_refl)).
Qed.
(** Other comments of a channel are lost. *)
Theorem C83_comment_refuted s : ~ In ":"%char s -> ~ In "["%char s -> channel_comments (Some s) = Ok [].
Proof.
  intros NC NB. unfold channel_comments, split_str. rewrite (split_str_none (txt "run_ids:") ltac:(discriminate)) by (apply (contains_no _ ":"%char); [vm_compute; tauto|exact NC]). cbn [rev app channel_items]. apply has_char_notIn in NC, NB. rewrite NC, NB. reflexivity.
Qed.
(** And comments with two ":" fail. *)
Theorem C83_colons_refuted a b c : contains (txt "run_ids:") (a ++ ":"%char :: b ++ ":"%char :: c) = false -> channel_comments (Some (a ++ ":"%char :: b ++ ":"%char :: c)) = Err ValueError.
Proof.
  intros N. unfold channel_comments, split_str. rewrite (split_str_none (txt "run_ids:") ltac:(discriminate)) by exact N. cbn [rev app channel_items].
  assert (H : has_char ":" (a ++ ":"%char :: b ++ ":"%char :: c) = true) by (apply has_char_In; apply in_or_app; right; left; reflexivity). rewrite H, !split_on_cat.
  pose proof (split_on_nonnil ":" a). pose proof (split_on_nonnil ":" b). pose proof (split_on_nonnil ":" c). destruct (split_on ":" a) as [|x xs]; [congruence|]. destruct (split_on ":" b) as [|y ys]; [congruence|]. destruct (split_on ":" c) as [|z zs]; [congruence|].
  cbn [app]. destruct xs as [|x2 xs]; cbn [app]; [destruct ys as [|y2 ys]; reflexivity|]. destruct xs; reflexivity.
Qed.
Example C83_runs_hyp : channel_comments (Some (txt "run_ids: [mt01a,mt01b]")) = Ok [(txt "mt.run.id", txt "mt01a"); (txt "mt.run.id", txt "mt01b")] /\ channel_comments (Some (txt "bad data")) = Ok [] /\ channel_comments (Some (txt "at 10:20:30 wind")) = Err ValueError.
Proof. repeat split; reflexivity. Qed.

Print Assumptions C55_last. Print Assumptions C80_status. Print Assumptions C54_pairs. Print Assumptions C54_author. Print Assumptions C54_comma_refuted. Print Assumptions C81_person.
Print Assumptions C82_description. Print Assumptions C82_colon_refuted. Print Assumptions C83_runs. Print Assumptions C83_dipole.
