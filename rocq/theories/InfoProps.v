(** C88: the INFO section of EDI files. *)
From Verif Require Import PyBase PyFacts PyText TextFacts PyNum PyFloat PyFloatFacts PySci PySciFacts PyRepr PyReprFacts ZmmProofs ValidatorsProofs EdiProofs EdiMetaModel EdiMetaSpec EdiMetaProofs EdiMeasProofs EdiMeasFile SxmlProofs HeadModel HeadSpec HeadProofs InfoModel InfoSpec InfoProofs.
Local Open Scope list_scope.

Lemma as_read_lines file l : Forall is_line l -> as_read file l = map (cl file) l.
Proof. intros F. destruct file; [unfold as_read; rewrite (readlines_concat l F); reflexivity|]. unfold as_read, cl. symmetry. apply map_id. Qed.
Lemma title_line : is_line (txt ">INFO" ++ [nl]).
Proof. exists (txt ">INFO"). split; [reflexivity|]. intros I. cbn in I. repeat (destruct I as [I|I]; [discriminate I|]). exact I. Qed.
Lemma contains_sub p a s b : contains p s = true -> contains p (a ++ s ++ b) = true.
Proof. intros H. apply contains_spec in H as (x & y & ->). apply contains_spec. exists (a ++ x), (y ++ b). rewrite <- !app_assoc. reflexivity. Qed.
Lemma says_strip w s : contains (txt w) (lower (strip s)) = true -> says w s.
Proof. intros H. destruct (strip_decomp s) as (sp1 & sp2 & E & _). unfold says. rewrite E, !lower_app. apply contains_sub. exact H. Qed.
Lemma calm_marks s : calm s -> phoenix_mark (strip s) = false /\ empower_mark (strip s) = false.
Proof.
  intros (A & B & C & D). assert (P : phoenix_mark (strip s) = false) by (unfold phoenix_mark; destruct (contains _ _) eqn:E; [contradiction A; apply says_strip; exact E|reflexivity]). split; [exact P|]. unfold empower_mark. rewrite P. cbn [negb andb].
  destruct (contains (txt "electrics") (lower (strip s))) eqn:E1; [contradiction B; apply says_strip; exact E1|]. destruct (contains (txt "magnetics") (lower (strip s))) eqn:E2; [contradiction C; apply says_strip; exact E2|].
  destruct (contains (txt "empower") (lower (strip s))) eqn:E3; [|reflexivity]. destruct (contains (txt "v") (lower (strip s))) eqn:E4; [|reflexivity]. contradiction D. split; apply says_strip; assumption.
Qed.
(** The lines of the section, with and without surrounding lines. *)
Lemma info_section file d outs pre post : Forall2 (info_reads file) d outs -> Forall no_info pre -> after_info post ->
  section_lines false (pre ++ as_read file (write_info d) ++ post) = map strip (map (cl file) (flat_map info_line d)).
Proof.
  intros F P Q. destruct (all_lines file d outs F) as (L & ls & S & M & _). unfold write_info. rewrite as_read_lines by (constructor; [exact title_line|exact L]). rewrite (section_before pre _ P). cbn [map app]. assert (T : cl file (txt ">INFO" ++ ["010"%char]) = txt ">INFO" ++ ["010"%char]) by (destruct file; reflexivity). rewrite T.
  change (section_lines false ((txt ">INFO" ++ ["010"%char]) :: map (cl file) (flat_map info_line d) ++ post)) with (section_lines true (map (cl file) (flat_map info_line d) ++ post)). rewrite S, (section_after post Q), app_nil_r, M. reflexivity.
Qed.
Lemma existsb_strip (f : text -> bool) l : (forall s, In s l -> f (strip s) = false) -> existsb f (map strip l) = false.
Proof. induction l as [|s l IH]; intros H; [reflexivity|]. cbn [map existsb]. rewrite (H s (or_introl eq_refl)). apply IH. intros x I. apply H. right. exact I. Qed.
(** What is written comes back: under each key the last value that is read for it. *)
Theorem C88_info file d outs pre post : Forall2 (info_reads file) d outs -> (forall line, In line (as_read file (write_info d)) -> calm line) -> Forall no_info pre -> after_info post ->
  exists d1, read_info (pre ++ as_read file (write_info d) ++ post) = Ok d1 /\ NoDup (map fst d1) /\ forall K, dget text_dec K d1 = found (concat outs) K.
Proof.
  intros F C P Q. unfold read_info. rewrite (info_section file d outs pre post F P Q). destruct (all_lines file d outs F) as (L & ls & S & M & D).
  assert (CA : forall s, In s (map (cl file) (flat_map info_line d)) -> calm s). { intros s I. apply C. unfold write_info. rewrite as_read_lines by (constructor; [exact title_line|exact L]). right. exact I. }
  rewrite !existsb_strip by (intros s I; apply calm_marks, CA, I). rewrite M. destruct (D [] (fun _ => None)) as (ND & _ & V); [split; [constructor|split; [intros k v X; discriminate X|intros K; reflexivity]]|].
  eexists. split; [reflexivity|]. split; [rewrite keys_comments; exact ND|]. intros K. rewrite dget_comments. apply V.
Qed.
(** An example with all kinds of entries. *)
Definition sample_info : info :=
  [(txt "survey.summary", IText (txt "a 'long' survey: 2 days ")); (txt "NDEC", IText (txt "4")); (txt "done", INone); (txt "Survey", IText (txt "s1")); (txt "nfft", INum (8 # 1)); (txt "filters", IDicts);
   (txt "runs", ITexts [txt "mt001a"; txt "mt001b"]); (txt "mt001a.comments", ITexts [txt "x"; txt "y"])].
Definition sample_outs (file : bool) : list (list reading) :=
  [[Entry (txt "survey.summary") (IText (txt (if file then "a long survey: 2 days" else "a 'long' survey: 2 days")))]; [Setting (txt "ndec=4")]; [Entry (txt "done") (IText [])]; [Entry (txt "survey.id") (IText (txt "s1"))]; [Setting (txt "nfft=8.0")]; [];
   [Entry (txt "runs") (if file then IText (txt "mt001a, mt001b") else ITexts [txt "mt001a"; txt "mt001b"])]; [Entry (txt "mt001a.comments") (IText (txt (if file then "x, y" else "x,y")))]].
Lemma good_key_b k : (nonempty k && text_eqb (strip k) k && forallb (fun c => negb (existsb (Ascii.eqb c) [nl; ">"; "<"; "="; ":"; "034"; "'"; "["; "]"]%char)) k)%bool = true -> good_key k.
Proof.
  intros H. apply andb_prop in H as [H H3]. apply andb_prop in H as [H1 H2]. split; [destruct k; [discriminate H1|discriminate]|]. split; [apply text_eqb_eq; exact H2|]. intros c I J. rewrite forallb_forall in H3. apply H3, negb_true_iff in I. apply not_true_iff_false in I. apply I. apply existsb_exists. exists c. split; [exact J|apply Ascii.eqb_refl].
Qed.
Lemma good_text_b s : forallb (fun c => negb (existsb (Ascii.eqb c) [nl; ">"; "<"]%char)) s = true -> good_text s.
Proof. intros H c I J. rewrite forallb_forall in H. apply H, negb_true_iff in I. apply not_true_iff_false in I. apply I. apply existsb_exists. exists c. split; [exact J|apply Ascii.eqb_refl]. Qed.
Definition calm_b (s : text) : bool := negb (contains (txt "run information") (lower s) || contains (txt "electrics") (lower s) || contains (txt "magnetics") (lower s) || (contains (txt "empower") (lower s) && contains (txt "v") (lower s))).
Lemma calm_of_b s : calm_b s = true -> calm s.
Proof. unfold calm_b, calm, says. intros H. apply negb_true_iff in H. apply orb_false_iff in H as [H H4]. apply orb_false_iff in H as [H H3]. apply orb_false_iff in H as [H1 H2]. apply andb_false_iff in H4. repeat split; [congruence|congruence|congruence|intros [A B]; destruct H4; congruence]. Qed.
Lemma calm_all l : forallb calm_b l = true -> forall s, In s l -> calm s.
Proof. intros H s I. rewrite forallb_forall in H. apply calm_of_b, H, I. Qed.
Lemma not_names l k : existsb (fun n => text_eqb k (txt n)) l = false -> ~ names l k.
Proof. intros H (n & I & ->). apply not_true_iff_false in H. apply H. apply existsb_exists. exists n. split; [exact I|apply text_eqb_refl]. Qed.
Ltac unnamed := right; split; [apply not_names; vm_compute; reflexivity|split; [apply not_names; vm_compute; reflexivity|reflexivity]].
Ltac gk := apply good_key_b; vm_compute; reflexivity.
Ltac gt := apply good_text_b; vm_compute; reflexivity.
Example C88_info_hyp : (forall file, Forall2 (info_reads file) sample_info (sample_outs file) /\ forall line, In line (as_read file (write_info sample_info)) -> calm line) /\
  found (concat (sample_outs true)) (txt "transfer_function.processing_parameters") = Some (ITexts [txt "ndec=4"; txt "nfft=8.0"]).
Proof.
  split; [|reflexivity]. intros file. split; [|destruct file; apply calm_all; vm_compute; reflexivity]. unfold sample_info, sample_outs.
  constructor. { apply reads_entry with (v' := IText (txt (if file then "a long survey: 2 days" else "a 'long' survey: 2 days"))); [gk|unnamed| |reflexivity]. pose proof (value_text file (txt "a 'long' survey: 2 days ")) as V. destruct file; apply V; try discriminate; try gt. intros _ (w & E). discriminate E. }
  constructor. { apply (reads_parameter file (txt "NDEC") (IText (txt "4")) (txt "4")); [gk|exists "ndec"%string; split; [left; reflexivity|reflexivity]|]. pose proof (value_text file (txt "4")) as V. destruct file; apply V; try discriminate; try gt. intros _ (w & E). discriminate E. }
  constructor. { apply reads_key; [left; reflexivity|gk]. }
  constructor. { apply reads_entry with (v' := IText (txt "s1")); [gk|left; exists "survey"%string, "survey.id"%string; split; [cbn; tauto|split; reflexivity]| |reflexivity]. pose proof (value_text file (txt "s1")) as V. destruct file; apply V; try discriminate; try gt. intros _ (w & E). discriminate E. }
  constructor. { apply (reads_parameter file (txt "nfft") (INum (8 # 1)) (txt "8.0")); [gk|exists "nfft"%string; split; [cbn; tauto|reflexivity]|]. pose proof (value_number file (8 # 1)) as V. change (show_float (8 # 1)) with (txt "8.0") in V. exact V. }
  constructor. { apply reads_dicts. }
  assert (W : forall l s, In s l -> forallb (fun s => nonempty s && forallb (fun c => negb (is_space c) && negb (existsb (Ascii.eqb c) [","; ";"; ":"; "<"; ">"]%char)) s)%bool l = true -> list_word s).
  { clear. intros l s I H. rewrite forallb_forall in H. specialize (H s I). apply andb_prop in H as [H1 H2]. split; [destruct s; [discriminate H1|discriminate]|]. intros c J. rewrite forallb_forall in H2. specialize (H2 c J). apply andb_prop in H2 as [H2 H3]. apply negb_true_iff in H2, H3. split; [exact H2|]. intros X. apply not_true_iff_false in H3. apply H3. apply existsb_exists. exists c. split; [exact X|apply Ascii.eqb_refl]. }
  constructor. { destruct file.
    - apply reads_entry with (v' := IText (txt "mt001a, mt001b")); [gk|unnamed| |reflexivity]. apply (value_list_file true [txt "mt001a"; txt "mt001b"]); [reflexivity|]. intros s [<-|[<-|[]]]; gt.
    - apply reads_entry with (v' := ITexts [txt "mt001a"; txt "mt001b"]); [gk|unnamed| |right; split; [reflexivity|reflexivity]]. apply (value_list false); [reflexivity|]. intros s I. eapply W; [exact I|vm_compute; reflexivity]. }
  constructor; [|constructor]. destruct file.
  - apply reads_entry with (v' := IText (txt "x, y")); [gk|unnamed| |reflexivity]. apply (value_list_file true [txt "x"; txt "y"]); [reflexivity|]. intros s [<-|[<-|[]]]; gt.
  - apply reads_entry with (v' := ITexts [txt "x"; txt "y"]); [gk|unnamed| |left; split; [reflexivity|reflexivity]]. apply (value_list false); [reflexivity|]. intros s I. eapply W; [exact I|vm_compute; reflexivity].
Qed.

(** ** Entries that do not come back *)
(** A key that the reader knows by another name, and a key in upper case, are read under another key. *)
Theorem C88_key_refuted file k k' v v' v'' : good_key k -> named k k' -> k' <> k -> value file v v' -> commented k' v' v'' -> (forall line, In line (as_read file (write_info [(k, v)])) -> calm line) ->
  exists d1, read_info (as_read file (write_info [(k, v)])) = Ok d1 /\ dget text_dec k d1 = None /\ dget text_dec k' d1 = Some v''.
Proof.
  intros G N D V C CA. destruct (C88_info file [(k, v)] [[Entry k' v'']] [] []) as (d1 & R & _ & E); [constructor; [apply reads_entry with (v' := v'); assumption|constructor]|exact CA|constructor|left; reflexivity|].
  cbn [app] in R. rewrite app_nil_r in R. exists d1. split; [exact R|]. split; rewrite E; cbn [concat app found fold_left after].
  - unfold found. cbn [fold_left after]. destruct (text_eqb k' k) eqn:X; [apply text_eqb_eq in X; contradiction|reflexivity].
  - unfold found. cbn [fold_left after]. rewrite text_eqb_refl. reflexivity.
Qed.
Example C88_key_refuted_hyp : good_key (txt "survey") /\ named (txt "survey") (txt "survey.id") /\ good_key (txt "Field.Notes") /\ named (txt "Field.Notes") (txt "field.notes").
Proof. split; [gk|]. split; [left; exists "survey"%string, "survey.id"%string; split; [cbn; tauto|split; reflexivity]|]. split; [gk|unnamed]. Qed.
(** Processing parameters before an entry "remoteref" are lost. *)
Theorem C88_parameters_refuted file k v s w x : good_key k -> names parameter_names (lower k) -> value file v (IText s) -> value file w (IText x) ->
  (forall line, In line (as_read file (write_info [(k, v); (txt "remoteref", w)])) -> calm line) ->
  exists d1, read_info (as_read file (write_info [(k, v); (txt "remoteref", w)])) = Ok d1 /\ dget text_dec (txt "transfer_function.processing_parameters") d1 = Some (IText x) /\ map fst d1 = [txt "transfer_function.processing_parameters"].
Proof.
  intros G N V W CA. destruct (C88_info file [(k, v); (txt "remoteref", w)] [[Setting (lower k ++ "="%char :: s)]; [Entry (txt "transfer_function.processing_parameters") (IText x)]] [] []) as (d1 & R & ND & E).
  - constructor; [apply reads_parameter; assumption|]. constructor; [|constructor]. apply reads_entry with (v' := IText x); [gk|left; exists "remoteref"%string, "transfer_function.processing_parameters"%string; split; [cbn; tauto|split; reflexivity]|exact W|reflexivity].
  - exact CA.
  - constructor.
  - left. reflexivity.
  - cbn [app] in R. rewrite app_nil_r in R. exists d1. split; [exact R|]. split; [rewrite E; reflexivity|]. cbn [concat app] in E. unfold found in E. cbn [fold_left after] in E. change (txt "transfer_function.processing_parameters") with parameters in *.
    assert (K : forall K, In K (map fst d1) -> K = parameters). { intros K I. specialize (E K). destruct (text_eqb parameters K) eqn:X; [apply text_eqb_eq in X; symmetry; exact X|]. destruct (text_eqb K parameters) eqn:Y; [apply text_eqb_eq in Y; exact Y|]. apply dget_None in E. contradiction. }
    assert (IN : In parameters (map fst d1)). { specialize (E parameters). rewrite text_eqb_refl in E. apply dget_In in E. apply in_map_iff. eexists. split; [|exact E]. reflexivity. }
    destruct (map fst d1) as [|k0 [|k1 l]]; [contradiction IN|rewrite (K k0 (or_introl eq_refl)); reflexivity|]. exfalso. inversion ND as [|? ? NI _]; subst. apply NI. rewrite (K k0 (or_introl eq_refl)), (K k1 (or_intror (or_introl eq_refl))). left. reflexivity.
Qed.
Example C88_parameters_refuted_hyp : good_key (txt "nfft") /\ names parameter_names (lower (txt "nfft")) /\ (forall line, In line (as_read true (write_info [(txt "nfft", IText (txt "128")); (txt "remoteref", IText (txt "yes"))])) -> calm line).
Proof. split; [gk|]. split; [exists "nfft"%string; split; [cbn; tauto|reflexivity]|]. apply calm_all. vm_compute. reflexivity. Qed.
(** *** A value with the word magnetics *)
Lemma replace_skip p q c r a : p = c :: r -> ~ In c a -> forall b, replace p q (a ++ b) = a ++ replace p q b.
Proof.
  intros -> N b. unfold replace. induction a as [|x a IH]; [reflexivity|]. cbn [app replace_from]. assert (P : prefix_of (c :: r) (x :: a ++ b) = false). { cbn [prefix_of]. destruct (Ascii.eqb c x) eqn:E; [apply Ascii.eqb_eq in E; exfalso; apply N; left; symmetry; exact E|reflexivity]. }
  rewrite P. f_equal. apply IH. intros I. apply N. right. exact I.
Qed.
Lemma find_absent c s : ~ In c s -> find [c] s = None.
Proof. intros N. destruct (find [c] s) eqn:E; [|reflexivity]. apply find_Some in E as (a & b & -> & _). exfalso. apply N. apply in_or_app. right. left. reflexivity. Qed.
Lemma empower_words_keys k : ~ names empower_words k -> text_eqb k (txt "stations") = false /\ one_of sections k = false /\ text_eqb k (txt "editing workbench") = false /\ dget text_dec k empower_names = None.
Proof.
  intros N. assert (X : forall w, In w empower_words -> text_eqb k (txt w) = false). { intros w I. destruct (text_eqb k (txt w)) eqn:E; [|reflexivity]. apply text_eqb_eq in E. exfalso. apply N. exists w. split; assumption. }
  split; [apply X; cbn; tauto|]. split; [unfold one_of, sections; cbn [existsb]; rewrite !X by (cbn; tauto); reflexivity|]. split; [apply X; cbn; tauto|].
  destruct (dget text_dec k empower_names) as [x|] eqn:E; [|reflexivity]. exfalso. apply dget_In in E. assert (P : forallb (fun p => existsb (fun n => text_eqb (fst p) (txt n)) empower_words) empower_names = true) by (vm_compute; reflexivity). rewrite forallb_forall in P. specialize (P _ E). apply existsb_exists in P as (n & I & Y). apply text_eqb_eq in Y. cbn [fst] in Y. apply N. exists n. split; assumption.
Qed.
Definition start : place := mkPlace (txt "general") None None.
Lemma empower_key_line k d : good_key k -> ~ names empower_words (lower k) -> empower_line (start, d) k = (start, d).
Proof.
  intros G N. destruct (empower_words_keys _ N) as (A & B & C & D). unfold empower_line. rewrite A, B, C. rewrite separator_key; [|apply (key_not k _ G); cbn; tauto|apply (key_not k _ G); cbn; tauto]. reflexivity.
Qed.
Lemma eqb_with_char c s t : In c s -> ~ In c t -> text_eqb s t = false.
Proof. intros I N. destruct (text_eqb s t) eqn:E; [|reflexivity]. apply text_eqb_eq in E. subst t. contradiction. Qed.
Lemma empower_value_line k a d : good_key k -> ~ names empower_words (lower k) -> empower_line (start, d) (k ++ "="%char :: a) = (start, dset text_dec (lower k) (IText (empower_value (strip a))) d).
Proof.
  intros G N. destruct (empower_words_keys _ N) as (_ & _ & _ & D). unfold empower_line. assert (IE : In "="%char (lower (k ++ "="%char :: a))) by (rewrite lower_app; apply in_or_app; right; left; reflexivity).
  assert (E : forall w, ~ In "="%char (txt w) -> text_eqb (lower (k ++ "="%char :: a)) (txt w) = false) by (intros w X; apply (eqb_with_char "="%char); assumption).
  rewrite (E "stations"%string) by (cbn; intuition discriminate). unfold one_of, sections. cbn [existsb]. rewrite !E by (cbn; intuition discriminate). cbn [orb]. rewrite separator_value; [|apply (key_not k _ G); cbn; tauto|apply (key_not k _ G); cbn; tauto]. rewrite split1_app by (apply (key_not k _ G); cbn; tauto).
  destruct G as (_ & S & _). rewrite S. unfold empower_key. change (text_eqb (section start) (txt "general")) with true. cbv iota zeta. rewrite D. reflexivity.
Qed.
Lemma empower_keys ks : forall d, Forall (fun k => good_key k /\ ~ names empower_words (lower k)) ks -> fold_left empower_line ks (start, d) = (start, d).
Proof. induction ks as [|k ks IH]; intros d F; [reflexivity|]. inversion F as [|? ? [G N] F']; subst. cbn [fold_left]. rewrite (empower_key_line k d G N). apply IH. exact F'. Qed.
Lemma keys_read file ks : Forall good_key ks -> Forall2 (info_reads file) (map (fun k => (k, INone)) ks) (map (fun k => [Entry k (IText [])]) ks).
Proof. induction 1 as [|k ks G F IH]; [constructor|]. cbn [map]. constructor; [apply reads_key; [left; reflexivity|exact G]|exact IH]. Qed.
Lemma keys_lines file ks : Forall good_key ks -> map strip (map (cl file) (flat_map info_line (map (fun k => (k, INone)) ks))) = ks.
Proof. induction 1 as [|k ks G F IH]; [reflexivity|]. change (flat_map info_line (map (fun k0 => (k0, INone)) (k :: ks))) with (key_line k :: flat_map info_line (map (fun k0 => (k0, INone)) ks)). cbn [map]. rewrite IH, (cl_key_line file k G), (strip_key_line k G). reflexivity. Qed.
Theorem C88_magnetics_refuted file k a ks1 ks2 : Forall (fun k => good_key k /\ ~ names empower_words (lower k)) (k :: ks1 ++ ks2) -> ~ names (map fst renamed) (lower k) -> ~ names parameter_names (lower k) -> ~ says "run information" (k ++ "="%char :: a) ->
  a <> [] -> good_text a -> (forall c, In c a -> is_space c = false /\ dropped c = false) ->
  let d := map (fun k => (k, INone)) ks1 ++ (k, IText (a ++ txt " magnetics")) :: map (fun k => (k, INone)) ks2 in
  read_info (as_read file (write_info d)) = Ok [(lower k, IText (a ++ txt "agnetics"))].
Proof.
  intros F N1 N2 NP NE GA SA d. inversion F as [|? ? [G N] F']; subst. apply Forall_app in F' as [F1 F2]. assert (K1 : Forall good_key ks1) by (revert F1; apply Forall_impl; intros x [X _]; exact X). assert (K2 : Forall good_key ks2) by (revert F2; apply Forall_impl; intros x [X _]; exact X).
  set (s := a ++ txt " magnetics"). assert (GS : good_text s). { intros c I J. unfold s in I. apply in_app_or in I as [I|I]; [exact (GA c I J)|]. cbn in I, J. repeat (destruct I as [<-|I]; [intuition discriminate|]). exact I. }
  assert (TS : strip s = s). { apply strip_trimmed. split; intros c r X; unfold s in X. - destruct a as [|c0 a']; [contradiction|]. injection X as <- _. apply SA. left. reflexivity. - change (txt " magnetics") with (txt " magnetic" ++ ["s"%char]) in X. rewrite app_assoc in X. apply app_inj_tail in X as [_ <-]. reflexivity. }
  assert (CS : cl file s = s). { destruct file; [|reflexivity]. apply clean_id. intros c I. unfold s in I. apply in_app_or in I as [I|I]; [apply SA; exact I|]. cbn in I. repeat (destruct I as [<-|I]; [reflexivity|]). contradiction I. }
  assert (NB : ~ In "["%char s). { unfold s. intros I. apply in_app_or in I as [I|I]; [apply SA in I as [_ I]; discriminate I|]. cbn in I. repeat (destruct I as [I|I]; [discriminate I|]). exact I. }
  assert (V : exists v', info_reads file (k, IText s) [Entry (lower k) v']). { eexists. eapply reads_entry; [exact G|right; split; [exact N1|split; [exact N2|reflexivity]]|apply value_text; [unfold s; destruct a; discriminate|exact GS|intros _; rewrite TS; apply no_bracket_plain, NB]|reflexivity]. }
  destruct V as (v' & V). assert (FD : Forall2 (info_reads file) d (map (fun k => [Entry k (IText [])]) ks1 ++ [Entry (lower k) v'] :: map (fun k => [Entry k (IText [])]) ks2)) by (apply Forall2_app; [apply keys_read; exact K1|constructor; [exact V|apply keys_read; exact K2]]).
  assert (SEC : section_lines false (as_read file (write_info d)) = ks1 ++ (k ++ "="%char :: s) :: ks2).
  { pose proof (info_section file d _ [] [] FD ltac:(constructor) ltac:(left; reflexivity)) as X. cbn [app] in X. rewrite app_nil_r in X. rewrite X. unfold d. rewrite flat_map_app, !map_app, (keys_lines file ks1 K1). f_equal. cbn [flat_map]. assert (IL : info_line (k, IText (a ++ txt " magnetics")) = [value_line k s]) by (fold s; unfold info_line; rewrite TS; unfold s; destruct a; reflexivity). rewrite IL. cbn [app map]. rewrite (keys_lines file ks2 K2). f_equal. rewrite (cl_value_line file k s G), CS, (strip_value_line k s G). f_equal. f_equal. destruct (rstrip_decomp s) as (sp & E & S). assert (X2 : rstrip s = s). { unfold strip in TS. assert (LS : lstrip s = s) by (apply lstrip_fixed; intros c r Y; unfold s in Y; destruct a as [|c0 a']; [contradiction|]; injection Y as <- _; apply SA; left; reflexivity). rewrite LS in TS. exact TS. } exact X2. }
  unfold read_info. rewrite SEC. assert (EM : existsb empower_mark (ks1 ++ (k ++ "="%char :: s) :: ks2) = true).
  { apply existsb_exists. exists (k ++ "="%char :: s). split; [apply in_or_app; right; left; reflexivity|]. unfold empower_mark. assert (P : phoenix_mark (k ++ "="%char :: s) = false).
    { unfold phoenix_mark. destruct (contains (txt "run information") (lower (k ++ "="%char :: s))) eqn:E; [|reflexivity]. exfalso. apply NP. unfold says, s in *. apply contains_spec in E as (x & y & E). apply contains_spec.
      rewrite !lower_app in *. change (lower ("="%char :: a ++ txt " magnetics")) with ("="%char :: lower (a ++ txt " magnetics")) in E. rewrite lower_app in E. change (lower (txt " magnetics")) with (txt " magnetics") in E. change (lower ("="%char :: a)) with ("="%char :: lower a). 
      change ("="%char :: lower a ++ txt " magnetics") with (("="%char :: lower a) ++ txt " magnetics") in E. rewrite app_assoc in E. set (u := lower k ++ "="%char :: lower a) in *.
      assert (SUF : exists z, y = z ++ txt " magnetics"). { 
        assert (R : rev y ++ rev (x ++ txt "run information") = rev (txt " magnetics") ++ rev u). { rewrite <- !rev_app_distr. f_equal. rewrite <- app_assoc. symmetry. exact E. }
        assert (GEN : forall (p q y' r : text), y' ++ r = p ++ q -> (exists z, y' = p ++ z) \/ exists z, p = y' ++ z /\ z <> []). { clear. induction p as [|c p IH]; intros q y' r E; [left; exists y'; reflexivity|]. destruct y' as [|c' y']; [right; exists (c :: p); split; [reflexivity|discriminate]|]. cbn [app] in E. injection E as -> E. destruct (IH q y' r E) as [(z & ->)|(z & -> & Z)]; [left; exists z; reflexivity|right; exists z; split; [reflexivity|exact Z]]. }
        destruct (GEN _ _ _ _ R) as [(z & Z)|(z & Z & NZ)].
        - exists (rev z). rewrite <- (rev_involutive y), Z, rev_app_distr, rev_involutive. reflexivity.
        - exfalso. rewrite Z, <- app_assoc in R. apply app_inv_head in R. rewrite rev_app_distr in R. change (rev (txt "run information")) with (rev (txt " information") ++ rev (txt "run")) in R. destruct z as [|z0 z]; [contradiction|]. assert (Z0 : z0 = "n"%char) by (cbn in R; injection R as R _; symmetry; exact R). subst z0.
          assert (ZZ : rev (txt " magnetics") = txt "scitengam ") by reflexivity. rewrite ZZ in Z. 
          destruct (rev y) as [|c1 [|c2 [|c3 [|c4 [|c5 [|c6 y0]]]]]] eqn:EY; cbn in Z; try discriminate Z.
          + injection Z as _ _ _ _ _ Z. subst z. cbn in R. discriminate R.
          + injection Z as _ _ _ _ _ _ Z. destruct y0 as [|d1 [|d2 [|d3 [|d4 [|d5 y0]]]]]; cbn in Z; try discriminate Z. }
      destruct SUF as (z & ->). exists x, z. replace (x ++ txt "run information" ++ z ++ txt " magnetics") with ((x ++ txt "run information" ++ z) ++ txt " magnetics") in E by (rewrite <- !app_assoc; reflexivity). apply app_inv_tail in E. exact E. }
    rewrite P. cbn [negb andb]. apply orb_true_iff. right. apply contains_spec. exists (lower (k ++ "="%char :: a) ++ [" "%char]), []. rewrite app_nil_r, <- app_assoc. unfold s. replace (k ++ "="%char :: a ++ txt " magnetics") with ((k ++ "="%char :: a) ++ txt " magnetics") by (rewrite <- app_assoc; reflexivity). rewrite lower_app. reflexivity. }
  rewrite EM. change (mkPlace (txt "general") None None) with start.
  assert (FO : fold_left empower_line (ks1 ++ (k ++ "="%char :: s) :: ks2) (start, @nil (text * ival)) = (start, dset text_dec (lower k) (IText (empower_value (strip s))) [])).
  { rewrite fold_left_app. cbn [fold_left]. etransitivity; [apply f_equal, f_equal2; [apply (empower_keys ks1 [] F1)|reflexivity]|]. etransitivity; [apply f_equal, (empower_value_line k s [] G N)|]. apply (empower_keys ks2 _ F2). }
  change (@nil (text * ival)) with (@nil (text * ival)) in FO. match goal with |- context [fold_left empower_line ?l ?x] => change (fold_left empower_line l x) with (fold_left empower_line (ks1 ++ (k ++ "="%char :: s) :: ks2) (start, @nil (text * ival))) end. rewrite FO, TS. cbn [snd].
  assert (VAL : empower_value s = a ++ txt "agnetics"). { unfold empower_value. rewrite (find_absent _ s NB). assert (NSP : ~ In " "%char a) by (intros I; apply SA in I as [I _]; discriminate I). unfold s. rewrite (replace_skip (txt " m") [] " "%char (txt "m") a eq_refl NSP). change (replace (txt " m") [] (txt " magnetics")) with (txt "agnetics"). rewrite (replace_skip (txt " V") [] " "%char (txt "V") a eq_refl NSP). change (replace (txt " V") [] (txt "agnetics")) with (txt "agnetics"). apply strip_trimmed. split; intros c r X; [destruct a as [|c0 a']; [contradiction|]; injection X as <- _; apply SA; left; reflexivity|]. change (txt "agnetics") with (txt "agnetic" ++ ["s"%char]) in X. rewrite app_assoc in X. apply app_inj_tail in X as [_ <-]. reflexivity. }
  rewrite VAL. reflexivity.
Qed.
Example C88_magnetics_refuted_hyp : read_info (as_read true (write_info [(txt "field done", INone); (txt "note", IText (txt "3 magnetics")); (txt "checked", INone)])) = Ok [(txt "note", IText (txt "3agnetics"))].
Proof.
  apply (C88_magnetics_refuted true (txt "note") (txt "3") [txt "field done"] [txt "checked"]).
  - repeat constructor; try gk; apply not_names; vm_compute; reflexivity.
  - apply not_names. vm_compute. reflexivity.
  - apply not_names. vm_compute. reflexivity.
  - intros H. vm_compute in H. discriminate H.
  - discriminate.
  - gt.
  - intros c [<-|[]]. split; reflexivity.
Qed.

(** *** A value with the words run information *)
Lemma words_cur s : forall pos cur, cur <> [] -> (List.length cur <= pos)%nat -> exists w r, words_at pos cur s = (w, (pos - List.length cur)%nat) :: r.
Proof.
  induction s as [|c s IH]; intros pos cur N L; cbn [words_at]; cbv zeta; destruct cur as [|x cur]; try contradiction.
  - eexists _, _. reflexivity.
  - destruct (is_space c); [eexists _, _; reflexivity|]. destruct (IH (Datatypes.S pos) (c :: x :: cur) ltac:(discriminate) ltac:(cbn [List.length] in *; lia)) as (w & r & E). exists w, r. rewrite E. reflexivity.
Qed.
Lemma single_tail c s : single_spaced (c :: s) -> single_spaced s.
Proof. intros H a b c1 c2 E. apply (H (c :: a) b). rewrite E. reflexivity. Qed.
Lemma words_gaps s : forall pos cur, (List.length cur <= pos)%nat -> single_spaced s -> Forall (fun g => (g <= 1)%nat) (gaps (words_at pos cur s)).
Proof.
  induction s as [|c s IH]; intros pos cur L H; cbn [words_at]; cbv zeta.
  - destruct cur; constructor.
  - pose proof (single_tail c s H) as HT. destruct (is_space c) eqn:SC.
    + destruct cur as [|x cur]; [cbn [app]; apply IH; [cbn; lia|exact HT]|]. cbn [app]. pose proof (IH (Datatypes.S pos) [] ltac:(cbn; lia) HT) as F. destruct s as [|c2 s]; [constructor|]. assert (S2 : is_space c2 = false) by (apply (H [] s c c2 eq_refl SC)).
      cbn [words_at] in *. cbv zeta in *. rewrite S2 in *. destruct (words_cur s (Datatypes.S (Datatypes.S pos)) [c2] ltac:(discriminate) ltac:(cbn; lia)) as (w & r & E). rewrite E in *. cbn [gaps]. constructor; [|exact F]. rewrite rev_length. cbn [List.length] in *. lia.
    + apply IH; [cbn [List.length]; lia|exact HT].
Qed.
Lemma max_small l : Forall (fun g => (g <= 1)%nat) l -> (fold_right Nat.max 0 l <= 1)%nat.
Proof. induction 1; cbn [fold_right]; lia. Qed.
Lemma one_column s : single_spaced s -> split_columns s = [s].
Proof.
  intros H. unfold split_columns. destruct (List.length s <? 10)%nat; [reflexivity|]. destruct (List.length (words_at 0 [] s) <? 4)%nat; [reflexivity|]. pose proof (max_small _ (words_gaps s 0 [] ltac:(cbn; lia) H)) as M. cbv zeta. destruct (Nat.leb_spec (fold_right Nat.max 0%nat (gaps (words_at 0%nat [] s))) 3%nat) as [_|X]; [reflexivity|lia].
Qed.
Lemma single_join k a : good_key k -> single_spaced k -> single_spaced a -> single_spaced (k ++ "="%char :: a).
Proof.
  intros G K A. destruct G as (_ & S & _). clear S. induction k as [|c k IH]; cbn [app].
  - intros u v c1 c2 E S1. destruct u as [|x u]; [injection E as <- _; discriminate S1|]. injection E as _ E. exact (A u v c1 c2 E S1).
  - intros u v c1 c2 E S1. destruct u as [|x u].
    + injection E as <- E. destruct k as [|c0 k]; [injection E as <- _; reflexivity|]. injection E as <- _. exact (K [] k c c0 eq_refl S1).
    + injection E as <- E. exact (IH (single_tail c k K) u v c1 c2 E S1).
Qed.
Lemma no_two_blanks s : single_spaced s -> contains (txt "  ") s = false.
Proof. intros H. destruct (contains (txt "  ") s) eqn:E; [|reflexivity]. apply contains_spec in E as (a & b & E). specialize (H a b " "%char " "%char E eq_refl). discriminate H. Qed.
Lemma phoenix_unknown k : good_key k -> unknown_to_phoenix k -> dget text_dec (lower k) phoenix_names = None /\ contains (txt "voltage") (lower k) = false /\ contains (txt "pot resist") (lower k) = false /\ contains (txt " sen") (lower k) = false.
Proof.
  intros G (A & B & C & D). unfold says in *. assert (X : forall w, contains (txt w) (lower k) <> true -> contains (txt w) (lower k) = false) by (intros w H; destruct (contains (txt w) (lower k)); [contradiction H; reflexivity|reflexivity]). split; [|repeat split; apply X; assumption].
  destruct (dget text_dec (lower k) phoenix_names) as [x|] eqn:E; [|reflexivity]. exfalso. apply dget_In in E.
  assert (P : forallb (fun p => existsb (fun n => text_eqb (fst p) (txt n)) phoenix_words || contains (txt "pot resist") (fst p) || contains (txt " sen") (fst p))%bool phoenix_names = true) by (vm_compute; reflexivity).
  rewrite forallb_forall in P. specialize (P _ E). cbn [fst] in P. apply orb_prop in P as [P|P]; [|exact (D P)]. apply orb_prop in P as [P|P]; [|exact (C P)]. apply existsb_exists in P as (n & I & Y). apply text_eqb_eq in Y. apply A. exists n. split; assumption.
Qed.
Lemma phoenix_fold l : Forall phoenix_entry_ok l -> forall d, fold_left phoenix_line (map (fun kv => fst kv ++ "="%char :: snd kv) l) (Ok d) = Ok (fold_left (fun d kv => dset text_dec (txt "phoenix_attribute") (IText (snd kv)) d) l d).
Proof.
  induction 1 as [|[k s] l (G & SK & U & _ & _ & NE & GS & SS & TS & _) F IH]; intros d; [reflexivity|]. cbn [map fold_left fst snd]. destruct (phoenix_unknown k G U) as (A & B & C & D).
  assert (E : phoenix_line (Ok d) (k ++ "="%char :: s) = Ok (dset text_dec (txt "phoenix_attribute") (IText s) d)); [|rewrite E; apply IH].
  unfold phoenix_line. rewrite (one_column _ (single_join k s G SK SS)). cbn [fold_left]. unfold phoenix_column. cbn [bindR]. rewrite separator_value; [|apply (key_not k _ G); cbn; tauto|apply (key_not k _ G); cbn; tauto]. rewrite split1_app by (apply (key_not k _ G); cbn; tauto).
  cbv zeta. rewrite TS, (no_two_blanks s SS). destruct G as (_ & S & _). rewrite S. unfold phoenix_entry. rewrite B, C, D, A. reflexivity.
Qed.
(** All the entries go under one key, and only the last stays. *)
Theorem C88_run_information_refuted file l k s : Forall phoenix_entry_ok (l ++ [(k, s)]) ->
  let d := map (fun kv => (fst kv, IText (snd kv))) (l ++ [(k, s)]) in
  (exists line, In line (as_read file (write_info d)) /\ says "run information" (strip line)) ->
  (forall line, In line (as_read file (write_info d)) -> ~ says "empower" line /\ ~ says "electrics" line /\ ~ says "magnetics" line) ->
  read_info (as_read file (write_info d)) = Ok [(txt "phoenix_attribute", IText s)].
Proof.
  intros F d P E. assert (FD : Forall2 (info_reads file) d (map (fun kv => [Entry (lower (fst kv)) (IText (snd kv))]) (l ++ [(k, s)])) /\ map strip (map (cl file) (flat_map info_line d)) = map (fun kv => fst kv ++ "="%char :: snd kv) (l ++ [(k, s)])).
  { unfold d. clear P E d. induction F as [|[k0 s0] l0 (G & SK & U & N1 & N2 & NE & GS & SS & TS & DR) F (IH1 & IH2)]; [split; [constructor|reflexivity]|]. cbn [map fst snd].
    assert (CS : cl file s0 = s0) by (destruct file; [apply clean_id; exact DR|reflexivity]). assert (NB : ~ In "["%char s0) by (intros I; apply DR in I; discriminate I). split.
    - constructor; [|exact IH1]. eapply reads_entry with (v' := IText s0); [exact G|right; split; [exact N1|split; [exact N2|reflexivity]]| |reflexivity]. pose proof (value_text file s0 NE GS) as V. assert (X : (if file then tidy s0 else strip s0) = s0) by (destruct file; [unfold tidy; rewrite (clean_id s0 DR); exact TS|exact TS]). rewrite X in V. apply V. intros _. rewrite TS. apply no_bracket_plain, NB.
    - assert (IL : info_line (k0, IText s0) = [value_line k0 s0]) by (unfold info_line; rewrite TS; destruct s0; [contradiction|reflexivity]). cbn [flat_map]. rewrite IL. cbn [app map]. rewrite IH2. f_equal. rewrite (cl_value_line file k0 s0 G), CS, (strip_value_line k0 s0 G). f_equal. f_equal. rewrite <- TS at 1. unfold strip at 1. rewrite <- TS at 2. unfold strip. destruct (rstrip_decomp (lstrip s0)) as (sp & Y & YS). clear. unfold rstrip. rewrite rev_involutive, lstrip_idem. reflexivity. }
  destruct FD as [FD SL]. pose proof (info_section file d _ [] [] FD ltac:(constructor) ltac:(left; reflexivity)) as X. cbn [app] in X. rewrite app_nil_r in X. unfold read_info. rewrite X.
  destruct (all_lines file d _ FD) as (L & _). assert (AR : as_read file (write_info d) = map (cl file) (write_info d)) by (apply as_read_lines; constructor; [exact title_line|exact L]).
  assert (EM : existsb empower_mark (map strip (map (cl file) (flat_map info_line d))) = false).
  { apply existsb_strip. intros t I. destruct (E t) as (E1 & E2 & E3); [rewrite AR; right; exact I|]. unfold empower_mark. destruct (contains (txt "empower") (lower (strip t))) eqn:X1; [contradiction E1; apply says_strip; exact X1|]. destruct (contains (txt "electrics") (lower (strip t))) eqn:X2; [contradiction E2; apply says_strip; exact X2|]. destruct (contains (txt "magnetics") (lower (strip t))) eqn:X3; [contradiction E3; apply says_strip; exact X3|]. apply andb_false_r. }
  assert (PM : existsb phoenix_mark (map strip (map (cl file) (flat_map info_line d))) = true).
  { destruct P as (line & I & S). rewrite AR in I. destruct I as [<-|I]; [destruct file; vm_compute in S; discriminate S|]. apply existsb_exists. exists (strip line). split; [apply in_map; exact I|exact S]. }
  rewrite EM, PM, SL, (phoenix_fold _ F). cbn [bindR]. rewrite fold_left_app. cbn [fold_left snd].
  assert (K : forall l d0, d0 = [] \/ (exists v, d0 = [(txt "phoenix_attribute", v)]) -> let d1 := fold_left (fun (d : info) (kv : text * text) => dset text_dec (txt "phoenix_attribute") (IText (snd kv)) d) l d0 in d1 = [] \/ exists v, d1 = [(txt "phoenix_attribute", v)]).
  { clear. induction l as [|kv l IH]; intros d0 H; [exact H|]. cbn [fold_left]. apply IH. right. destruct H as [->|(v & ->)]; eexists; reflexivity. }
  destruct (K l [] (or_introl eq_refl)) as [K1|(v & K1)]; cbv zeta in K1; unfold info in *; rewrite K1; reflexivity.
Qed.
Example C88_run_information_refuted_hyp : read_info (as_read true (write_info [(txt "field notes", IText (txt "all fine")); (txt "note", IText (txt "run information is here")); (txt "who", IText (txt "me"))])) = Ok [(txt "phoenix_attribute", IText (txt "me"))].
Proof.
  assert (SP : forall s, (fix go (s : text) := match s with a :: ((b :: _) as r) => (negb (is_space a && is_space b) && go r)%bool | _ => true end) s = true -> single_spaced s).
  { clear. induction s as [|c s IH]; intros H a b c1 c2 E S1; [destruct a; discriminate E|]. destruct a as [|x a]; cbn [app] in E.
    - injection E as -> ->. apply andb_prop in H as [H _]. rewrite S1 in H. cbn [andb] in H. apply negb_true_iff in H. exact H.
    - injection E as -> ->. apply (IH ltac:(destruct a; apply andb_prop in H; apply H) a b c1 c2 eq_refl S1). }
  assert (DR : forall s, forallb (fun c => negb (dropped c)) s = true -> forall c, In c s -> dropped c = false) by (intros s H c I; rewrite forallb_forall in H; apply negb_true_iff, H, I).
  apply (C88_run_information_refuted true [(txt "field notes", txt "all fine"); (txt "note", txt "run information is here")] (txt "who") (txt "me")).
  - repeat constructor; try gk; try gt; try (apply SP; vm_compute; reflexivity); try (apply not_names; vm_compute; reflexivity); try discriminate; try (intros H; vm_compute in H; discriminate H); try (apply DR; vm_compute; reflexivity).
  - eexists. split; [right; right; left; reflexivity|vm_compute; reflexivity].
  - intros line I. vm_compute in I. repeat (destruct I as [<-|I]; [repeat split; intros H; vm_compute in H; discriminate H|]). contradiction I.
Qed.
Print Assumptions C88_info.
Print Assumptions C88_key_refuted.
Print Assumptions C88_parameters_refuted.
Print Assumptions C88_magnetics_refuted.
Print Assumptions C88_run_information_refuted.
