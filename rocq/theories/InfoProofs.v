(** Lemmas for C88: the INFO section of EDI files. *)
From Verif Require Import PyBase PyFacts PyText TextFacts PyNum PyFloat PyFloatFacts PySci PySciFacts PyRepr PyReprFacts ZmmProofs ValidatorsProofs EdiProofs EdiMetaModel EdiMetaSpec EdiMetaProofs EdiMeasProofs EdiMeasFile SxmlProofs HeadModel HeadSpec HeadProofs InfoModel InfoSpec.
Local Open Scope list_scope.

(** ** Lines *)
Definition cl (file : bool) (s : text) : text := if file then bare s else s.
Lemma cl_In file c s : In c (cl file s) -> In c s.
Proof. destruct file; [apply clean_In|exact (fun x => x)]. Qed.
Definition key_line (k : text) : text := txt "    " ++ k ++ [nl].
Definition value_line (k w : text) : text := txt "    " ++ k ++ "="%char :: w ++ [nl].
Lemma key_not k c : good_key k -> In c [nl; ">"; "<"; "="; ":"; "034"; "'"; "["; "]"]%char -> ~ In c k.
Proof. intros (_ & _ & G) I K. exact (G c K I). Qed.
Lemma key_clean file k : good_key k -> cl file k = k.
Proof.
  intros G. destruct file; [|reflexivity]. apply clean_id. intros c I. destruct (dropped c) eqn:D; [|reflexivity]. exfalso. unfold dropped in D. apply existsb_exists in D as (x & X & E). apply Ascii.eqb_eq in E. subst x. refine (key_not k c G _ I). cbn in X |- *. tauto.
Qed.
Lemma cl_app file a b : cl file (a ++ b) = cl file a ++ cl file b.
Proof. destruct file; [apply clean_app|reflexivity]. Qed.
Lemma cl_key_line file k : good_key k -> cl file (key_line k) = key_line k.
Proof. intros G. unfold key_line. rewrite !cl_app, (key_clean file k G). destruct file; reflexivity. Qed.
Lemma cl_value_line file k w : good_key k -> cl file (value_line k w) = value_line k (cl file w).
Proof. intros G. unfold value_line. change ("="%char :: w ++ [nl]) with (["="%char] ++ w ++ [nl]). rewrite !cl_app, (key_clean file k G). destruct file; reflexivity. Qed.
Lemma key_trimmed k : good_key k -> trimmed k.
Proof. intros (_ & S & _). rewrite <- S. apply trimmed_strip. Qed.
Lemma strip_key_line k : good_key k -> strip (key_line k) = k.
Proof. intros G. unfold key_line. apply strip_pad; [reflexivity|reflexivity|apply key_trimmed; exact G]. Qed.
Lemma strip_value_line k w : good_key k -> strip (value_line k w) = k ++ "="%char :: rstrip w.
Proof.
  intros G. destruct (rstrip_decomp w) as (sp & E & S). unfold value_line. rewrite E at 1. replace (k ++ "="%char :: (rstrip w ++ sp) ++ [nl]) with ((k ++ "="%char :: rstrip w) ++ (sp ++ [nl])) by (rewrite <- !app_assoc; reflexivity).
  apply strip_pad; [reflexivity|rewrite forallb_app, S; reflexivity|]. pose proof (key_trimmed k G) as [T1 T2]. destruct G as (N & _ & _). split.
  - intros c r X. destruct k as [|c0 k]; [contradiction|]. injection X as <- _. exact (T1 _ _ eq_refl).
  - intros c r X. destruct (rstrip w) as [|y l] eqn:R.
    + apply app_inj_tail in X as [_ <-]. reflexivity.
    + assert (NE : y :: l <> []) by discriminate. destruct (exists_last NE) as (l' & z & EL). rewrite EL in X, R. change ("="%char :: l' ++ [z]) with (("="%char :: l') ++ [z]) in X. rewrite app_assoc in X. apply app_inj_tail in X as [_ <-]. exact (rstrip_last w z l' R).
Qed.
Lemma is_key_line k : good_key k -> is_line (key_line k).
Proof. intros G. exists (txt "    " ++ k). split; [unfold key_line; rewrite app_assoc; reflexivity|]. intros I. apply in_app_or in I as [I|I]; [cbn in I; repeat (destruct I as [I|I]; [discriminate I|]); exact I|]. exact (key_not k nl G (or_introl eq_refl) I). Qed.
Lemma is_value_line k w : good_key k -> ~ In nl w -> is_line (value_line k w).
Proof.
  intros G N. exists (txt "    " ++ k ++ "="%char :: w). split; [unfold value_line; rewrite <- !app_assoc; reflexivity|]. intros I. apply in_app_or in I as [I|I]; [cbn in I; repeat (destruct I as [I|I]; [discriminate I|]); exact I|]. apply in_app_or in I as [I|[X|I]]; [exact (key_not k nl G (or_introl eq_refl) I)|discriminate X|exact (N I)].
Qed.
Lemma rstrip_In c s : In c (rstrip s) -> In c s.
Proof. intros I. destruct (rstrip_decomp s) as (sp & E & _). rewrite E. apply in_or_app. left. exact I. Qed.
Lemma strip_In c s : In c (strip s) -> In c s.
Proof. unfold strip. intros I. apply rstrip_In in I. destruct (lstrip_decomp s) as (sp & E & _). rewrite E. apply in_or_app. right. exact I. Qed.
Lemma to_lower_char c x : is_upper c = false -> is_lower c = false -> to_lower x = c -> x = c.
Proof.
  intros U L E. assert (P : (if is_upper x then negb (is_upper (to_lower x)) && is_lower (to_lower x) else true)%bool = true) by (apply (ascii_forall (fun x => if is_upper x then negb (is_upper (to_lower x)) && is_lower (to_lower x) else true)%bool); reflexivity).
  destruct (is_upper x) eqn:X; [rewrite E, L, andb_false_r in P; discriminate P|]. rewrite <- E. symmetry. apply to_lower_not_upper. exact X.
Qed.
Lemma lower_In c s : is_upper c = false -> is_lower c = false -> In c (lower s) -> In c s.
Proof. intros U L I. apply in_map_iff in I as (x & E & I). apply (to_lower_char c x U L) in E. subst x. exact I. Qed.
Lemma no_gt_info s : ~ In ">"%char s -> contains (txt ">info") (lower s) = false.
Proof. intros N. apply (contains_no _ ">"%char); [left; reflexivity|]. intros I. apply N. apply lower_In in I; [exact I|reflexivity|reflexivity]. Qed.
Lemma section_line l r : ~ In ">"%char l -> strip l <> [] -> section_lines true (l :: r) = strip l :: section_lines true r.
Proof.
  intros G N. cbn [section_lines]. cbv zeta. assert (GS : ~ In ">"%char (strip l)) by (intros I; apply G, strip_In, I). rewrite (no_gt_info _ GS). assert (P : prefix_of [gt] (strip l) = false). { destruct (prefix_of [gt] (strip l)) eqn:E; [|reflexivity]. apply prefix_of_spec in E as (t & E). exfalso. apply GS. rewrite E. left. reflexivity. }
  rewrite P. cbn [andb]. destruct (strip l); [contradiction|reflexivity].
Qed.
Lemma section_before pre r : Forall no_info pre -> section_lines false (pre ++ r) = section_lines false r.
Proof.
  induction 1 as [|l pre H F IH]; [reflexivity|]. cbn [app section_lines]. cbv zeta. destruct (contains (txt ">info") (lower (strip l))) eqn:E; [contradiction (H E)|]. exact IH.
Qed.
Lemma section_after post : after_info post -> section_lines true post = [].
Proof.
  intros [->|(s & r & t & -> & N & E)]; [reflexivity|]. cbn [section_lines]. cbv zeta. destruct (contains (txt ">info") (lower (strip s))) eqn:X; [contradiction (N X)|]. rewrite E. reflexivity.
Qed.

(** ** Standard lines *)
Lemma separator_key k : ~ In ":"%char k -> ~ In "="%char k -> separator k = None.
Proof.
  intros C E. unfold separator. destruct (find [colon] k) as [i|] eqn:F; [apply find_Some in F; exfalso; apply C|].
  - destruct F as (a & b & -> & _). apply in_or_app. right. left. reflexivity.
  - destruct (find [equals] k) as [i|] eqn:F2; [|reflexivity]. apply find_Some in F2. exfalso. apply E. destruct F2 as (a & b & -> & _). apply in_or_app. right. left. reflexivity.
Qed.
Lemma separator_value k a : ~ In ":"%char k -> ~ In "="%char k -> separator (k ++ "="%char :: a) = Some "="%char.
Proof.
  induction k as [|c k IH]; intros C E; cbn [app].
  - unfold separator. cbn [find prefix_of]. change (find [equals] ("="%char :: a)) with (Some 0%nat). change (prefix_of [colon] ("="%char :: a)) with false. cbv iota. destruct (find [colon] a); reflexivity.
  - specialize (IH ltac:(intros I; apply C; right; exact I) ltac:(intros I; apply E; right; exact I)). unfold separator in *. cbn [find prefix_of]. destruct (Ascii.eqb colon c) eqn:X; [apply Ascii.eqb_eq in X; exfalso; apply C; left; symmetry; exact X|]. destruct (Ascii.eqb equals c) eqn:Y; [apply Ascii.eqb_eq in Y; exfalso; apply E; left; symmetry; exact Y|].
    cbn [andb]. destruct (find [colon] (k ++ "="%char :: a)) as [i|]; destruct (find [equals] (k ++ "="%char :: a)) as [j|]; cbn [option_map]; try exact IH.
Qed.
Lemma strip_spaces_both sp1 s sp2 : forallb is_space sp1 = true -> forallb is_space sp2 = true -> strip (sp1 ++ s ++ sp2) = strip s.
Proof.
  intros A B. unfold strip. rewrite lstrip_spaces by exact A. destruct (forallb is_space s) eqn:E.
  - rewrite !lstrip_all; [reflexivity|exact E|rewrite forallb_app, E, B; reflexivity].
  - assert (X : lstrip (s ++ sp2) = lstrip s ++ sp2). { clear - E. induction s as [|c s IH]; [discriminate E|]. cbn [app lstrip forallb] in *. destruct (is_space c); [apply IH; exact E|reflexivity]. }
    rewrite X. apply rstrip_spaces. exact B.
Qed.
Lemma strip_decomp s : exists sp1 sp2, s = sp1 ++ strip s ++ sp2 /\ forallb is_space sp1 = true /\ forallb is_space sp2 = true.
Proof.
  destruct (lstrip_decomp s) as (sp1 & E1 & S1). destruct (rstrip_decomp (lstrip s)) as (sp2 & E2 & S2). exists sp1, sp2. split; [|split; assumption]. unfold strip. rewrite <- E2. exact E1.
Qed.
Lemma space_kept sp : forallb is_space sp = true -> bare sp = sp.
Proof.
  intros H. apply clean_id. intros c I. rewrite forallb_forall in H. apply H in I. assert (P : (negb (is_space c) || negb (dropped c))%bool = true) by (apply (ascii_forall (fun c => negb (is_space c) || negb (dropped c))%bool); reflexivity). rewrite I in P. apply negb_true_iff in P. exact P.
Qed.
Lemma strip_bare_strip s : strip (bare (strip s)) = tidy s.
Proof.
  unfold tidy. destruct (strip_decomp s) as (sp1 & sp2 & E & S1 & S2). rewrite E at 2. rewrite !clean_app, (space_kept sp1 S1), (space_kept sp2 S2). symmetry. apply strip_spaces_both; assumption.
Qed.
Lemma read_value_plain s : ~ bracketed s -> read_value s = IText s.
Proof.
  intros N. unfold read_value. destruct (prefix_of ["["%char] s && ends_with "]" s)%bool eqn:E; [|reflexivity]. exfalso. apply N. apply andb_prop in E as [P X]. apply prefix_of_spec in P as (r & ->). unfold ends_with in X. cbn [app] in *. destruct r as [|c r] using rev_ind; [discriminate X|]. cbn [rev] in X. rewrite rev_app_distr in X. cbn [rev app] in X. apply Ascii.eqb_eq in X. subst c. exists r. reflexivity.
Qed.
Lemma no_bracket_plain s : ~ In "["%char s -> ~ bracketed s.
Proof. intros N (w & ->). apply N. left. reflexivity. Qed.
Lemma read_value_list w : read_value ("["%char :: w ++ ["]"%char]) = ITexts (map strip (split_ws (replace_char colon [" "%char] (replace_char ";" [" "%char] (replace_char "," [" "%char] w))))).
Proof.
  unfold read_value. assert (E : ends_with "]" ("["%char :: w ++ ["]"%char]) = true). { unfold ends_with. change ("["%char :: w ++ ["]"%char]) with (["["%char] ++ w ++ ["]"%char]). rewrite app_assoc, rev_app_distr. reflexivity. }
  rewrite E. change (prefix_of ["["%char] ("["%char :: w ++ ["]"%char])) with true. cbn [andb]. unfold inner. cbn [tl]. rewrite removelast_last. reflexivity.
Qed.
Lemma split_words l : (forall s, In s l -> list_word s) -> split_ws (join (txt "  ") l) = l.
Proof.
  induction l as [|w l IH]; intros H; [reflexivity|]. assert (W : list_word w) by (apply H; left; reflexivity). destruct W as [N W]. assert (F : forallb (fun c => negb (is_space c)) w = true) by (apply forallb_forall; intros c I; destruct (W c I) as [X _]; rewrite X; reflexivity).
  destruct l as [|w2 l].
  - cbn [join]. rewrite <- (app_nil_r w) at 1. rewrite split_ws_cons; [reflexivity|exact N|exact F|left; reflexivity].
  - rewrite join_cons2. rewrite split_ws_cons; [|exact N|exact F|right; eexists _, _; split; [reflexivity|reflexivity]]. rewrite split_ws_lead by reflexivity. rewrite IH; [reflexivity|]. intros s I. apply H. right. exact I.
Qed.
Lemma words_replaced l : (forall s, In s l -> list_word s) -> replace_char colon [" "%char] (replace_char ";" [" "%char] (replace_char "," [" "%char] (join (txt ", ") l))) = join (txt "  ") l.
Proof.
  intros H. assert (A : forall c s, In c [","; ";"; ":"]%char -> In s l -> ~ In c s). { intros c s C I K. destruct (H s I) as [_ W]. destruct (W c K) as [_ X]. apply X. cbn in C |- *. tauto. }
  assert (E1 : replace_char "," [" "%char] (join (txt ", ") l) = join (txt "  ") l).
  { clear H. induction l as [|w l IH]; [reflexivity|]. destruct l as [|w2 l]; [apply replace_char_absent; apply A; [cbn; tauto|left; reflexivity]|]. rewrite !join_cons2, !replace_char_app. rewrite (replace_char_absent _ _ w) by (apply A; [cbn; tauto|left; reflexivity]). rewrite IH; [reflexivity|]. intros c s C I. apply A; [exact C|right; exact I]. }
  rewrite E1. rewrite (replace_char_absent ";"); [apply replace_char_absent|]; intros I; apply join_In in I as [I|(w & I & K)]; try (cbn in I; destruct I as [I|[I|[]]]; discriminate I); revert K; (apply A; [cbn; tauto|exact I]).
Qed.
Lemma map_strip_words l : (forall s, In s l -> list_word s) -> map strip l = l.
Proof.
  intros H. induction l as [|w l IH]; [reflexivity|]. cbn [map]. f_equal; [|apply IH; intros s I; apply H; right; exact I]. destruct (H w (or_introl eq_refl)) as [_ W]. apply strip_trimmed. split; intros c r X; [assert (I : In c w) by (rewrite X; left; reflexivity)|assert (I : In c w) by (rewrite X; apply in_or_app; right; left; reflexivity)]; destruct (W c I) as [Y _]; exact Y.
Qed.
(** The text that is written for a value and what is read from it. *)
Lemma value_written file k v v' : value file v v' -> exists w, info_line (k, v) = [value_line k w] /\ good_text w /\ read_value (strip (rstrip (cl file w))) = v'.
Proof.
  intros V. destruct V as [s N G B|q|l F H|l F H].
  - exists (strip s). split; [destruct s; [contradiction|reflexivity]|]. split; [intros c I; apply G, strip_In, I|]. rewrite strip_rstrip. destruct file; cbn [cl].
    + rewrite strip_bare_strip. apply read_value_plain, no_bracket_plain. intros I. unfold tidy in I. apply strip_In in I. apply filter_In in I as [_ I]. discriminate I.
    + rewrite strip_idem. apply read_value_plain, B. reflexivity.
  - exists (show_float q). split; [reflexivity|]. pose proof (show_float_sci q) as SC. rewrite forallb_forall in SC. assert (NO : forall c, sci_char c = false -> ~ In c (show_float q)) by (intros c X I; apply SC in I; congruence).
    split; [intros c I J; cbn in J; repeat (destruct J as [<-|J]; [refine (NO _ _ I); reflexivity|]); contradiction J|].
    assert (CL : cl file (show_float q) = show_float q). { destruct file; [|reflexivity]. apply clean_id. intros c I. destruct (dropped c) eqn:D; [|reflexivity]. exfalso. unfold dropped in D. apply existsb_exists in D as (x & X & E). apply Ascii.eqb_eq in E. subst x. cbn in X. repeat (destruct X as [<-|X]; [refine (NO _ _ I); reflexivity|]). contradiction X. }
    rewrite CL, strip_rstrip. assert (T : strip (show_float q) = show_float q). { apply strip_trimmed. assert (NS : forall c, In c (show_float q) -> is_space c = false). { intros c I. apply SC in I. assert (P : (negb (sci_char c) || negb (is_space c))%bool = true) by (apply (ascii_forall (fun c => negb (sci_char c) || negb (is_space c))%bool); reflexivity). rewrite I in P. apply negb_true_iff in P. exact P. } split; intros c r X; apply NS; rewrite X; [left; reflexivity|apply in_or_app; right; left; reflexivity]. }
    rewrite T. apply read_value_plain, no_bracket_plain, NO. reflexivity.
  - subst file. exists ("["%char :: join (txt ", ") l ++ ["]"%char]). split; [reflexivity|]. split.
    + intros c [<-|I] J; [cbn in J; repeat (destruct J as [J|J]; [discriminate J|]); contradiction J|]. apply in_app_or in I as [I|[<-|[]]]; [|cbn in J; repeat (destruct J as [J|J]; [discriminate J|]); contradiction J]. apply join_In in I as [I|(w & I & K)].
      * cbn in I. destruct I as [<-|[<-|[]]]; cbn in J; repeat (destruct J as [J|J]; [discriminate J|]); contradiction J.
      * destruct (H w I) as [_ W]. destruct (W c K) as [X Y]. cbn in J. destruct J as [<-|[<-|[<-|[]]]]; [discriminate X|apply Y; cbn; tauto|apply Y; cbn; tauto].
    + cbn [cl]. rewrite strip_rstrip. assert (T : strip ("["%char :: join (txt ", ") l ++ ["]"%char]) = "["%char :: join (txt ", ") l ++ ["]"%char]). { apply strip_trimmed. split; intros c r X; [injection X as <- _; reflexivity|]. change ("["%char :: join (txt ", ") l ++ ["]"%char]) with (("["%char :: join (txt ", ") l) ++ ["]"%char]) in X. apply app_inj_tail in X as [_ <-]. reflexivity. }
      rewrite T, read_value_list, (words_replaced l H), (split_words l H), (map_strip_words l H). reflexivity.
  - subst file. exists ("["%char :: join (txt ", ") l ++ ["]"%char]). split; [reflexivity|]. split.
    + intros c [<-|I] J; [cbn in J; repeat (destruct J as [J|J]; [discriminate J|]); contradiction J|]. apply in_app_or in I as [I|[<-|[]]]; [|cbn in J; repeat (destruct J as [J|J]; [discriminate J|]); contradiction J]. apply join_In in I as [I|(w & I & K)]; [|exact (H w I c K J)].
      cbn in I. destruct I as [<-|[<-|[]]]; cbn in J; repeat (destruct J as [J|J]; [discriminate J|]); contradiction J.
    + cbn [cl]. rewrite strip_rstrip. change ("["%char :: join (txt ", ") l ++ ["]"%char]) with (["["%char] ++ join (txt ", ") l ++ ["]"%char]). rewrite !clean_app. change (bare ["["%char]) with (@nil ascii). change (bare ["]"%char]) with (@nil ascii). rewrite app_nil_r. cbn [app]. fold (tidy (join (txt ", ") l)). apply read_value_plain, no_bracket_plain. intros I. unfold tidy in I. apply strip_In in I. apply filter_In in I as [_ I]. discriminate I.
Qed.

(** ** Names *)
Lemma renamed_table a b : In (a, b) renamed -> dget text_dec (txt a) translation = Some (txt b) /\ text_eqb (txt b) (txt "processing_parameter") = false.
Proof.
  intros I. assert (P : forallb (fun p => match dget text_dec (txt (fst p)) translation with Some x => text_eqb x (txt (snd p)) | None => false end && negb (text_eqb (txt (snd p)) (txt "processing_parameter")))%bool renamed = true) by (vm_compute; reflexivity).
  rewrite forallb_forall in P. specialize (P _ I). cbn [fst snd] in P. apply andb_prop in P as [P1 P2]. apply negb_true_iff in P2. split; [|exact P2]. destruct (dget text_dec (txt a) translation) as [x|]; [|discriminate P1]. apply text_eqb_eq in P1. subst x. reflexivity.
Qed.
Lemma parameter_table a : In a parameter_names -> dget text_dec (txt a) translation = Some (txt "processing_parameter").
Proof.
  intros I. assert (P : forallb (fun a => match dget text_dec (txt a) translation with Some x => text_eqb x (txt "processing_parameter") | None => false end) parameter_names = true) by (vm_compute; reflexivity).
  rewrite forallb_forall in P. specialize (P _ I). destruct (dget text_dec (txt a) translation) as [x|]; [|discriminate P]. apply text_eqb_eq in P. subst x. reflexivity.
Qed.
Lemma other_table k : ~ names (map fst renamed) k -> ~ names parameter_names k -> dget text_dec k translation = None.
Proof.
  intros A B. destruct (dget text_dec k translation) as [x|] eqn:E; [|reflexivity]. exfalso. apply dget_In in E.
  assert (P : forallb (fun p => existsb (fun n => text_eqb (fst p) (txt n)) (map fst renamed ++ parameter_names)) translation = true) by (vm_compute; reflexivity).
  rewrite forallb_forall in P. specialize (P _ E). apply existsb_exists in P as (n & I & X). cbn [fst] in X. apply text_eqb_eq in X. apply in_app_or in I as [I|I]; [apply A|apply B]; exists n; split; assumption.
Qed.

(** ** The dictionary that is read *)
Definition cm (k : text) (v : ival) : ival := match v with ITexts l => if contains (txt "comment") k then IText (join (txt ",") l) else ITexts l | v => v end.
Lemma commented_cm k v v' : commented k v v' -> v' = cm k v.
Proof. unfold commented, cm. destruct v; try (intros ->; reflexivity). intros [[C ->]|[C ->]]; rewrite C; reflexivity. Qed.
Lemma dget_comments K d : dget text_dec K (comments_to_string d) = option_map (cm K) (dget text_dec K d).
Proof.
  unfold comments_to_string. induction d as [|[k v] d IH]; [reflexivity|]. cbn [map dget fst snd]. destruct (text_dec K k) as [->|N]; [destruct v; reflexivity|exact IH].
Qed.
Lemma keys_comments d : map fst (comments_to_string d) = map fst d.
Proof. unfold comments_to_string. rewrite map_map. reflexivity. Qed.
Definition read_kind (v : ival) : Prop := match v with IText _ | ITexts _ => True | _ => False end.
Definition state (d : info) (f : text -> option ival) : Prop := NoDup (map fst d) /\ (forall k v, dget text_dec k d = Some v -> read_kind v) /\ forall K, option_map (cm K) (dget text_dec K d) = f K.
Lemma state_entry d f k v v' : state d f -> read_kind v -> v' = cm k v -> state (dset text_dec k v d) (fun K => after K (f K) (Entry k v')).
Proof.
  intros (ND & R & F) V ->. split; [apply NoDup_dset; exact ND|]. split.
  - intros k0 v0 E. destruct (text_dec k0 k) as [->|N]; [rewrite dget_dset_eq in E; injection E as <-; exact V|]. rewrite dget_dset_neq in E by exact N. exact (R _ _ E).
  - intros K. cbn [after]. destruct (text_eqb k K) eqn:E.
    + apply text_eqb_eq in E. subst K. rewrite dget_dset_eq. reflexivity.
    + rewrite dget_dset_neq; [apply F|]. intros ->. rewrite text_eqb_refl in E. discriminate E.
Qed.
Lemma cm_parameters v : cm parameters v = v.
Proof. destruct v; reflexivity. Qed.
Lemma state_setting d f k s : state d f -> state (add_parameter k (IText s) d) (fun K => after K (f K) (Setting (k ++ "="%char :: s))).
Proof.
  intros (ND & R & F). unfold add_parameter. change parameters_key with parameters. set (l := match dget text_dec parameters d with None => [] | Some (ITexts l) => l | Some x => [show_ival x] end).
  assert (L : l = as_list (f parameters)). { rewrite <- F. unfold l. destruct (dget text_dec parameters d) as [v|] eqn:E; [|reflexivity]. cbn [option_map]. rewrite cm_parameters. specialize (R _ _ E). destruct v; try contradiction R; reflexivity. }
  split; [apply NoDup_dset; exact ND|]. split.
  - intros k0 v0 E. destruct (text_dec k0 parameters) as [->|N]; [rewrite dget_dset_eq in E; injection E as <-; exact I|]. rewrite dget_dset_neq in E by exact N. exact (R _ _ E).
  - intros K. cbn [after]. destruct (text_eqb K parameters) eqn:E.
    + apply text_eqb_eq in E. subst K. rewrite dget_dset_eq. cbn [option_map]. rewrite cm_parameters, L. reflexivity.
    + rewrite dget_dset_neq; [apply F|]. intros ->. rewrite text_eqb_refl in E. discriminate E.
Qed.

(** ** One entry *)
Lemma read_value_kind s : read_kind (read_value s).
Proof. unfold read_value. destruct (_ && _)%bool; exact I. Qed.
Lemma standard_value k a d : good_key k -> ~ In ">"%char a -> ~ In "<"%char a ->
  standard_line d (k ++ "="%char :: a) = match dget text_dec (lower k) translation with
    | Some std => if text_eqb std (txt "processing_parameter") then add_parameter (lower k) (read_value (strip a)) d else dset text_dec std (read_value (strip a)) d
    | None => dset text_dec (lower k) (read_value (strip a)) d end.
Proof.
  intros G A B. unfold standard_line. assert (NE : nonempty (k ++ "="%char :: a) = true) by (destruct k; reflexivity). rewrite NE.
  assert (L : has_char lt_char (k ++ "="%char :: a) = false). { apply has_char_notIn. intros I. apply in_app_or in I as [I|[X|I]]; [|discriminate X|exact (B I)]. revert I. apply (key_not k lt_char G). cbn. tauto. }
  assert (GT : has_char gt (k ++ "="%char :: a) = false). { apply has_char_notIn. intros I. apply in_app_or in I as [I|[X|I]]; [|discriminate X|exact (A I)]. revert I. apply (key_not k gt G). cbn. tauto. }
  rewrite L, GT. cbn [negb orb]. rewrite separator_value; [|apply (key_not k _ G); cbn; tauto|apply (key_not k _ G); cbn; tauto]. rewrite split1_app by (apply (key_not k _ G); cbn; tauto). destruct G as (_ & S & _). rewrite S. reflexivity.
Qed.
Lemma standard_key k d : good_key k -> standard_line d k = dset text_dec k (IText []) d.
Proof.
  intros G. unfold standard_line. assert (NE : nonempty k = true) by (destruct G as (N & _); destruct k; [contradiction|reflexivity]). rewrite NE.
  assert (L : has_char lt_char k = false) by (apply has_char_notIn, (key_not k lt_char G); cbn; tauto). assert (GT : has_char gt k = false) by (apply has_char_notIn, (key_not k gt G); cbn; tauto).
  rewrite L, GT. cbn [negb orb]. rewrite separator_key; [|apply (key_not k _ G); cbn; tauto|apply (key_not k _ G); cbn; tauto]. destruct G as (_ & S & _). rewrite S. reflexivity.
Qed.
(** The lines of an entry, as they are in the section, and what they do. *)
Lemma entry_lines file kv l : info_reads file kv l -> Forall is_line (info_line kv) /\
  exists ls, (forall r, section_lines true (map (cl file) (info_line kv) ++ r) = ls ++ section_lines true r) /\ map strip (map (cl file) (info_line kv)) = ls /\
  forall d f, state d f -> state (fold_left standard_line ls d) (fun K => fold_left (after K) l (f K)).
Proof.
  intros R. destruct R as [k v V G|k|k k' v v' v'' G N V C|k v s G N V].
  - assert (E : info_line (k, v) = [key_line k]) by (destruct V as [->| ->]; reflexivity). rewrite E. split; [constructor; [apply is_key_line; exact G|constructor]|]. exists [k]. split.
    + intros r. cbn [map app]. rewrite (cl_key_line file k G). rewrite section_line; [rewrite (strip_key_line k G); reflexivity| |rewrite (strip_key_line k G); apply G]. unfold key_line. intros I. apply in_app_or in I as [I|I]; [cbn in I; repeat (destruct I as [I|I]; [discriminate I|]); exact I|]. apply in_app_or in I as [I|[X|[]]]; [|discriminate X]. revert I. apply (key_not k _ G). cbn. tauto.
    + split; [cbn [map]; rewrite (cl_key_line file k G), (strip_key_line k G); reflexivity|]. intros d f S. cbn [fold_left]. rewrite (standard_key k d G). apply state_entry; [exact S|exact I|reflexivity].
  - split; [constructor|]. exists []. split; [reflexivity|]. split; [reflexivity|]. intros d f S. exact S.
  - destruct (value_written file k v v' V) as (w & E & GW & RV). rewrite E. assert (NW : forall c, In c [nl; ">"; "<"]%char -> ~ In c w) by (intros c X I; exact (GW c I X)). split; [constructor; [apply is_value_line; [exact G|apply NW; cbn; tauto]|constructor]|].
    assert (NA : forall c, In c [nl; ">"; "<"]%char -> ~ In c (rstrip (cl file w))) by (intros c X I; apply rstrip_In in I; apply cl_In in I; exact (NW c X I)).
    exists [k ++ "="%char :: rstrip (cl file w)]. split.
    + intros r. cbn [map app]. rewrite (cl_value_line file k w G). rewrite section_line; [rewrite (strip_value_line k _ G); reflexivity| |rewrite (strip_value_line k _ G); destruct k; discriminate]. unfold value_line. intros I. apply in_app_or in I as [I|I]; [cbn in I; repeat (destruct I as [I|I]; [discriminate I|]); exact I|]. apply in_app_or in I as [I|[X|I]]; [revert I; apply (key_not k _ G); cbn; tauto|discriminate X|]. apply in_app_or in I as [I|[X|[]]]; [|discriminate X]. apply cl_In in I. revert I. apply NW. cbn. tauto.
    + split; [cbn [map]; rewrite (cl_value_line file k w G), (strip_value_line k _ G); reflexivity|]. intros d f S. cbn [fold_left]. rewrite (standard_value k _ d G) by (apply NA; cbn; tauto). rewrite RV. assert (KV : read_kind v') by (rewrite <- RV; apply read_value_kind). apply commented_cm in C.
      destruct N as [(a & b & I & LK & ->)|(N1 & N2 & ->)].
      * rewrite LK. destruct (renamed_table a b I) as [T P]. rewrite T, P. apply state_entry; assumption.
      * rewrite (other_table _ N1 N2). apply state_entry; assumption.
  - destruct (value_written file k v _ V) as (w & E & GW & RV). rewrite E. assert (NW : forall c, In c [nl; ">"; "<"]%char -> ~ In c w) by (intros c X I; exact (GW c I X)). split; [constructor; [apply is_value_line; [exact G|apply NW; cbn; tauto]|constructor]|].
    assert (NA : forall c, In c [nl; ">"; "<"]%char -> ~ In c (rstrip (cl file w))) by (intros c X I; apply rstrip_In in I; apply cl_In in I; exact (NW c X I)).
    exists [k ++ "="%char :: rstrip (cl file w)]. split.
    + intros r. cbn [map app]. rewrite (cl_value_line file k w G). rewrite section_line; [rewrite (strip_value_line k _ G); reflexivity| |rewrite (strip_value_line k _ G); destruct k; discriminate]. unfold value_line. intros I. apply in_app_or in I as [I|I]; [cbn in I; repeat (destruct I as [I|I]; [discriminate I|]); exact I|]. apply in_app_or in I as [I|[X|I]]; [revert I; apply (key_not k _ G); cbn; tauto|discriminate X|]. apply in_app_or in I as [I|[X|[]]]; [|discriminate X]. apply cl_In in I. revert I. apply NW. cbn. tauto.
    + split; [cbn [map]; rewrite (cl_value_line file k w G), (strip_value_line k _ G); reflexivity|]. intros d f S. cbn [fold_left]. rewrite (standard_value k _ d G) by (apply NA; cbn; tauto). rewrite RV. destruct N as (a & I & LK). rewrite LK, (parameter_table a I). change (text_eqb (txt "processing_parameter") (txt "processing_parameter")) with true. cbv iota. apply state_setting. exact S.
Qed.
Lemma all_lines file d outs : Forall2 (info_reads file) d outs -> Forall is_line (flat_map info_line d) /\
  exists ls, (forall r, section_lines true (map (cl file) (flat_map info_line d) ++ r) = ls ++ section_lines true r) /\ map strip (map (cl file) (flat_map info_line d)) = ls /\
  forall d0 f, state d0 f -> state (fold_left standard_line ls d0) (fun K => fold_left (after K) (concat outs) (f K)).
Proof.
  induction 1 as [|kv l d outs R F IH].
  - split; [constructor|]. exists []. split; [reflexivity|]. split; [reflexivity|]. intros d0 f S. exact S.
  - destruct (entry_lines file kv l R) as (L1 & ls1 & S1 & M1 & D1). destruct IH as (L2 & ls2 & S2 & M2 & D2). cbn [flat_map]. split; [apply Forall_app; split; assumption|]. exists (ls1 ++ ls2). split; [|split].
    + intros r. rewrite map_app, <- app_assoc, S1, S2. rewrite app_assoc. reflexivity.
    + rewrite !map_app, M1, M2. reflexivity.
    + intros d0 f S. rewrite fold_left_app. pose proof (D2 _ _ (D1 _ _ S)) as X. cbn [concat]. destruct X as (X1 & X2 & X3). split; [exact X1|]. split; [exact X2|]. intros K. rewrite fold_left_app. apply X3.
Qed.
