(** Lemmas for C119. *)
From Coq Require Import QArith.
From Verif Require Import PyBase PyFacts PyText TextFacts ValidatorsProofs LayModel SxmlModel SxmlSpec SxmlProofs SxmlProps SxmlProps2 SxmlProps3 SstModel SstSpec.
From Coq Require Import Lia.
Local Open Scope list_scope.

(** ** Ids *)
Ltac no_in := let X := fresh in intros X; vm_compute in X; repeat (destruct X as [X|X]; [discriminate X|]); exact X.
Definition smallb (i : text) : bool := negb (existsb is_upper i).
Lemma smallb_spec i : smallb i = true <-> small i.
Proof.
  unfold smallb, small. rewrite negb_true_iff. split.
  - intros H c I. destruct (is_upper c) eqn:E; [|reflexivity]. assert (X : existsb is_upper i = true) by (apply existsb_exists; eauto). congruence.
  - intros H. rewrite <- not_true_iff_false. intros X. apply existsb_exists in X as (c & I & E). rewrite (H c I) in E. discriminate E.
Qed.
Lemma small_lower_id i : small i -> lower i = i.
Proof. intros H. apply lower_fixed. apply smallb_spec in H. apply negb_true_iff in H. exact H. Qed.
Lemma lower_small i : small (lower i).
Proof. intros c I. unfold lower in I. apply in_map_iff in I as (d & <- & _). pose proof (ascii_forall (fun c => negb (is_upper (to_lower c))) eq_refl d) as F. cbn beta in F. apply negb_true_iff in F. exact F. Qed.
Lemma id_no i c : an_id i -> id_char c = false -> ~ In c i.
Proof. intros [_ H] F I. rewrite (H c I) in F. discriminate F. Qed.
Lemma id_lower i : an_id i -> an_id (lower i).
Proof.
  intros [N H]. split; [destruct i; [congruence|discriminate]|]. intros c I. unfold lower in I. apply in_map_iff in I as (d & <- & I). specialize (H d I).
  pose proof (ascii_forall (fun c => implb (id_char c) (id_char (to_lower c))) eq_refl d) as F. cbn beta in F. rewrite H in F. exact F.
Qed.
Lemma id_no_space i c : an_id i -> In c i -> is_space c = false.
Proof. intros [_ H] I. specialize (H c I). pose proof (ascii_forall (fun c => implb (id_char c) (negb (is_space c))) eq_refl c) as F. cbn beta in F. rewrite H in F. apply negb_true_iff in F. exact F. Qed.
Lemma id_trimmed i : an_id i -> trimmed i.
Proof. intros A. split; [intros c r E|intros c r E]; apply (id_no_space i c A); rewrite E; [left; reflexivity|apply in_or_app; right; left; reflexivity]. Qed.
Definition run_attr (a : text) : Prop := In a [txt "acquired_by"; txt "metadata_by"; txt "comments"].
Lemma key_low i a : an_id i -> run_attr a -> comment_key (Some (subject_of i a)) = subject_of (lower i) a.
Proof.
  intros A RA. cbn [comment_key].
  assert (NS : ~ In " "%char (subject_of i a)).
  { intros I. apply in_app_or in I as [I|I]; [revert I; no_in|]. apply in_app_or in I as [I|[I|I]]; [exact (id_no i " "%char A eq_refl I)|discriminate I|]. destruct RA as [<-|[<-|[<-|[]]]]; revert I; no_in. }
  assert (T : strip (subject_of i a) = subject_of i a).
  { apply strip_trimmed. split; [intros c r E; injection E as <- _; reflexivity|]. intros c r E. unfold subject_of in E. destruct RA as [<-|[<-|[<-|[]]]]; rewrite !app_assoc in E.
    - change (txt "acquired_by") with (txt "acquired_b" ++ ["y"%char]) in E. rewrite !app_assoc in E. apply app_inj_tail in E as [_ <-]. reflexivity.
    - change (txt "metadata_by") with (txt "metadata_b" ++ ["y"%char]) in E. rewrite !app_assoc in E. apply app_inj_tail in E as [_ <-]. reflexivity.
    - change (txt "comments") with (txt "comment" ++ ["s"%char]) in E. rewrite !app_assoc in E. apply app_inj_tail in E as [_ <-]. reflexivity. }
  rewrite T, replace_char_absent by exact NS. unfold subject_of. rewrite !lower_app. destruct RA as [<-|[<-|[<-|[]]]]; reflexivity.
Qed.
Lemma run_key i a : contains (txt "mt.run") (subject_of i a) = true.
Proof. apply contains_spec. exists [], (txt ":" ++ i ++ txt "." ++ a). reflexivity. Qed.

(** ** Persons *)
Definition pkeys : list text := map txt ["acquired_by.author"; "acquired_by.comments"; "metadata_by.author"; "metadata_by.comments"]%string.
Definition parts (who : text) : list text := [who ++ txt ".author"; who ++ txt ".comments"].
Definition kvs_of (d : list (text * text)) (who : text) : list (text * text) := set_values (fun k => dget text_dec k d) (parts who).
Definition who_of (who : text) : Prop := who = txt "acquired_by" \/ who = txt "metadata_by".
Lemma silent_get d k : silent d k -> dget text_dec k d = None \/ dget text_dec k d = Some [].
Proof. intros S. destruct (dget text_dec k d) as [[|c v]|] eqn:E; auto. exfalso. apply (S (c :: v)). split; [exact E|discriminate]. Qed.
Lemma last_parts who : who_of who -> last_part (who ++ txt ".author") = txt "author" /\ last_part (who ++ txt ".comments") = txt "comments".
Proof. intros [->| ->]; split; reflexivity. Qed.
Lemma word_trimmed v : word_like v -> trimmed v.
Proof. intros (_ & A & B). split; [exact A|intros c r; apply B]. Qed.
Lemma gk_author : good_key (txt "author"). Proof. apply word_good. reflexivity. Qed.
Lemma gk_comments : good_key (txt "comments"). Proof. apply word_good. reflexivity. Qed.
Lemma person_value d who : who_of who -> clean_person d who ->
  comment_value (pairs_text (kvs_of d who)) = Ok (match kvs_of d who with [] => CText [] | l => CDict (as_comment l) end).
Proof.
  intros W C. destruct (last_parts who W) as [LA LC]. unfold kvs_of, parts. cbn [set_values].
  destruct C as [[SA SC]|[(v & [EA NA] & SC & WV & NV)|[(v & SA & [EC NC] & WV & NV)|(v & w & [EA NA] & [EC NC] & WV & WW & NN)]]].
  - destruct (silent_get _ _ SA) as [-> | ->], (silent_get _ _ SC) as [-> | ->]; reflexivity.
  - assert (E : comment_value (pairs_text [(txt "author", v)]) = Ok (CDict (as_comment [(txt "author", v)]))).
    { apply C54_pairs; [discriminate|cbn; lia|repeat constructor; intros []| |right; repeat constructor].
      split; [repeat constructor; apply gk_author|]. cbn [map snd good_values]. split; [exact WV|split; [exact NV|split; [congruence|exact I]]]. }
    rewrite EA, LA. destruct v as [|c v]; [congruence|]. destruct (silent_get _ _ SC) as [-> | ->]; exact E.
  - assert (E : comment_value (pairs_text [(txt "comments", v)]) = Ok (CDict (as_comment [(txt "comments", v)]))).
    { apply C54_pairs; [discriminate|cbn; lia|repeat constructor; intros []| |left; repeat constructor].
      split; [repeat constructor; apply gk_comments|]. cbn [map snd good_values]. split; [exact WV|split; [exact NV|split; [congruence|exact I]]]. }
    rewrite EC, LC. destruct v as [|c v]; [congruence|]. destruct (silent_get _ _ SA) as [-> | ->]; exact E.
  - rewrite EA, EC, LA, LC. destruct v as [|c v]; [congruence|]. destruct w as [|c' w]; [congruence|].
    exact (C54_author (c :: v) (c' :: w) (word_trimmed _ WV) (word_trimmed _ WW) NN).
Qed.

(** ** The comments of a run *)
Definition set_of (who : text) (kv : text * text) : run_update := RSet (who ++ txt "." ++ fst kv) (Some (snd kv)).
Definition comment_value_of (t : text) : cvalue := match comment_value t with Ok v => v | Err _ => CText t end.
Definition said_of (t : text) : list run_update :=
  match comment_value_of t with CDict d => map (fun kv => RComment (fst kv ++ txt ": " ++ show_opt (snd kv))) d | CText _ => [] end.
Definition person_of (d : list (text * text)) (who : text) : cvalue := match kvs_of d who with [] => CText [] | l => CDict (as_comment l) end.
Definition read_comments (r : run) : list (text * cvalue) :=
  [(subject_of (lower (r_id r)) (txt "acquired_by"), person_of (r_by r) (txt "acquired_by")); (subject_of (lower (r_id r)) (txt "metadata_by"), person_of (r_by r) (txt "metadata_by"))] ++
  (if nonempty (r_comment r) then [(subject_of (lower (r_id r)) (txt "comments"), comment_value_of (r_comment r))] else []).
Definition updates (r : run) : list run_update :=
  map (set_of (txt "acquired_by")) (kvs_of (r_by r) (txt "acquired_by")) ++ map (set_of (txt "metadata_by")) (kvs_of (r_by r) (txt "metadata_by")) ++ said_of (r_comment r).
Definition upd (r x : run) : run := if smallb (r_id r) then fold_left (fun x u => one_update u x) (updates r) x else x.

Lemma comment_read t : ~ In ":"%char t \/ listed_comment t -> comment_value t = Ok (comment_value_of t).
Proof.
  intros [N|(kvs & NE & L & ND & G & NA & E)]; unfold comment_value_of.
  - rewrite (proj2 (C54_text t) N). reflexivity.
  - change (join (txt ", ") (map (fun kv => fst kv ++ txt ": " ++ snd kv) kvs)) with (pairs_text kvs) in E. subst t. rewrite (C54_pairs kvs NE L ND G NA). reflexivity.
Qed.
Lemma do_updates_app a b rs : do_updates (a ++ b) rs = do_updates b (do_updates a rs).
Proof. apply fold_left_app. Qed.
Lemma one_update_id u r : r_id (one_update u r) = r_id r.
Proof. destruct u as [t|k [v|]]; reflexivity. Qed.
Lemma on_run_ids i f rs : (forall r, r_id (f r) = r_id r) -> map r_id (on_run i f rs) = map r_id rs.
Proof. intros H. unfold on_run. rewrite map_map. apply map_ext. intros r. destruct (text_eqb (r_id r) i); [apply H|reflexivity]. Qed.
Lemma do_updates_ids us : forall rs, map r_id (do_updates us rs) = map r_id rs.
Proof. induction us as [|[i u] us IH]; intros rs; [reflexivity|]. unfold do_updates in *. cbn [fold_left fst snd]. rewrite IH. apply on_run_ids. apply one_update_id. Qed.
Lemma fold_id us : forall x, r_id (fold_left (fun x u => one_update u x) us x) = r_id x.
Proof. induction us as [|u us IH]; intros x; [reflexivity|]. cbn [fold_left]. rewrite IH. apply one_update_id. Qed.
Lemma upd_id r x : r_id (upd r x) = r_id x.
Proof. unfold upd. destruct (smallb (r_id r)); [apply fold_id|reflexivity]. Qed.
Lemma do_updates_one i us : forall rs, do_updates (map (fun u => (i, u)) us) rs = on_run i (fun x => fold_left (fun x u => one_update u x) us x) rs.
Proof.
  induction us as [|u us IH]; intros rs.
  - unfold on_run. cbn. symmetry. transitivity (map (fun x : run => x) rs); [|apply map_id]. apply map_ext. intros x. destruct (text_eqb (r_id x) i); reflexivity.
  - unfold do_updates in *. cbn [map fold_left fst snd]. rewrite IH. unfold on_run. rewrite map_map. apply map_ext. intros x. destruct (text_eqb (r_id x) i) eqn:E; [rewrite one_update_id, E; reflexivity|rewrite E; reflexivity].
Qed.
Lemma on_run_on i f g rs : (forall x, r_id (f x) = r_id x) -> on_run i g (on_run i f rs) = on_run i (fun x => g (f x)) rs.
Proof. intros H. unfold on_run. rewrite map_map. apply map_ext. intros x. destruct (text_eqb (r_id x) i) eqn:E; [rewrite H, E; reflexivity|rewrite E; reflexivity]. Qed.
Lemma run_comment_text ids i a t : run_comment ids (subject_of i a) (CText t) = Ok [].
Proof.
  unfold run_comment, subject_of. change (txt "mt.run:" ++ i ++ txt "." ++ a) with (txt "mt.run" ++ ":"%char :: (i ++ "."%char :: a)).
  rewrite split1_app by no_in. destruct (split1 "." _) as [x [y|]]; destruct (existsb _ ids); reflexivity.
Qed.
Lemma run_comment_none ids i a v : ~ In "."%char i -> ~ In i ids -> run_comment ids (subject_of i a) v = Ok [].
Proof.
  intros D N. unfold run_comment, subject_of. change (txt "mt.run:" ++ i ++ txt "." ++ a) with (txt "mt.run" ++ ":"%char :: (i ++ "."%char :: a)).
  rewrite split1_app by no_in. rewrite (split1_app "." i a D).
  assert (X : existsb (text_eqb i) ids = false) by (rewrite <- not_true_iff_false; intros X; apply existsb_exists in X as (y & IY & EY); apply text_eqb_eq in EY; subst y; contradiction). rewrite X. reflexivity.
Qed.
Lemma run_comment_person ids i who d : who_of who -> ~ In "."%char i -> In i ids -> run_comment ids (subject_of i who) (person_of d who) = Ok (map (fun u => (i, u)) (map (set_of who) (kvs_of d who))).
Proof.
  intros W D I. unfold person_of. destruct (kvs_of d who) as [|kv kvs] eqn:E; [apply run_comment_text|]. rewrite run_comment_key by assumption. f_equal. unfold as_comment. rewrite !map_map. apply map_ext. intros [k v]. cbn [fst snd]. unfold set_of. destruct W as [->| ->]; reflexivity.
Qed.
Lemma run_comment_said ids i t : ~ In "."%char i -> In i ids -> run_comment ids (subject_of i (txt "comments")) (comment_value_of t) = Ok (map (fun u => (i, u)) (said_of t)).
Proof.
  intros D I. unfold said_of. destruct (comment_value_of t) as [s|d]; [apply run_comment_text|]. rewrite run_comment_key by assumption. f_equal. rewrite map_map. apply map_ext. intros [k v]. reflexivity.
Qed.
Lemma run_step r rest rs : an_id (r_id r) -> In (r_id r) (map r_id rs) -> (forall x, In x rs -> lower (r_id x) = lower (r_id r) -> r_id x = r_id r) ->
  add_run_comments (read_comments r ++ rest) rs = add_run_comments rest (on_run (r_id r) (upd r) rs).
Proof.
  intros A I U. assert (DL : ~ In "."%char (lower (r_id r))) by (apply (id_no _ _ (id_lower _ A)); reflexivity).
  destruct (smallb (r_id r)) eqn:SB.
  - pose proof (proj1 (smallb_spec _) SB) as SM. pose proof (small_lower_id _ SM) as L. rewrite L in DL. unfold read_comments. rewrite L.
    assert (E0 : forall u : list run_update, nonempty (r_comment r) = false -> said_of (r_comment r) = []) by (intros _ X; destruct (r_comment r); [reflexivity|discriminate X]).
    cbn [app add_run_comments]. rewrite run_comment_person by (try assumption; left; reflexivity). cbn [bindR].
    rewrite do_updates_one. rewrite on_run_ids by (intros; apply fold_id). rewrite run_comment_person by (try assumption; right; reflexivity). cbn [bindR]. rewrite do_updates_one, on_run_on by (intros; apply fold_id).
    assert (F : on_run (r_id r) (upd r) rs = on_run (r_id r) (fun x => fold_left (fun x u => one_update u x) (said_of (r_comment r)) (fold_left (fun x u => one_update u x) (map (set_of (txt "metadata_by")) (kvs_of (r_by r) (txt "metadata_by"))) (fold_left (fun x u => one_update u x) (map (set_of (txt "acquired_by")) (kvs_of (r_by r) (txt "acquired_by"))) x))) rs).
    { unfold on_run. apply map_ext. intros x. unfold upd. rewrite SB. unfold updates. rewrite !fold_left_app. reflexivity. }
    rewrite F. destruct (nonempty (r_comment r)) eqn:N.
    + cbn [app add_run_comments]. rewrite on_run_ids by (intros; rewrite !fold_id; reflexivity). rewrite run_comment_said by assumption. cbn [bindR]. rewrite do_updates_one, on_run_on by (intros; rewrite !fold_id; reflexivity). reflexivity.
    + cbn [app]. rewrite (E0 [] eq_refl). reflexivity.
  - assert (NI : ~ In (lower (r_id r)) (map r_id rs)).
    { intros J. apply in_map_iff in J as (x & E & J). assert (H : r_id x = r_id r). { apply U; [exact J|]. rewrite E. apply small_lower_id. apply lower_small. }
      assert (X : smallb (r_id r) = true); [|congruence]. apply smallb_spec. rewrite <- H, E. apply lower_small. }
    assert (F : on_run (r_id r) (upd r) rs = rs). { unfold on_run. transitivity (map (fun x : run => x) rs); [|apply map_id]. apply map_ext. intros x. unfold upd. rewrite SB. destruct (text_eqb (r_id x) (r_id r)); reflexivity. }
    rewrite F. unfold read_comments. cbn [app add_run_comments]. rewrite !run_comment_none by assumption. cbn [bindR do_updates fold_left]. rewrite run_comment_none by assumption. cbn [bindR do_updates fold_left]. destruct (nonempty (r_comment r)); [|reflexivity]. cbn [app add_run_comments]. rewrite run_comment_none by assumption. reflexivity.
Qed.
Lemma run_steps (g : run -> run) : (forall r, r_id (g r) = r_id r) -> forall post pre, Forall (fun r => an_id (r_id r)) post -> NoDup (map (fun r => lower (r_id r)) (pre ++ post)) ->
  add_run_comments (flat_map read_comments post) (map (fun r => upd r (g r)) pre ++ map g post) = Ok (map (fun r => upd r (g r)) (pre ++ post)).
Proof.
  intros G. induction post as [|r post IH]; intros pre F ND; [cbn [flat_map map add_run_comments]; rewrite !app_nil_r; reflexivity|].
  inversion F as [|? ? A F']; subst. cbn [flat_map]. pose proof ND as ND'. rewrite map_app in ND'. cbn [map] in ND'. apply NoDup_remove in ND' as [_ NI].
  assert (IDS : map r_id (map (fun r => upd r (g r)) pre ++ map g (r :: post)) = map r_id (pre ++ r :: post)).
  { rewrite !map_app, !map_map. f_equal; apply map_ext; intros x; [rewrite upd_id|]; apply G. }
  assert (X : forall x, In x (pre ++ post) -> text_eqb (r_id x) (r_id r) = false).
  { intros x I. rewrite <- not_true_iff_false, text_eqb_eq. intros E. apply NI. rewrite <- map_app, <- E. apply (in_map (fun r => lower (r_id r))). exact I. }
  rewrite run_step; [|exact A| |].
  - specialize (IH (pre ++ [r]) F'). rewrite <- app_assoc in IH. cbn [app] in IH. rewrite <- IH by exact ND. apply f_equal.
    unfold on_run. rewrite !map_app. cbn [map]. rewrite <- !app_assoc. cbn [app]. apply f_equal2; [|apply f_equal2].
    + rewrite map_map. apply map_ext_in. intros x I. rewrite upd_id, G, (X x) by (apply in_or_app; left; exact I). reflexivity.
    + rewrite G, text_eqb_refl. reflexivity.
    + rewrite map_map. apply map_ext_in. intros x I. rewrite G, (X x) by (apply in_or_app; right; exact I). reflexivity.
  - rewrite IDS. apply in_map. apply in_or_app. right. left. reflexivity.
  - intros x I E. apply (in_map r_id) in I. rewrite IDS in I. apply in_map_iff in I as (y & EY & I). rewrite <- EY in *. apply in_app_or in I as [I|[<-|I]]; [|reflexivity|]; exfalso; apply NI; rewrite <- map_app, <- E; apply (in_map (fun r => lower (r_id r))); apply in_or_app; [left|right]; exact I.
Qed.
