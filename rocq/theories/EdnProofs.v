From Verif Require Import PyBase PyFacts PyText TextFacts LayModel EdnModel EdnSpec.
From Coq Require Import Lia.
Local Open Scope list_scope.

Lemma mentions_contains w k : contains w k = true <-> mentions w k.
Proof. apply contains_spec. Qed.
Lemma not_mentions w k : ~ mentions w k -> contains w k = false.
Proof. intros N. apply not_true_iff_false. rewrite mentions_contains. exact N. Qed.
Lemma not_begins w k : ~ begins w k -> prefix_of w k = false.
Proof. intros N. apply not_true_iff_false. rewrite prefix_of_spec. exact N. Qed.
Lemma small_lower k : small k -> lower k = k.
Proof. intros S. unfold lower. rewrite <- (map_id k) at 2. apply map_ext_in. intros c I. apply to_lower_not_upper. apply S. exact I. Qed.
Lemma null_is v : null v = negb (is_given v).
Proof.
  destruct v as [|s|l|s]; try reflexivity. cbn [null is_given]. unfold is_null. destruct (in_dec text_dec s nothing) as [I|N]; cbn [negb].
  - apply existsb_exists. exists s. split; [exact I|apply text_eqb_refl].
  - apply not_true_iff_false. rewrite existsb_exists. intros (x & I & E). apply text_eqb_eq in E. subst x. exact (N I).
Qed.
Lemma given_null v : given v -> null v = false.
Proof. unfold given. intros G. rewrite null_is, G. reflexivity. Qed.
(** A word without dots lies on one side of a dot *)
Lemma mentions_dot w a b : ~ In "."%char w -> mentions w (a ++ "."%char :: b) -> mentions w a \/ mentions w b.
Proof.
  intros NW (x & y & E). revert x E. induction a as [|c a IH]; intros x E.
  - cbn [app] in E. destruct x as [|d x]; [cbn [app] in E; destruct w as [|e w]; [left; exists [], []; reflexivity|cbn [app] in E; injection E as <- _; exfalso; apply NW; left; reflexivity]|].
    cbn [app] in E. injection E as _ E. right. exists x, y. exact E.
  - destruct x as [|d x].
    + cbn [app] in E. (* w begins at c: either within a or beyond the dot *)
      assert (G : forall w a, ~ In "."%char w -> a ++ "."%char :: b = w ++ y -> exists r, a = w ++ r).
      { clear. induction w as [|e w IHw]; intros a N E; [exists a; reflexivity|]. destruct a as [|c a]; [cbn [app] in E; injection E as <- _; exfalso; apply N; left; reflexivity|]. cbn [app] in E. injection E as <- E. destruct (IHw a) as (r & ->); [intros I; apply N; right; exact I|exact E|]. exists r. reflexivity. }
      destruct (G w (c :: a) NW E) as (r & R). left. exists [], r. exact R.
    + cbn [app] in E. injection E as <- E. destruct (IH x E) as [(u & v & ->)|M]; [left; exists (c :: u), v; reflexivity|right; exact M].
Qed.
Lemma find_prefix p r : find p (p ++ r) = Some 0%nat.
Proof. assert (P : prefix_of p (p ++ r) = true) by (apply prefix_of_spec; exists r; reflexivity). destruct (p ++ r) eqn:E; cbn [find]; rewrite P; reflexivity. Qed.
Lemma after_prefix p r : after p (p ++ r) = Some r.
Proof. unfold after. rewrite find_prefix. cbn [Nat.add]. rewrite skipn_app, skipn_all, Nat.sub_diag. reflexivity. Qed.
Lemma before_none p r : ~ mentions p r -> before p r = r.
Proof. intros N. unfold before. pose proof (not_mentions p r N) as C. unfold contains in C. destruct (find p r); [discriminate|reflexivity]. Qed.
Lemma second_prefix p r : ~ mentions p r -> second p (p ++ r) = Ok r.
Proof. intros N. unfold second. rewrite after_prefix, before_none by exact N. reflexivity. Qed.

(** ** One note *)
Section Read.
Variable refuse : place -> text -> value -> option exn.
Lemma calm_note g k v : calm k -> one_note refuse g (k, v) = Ok g.
Proof.
  intros (M & B & E). unfold one_note. cbn [fst snd]. destruct (null v); [reflexivity|].
  rewrite (not_mentions (txt "provenance")) by (apply M; cbn; tauto). rewrite (not_mentions (txt "transfer_function")) by (apply M; cbn; tauto).
  rewrite (not_begins (txt "run.")) by (apply B; cbn; tauto). rewrite (not_begins (txt "data_logger")) by (apply B; cbn; tauto). rewrite (not_begins (txt "station.")) by (apply B; cbn; tauto).
  rewrite (not_mentions (txt "processing.")) by (apply M; cbn; tauto).
  assert (Q : forall w, In w [txt "processedby"; txt "processed_by"; txt "runlist"; txt "run_list"; txt "sitename"; txt "signconvention"] -> text_eqb (lower k) w = false) by (intros w I; apply not_true_iff_false; intros X; apply text_eqb_eq in X; exact (E w I X)).
  cbn [existsb]. rewrite !Q by (cbn; tauto). cbn [orb]. rewrite (not_mentions (txt "mtft")) by (apply M; cbn; tauto). rewrite (not_mentions (txt "emtf")) by (apply M; cbn; tauto). rewrite (not_mentions (txt "mtedit")) by (apply M; cbn; tauto). reflexivity.
Qed.
Lemma provenance_note g k v : given v -> refuse OfStation (lower k) v = None -> mentions (txt "provenance") (lower k) -> one_note refuse g (k, v) = Ok (mkGot (g_params g) (g_refs g) (g_runs g) (g_processed g) (g_log g ++ [(OfStation, lower k, v)])).
Proof. intros G R M. unfold one_note. cbn [fst snd]. rewrite (given_null v G). rewrite (proj2 (mentions_contains _ _) M). unfold assign. rewrite R. reflexivity. Qed.
Lemma tf_app k : lower (txt "transfer_function." ++ k) = txt "transfer_function." ++ lower k.
Proof. rewrite lower_app. reflexivity. Qed.
Lemma no_provenance k : ~ mentions (txt "provenance") k -> contains (txt "provenance") (txt "transfer_function." ++ k) = false.
Proof.
  intros N. apply not_mentions. intros M. change (txt "transfer_function." ++ k) with (txt "transfer_function" ++ "."%char :: k) in M. apply mentions_dot in M as [M|M]; [|exact (N M)|cbn; intuition discriminate].
  apply mentions_contains in M. discriminate M.
Qed.
Lemma tf_there k : contains (txt "transfer_function") (txt "transfer_function." ++ k) = true.
Proof. apply mentions_contains. exists [], ("."%char :: k). reflexivity. Qed.
Lemma field_note g k v : given v -> tf_field k -> refuse OfTF k v = None ->
  one_note refuse g (txt "transfer_function." ++ k, v) = Ok (mkGot (g_params g) (g_refs g) (g_runs g) (g_processed g) (g_log g ++ [(OfTF, k, v)])).
Proof.
  intros G (S & M) R. unfold one_note. cbn [fst snd]. rewrite (given_null v G), tf_app, (small_lower k S). rewrite no_provenance by (apply M; cbn; tauto). rewrite tf_there. unfold tf_note.
  rewrite second_prefix by (apply M; cbn; tauto). cbn [bindR]. rewrite (not_mentions (txt "processing_parameters")) by (apply M; cbn; tauto). rewrite (not_mentions (txt "remote_references")) by (apply M; cbn; tauto). rewrite (not_mentions (txt "runs_processed")) by (apply M; cbn; tauto).
  unfold assign. rewrite R. reflexivity.
Qed.
Lemma refs_note g l : one_note refuse g (txt "transfer_function.remote_references", VList l) = Ok (add_refs l g).
Proof. reflexivity. Qed.
Lemma runs_note g v : one_note refuse g (txt "transfer_function.runs_processed", v) = Ok g.
Proof. unfold one_note. cbn [fst snd]. destruct (null v); reflexivity. Qed.
Lemma dot_once a b u w : ~ In "."%char b -> ~ In "."%char a -> a ++ "."%char :: b = u ++ "."%char :: w -> a = u /\ b = w.
Proof.
  revert u. induction a as [|c a IH]; intros u NB NA E.
  - destruct u as [|d u]; cbn [app] in E; [injection E as ->; split; reflexivity|]. injection E as _ E. exfalso. apply NB. rewrite E. apply in_or_app. right. left. reflexivity.
  - destruct u as [|d u]; cbn [app] in E; [injection E as Q _; exfalso; apply NA; left; exact Q|]. injection E as <- E. destruct (IH u NB) as [-> ->]; [intros I; apply NA; right; exact I|exact E|split; reflexivity].
Qed.
Lemma parameter_second n : ~ In "."%char n -> second (txt "transfer_function.") (txt "transfer_function.processing_parameters." ++ n) = Ok (txt "processing_parameters." ++ n).
Proof.
  intros N. change (txt "transfer_function.processing_parameters." ++ n) with (txt "transfer_function." ++ txt "processing_parameters." ++ n). apply second_prefix. intros (u & w & E).
  change (txt "processing_parameters." ++ n) with (txt "processing_parameters" ++ "."%char :: n) in E. change (txt "transfer_function." ++ w) with (txt "transfer_function" ++ "."%char :: w) in E. rewrite app_assoc in E.
  apply dot_once in E as [E _]; [|exact N|cbn; intuition discriminate]. assert (C : contains (txt "transfer_function") (txt "processing_parameters") = true) by (apply mentions_contains; exists u, []; rewrite app_nil_r; exact E). discriminate C.
Qed.
Lemma lower_nodot n : ~ In "."%char n -> ~ In "."%char (lower n).
Proof.
  intros N I. unfold lower in I. apply in_map_iff in I as (c & E & I). assert (X : c = "."%char). { assert (H : forall c, (negb (Ascii.eqb (to_lower c) ".") || Ascii.eqb c ".")%bool = true) by (apply ascii_forall; reflexivity). specialize (H c). rewrite E in H. cbn in H. apply Ascii.eqb_eq in H. exact H. } subst c. exact (N I).
Qed.
Lemma param_note g n v : parameter_name n -> given (VText v) ->
  one_note refuse g (txt "transfer_function.processing_parameters." ++ n, VText v) = Ok (add_params [lower n ++ txt "=" ++ v] g).
Proof.
  intros (ND & _ & NP) G. unfold one_note. cbn [fst snd]. rewrite (given_null _ G). rewrite lower_app. change (lower (txt "transfer_function.processing_parameters.")) with (txt "transfer_function.processing_parameters.").
  assert (P : contains (txt "provenance") (txt "transfer_function.processing_parameters." ++ lower n) = false).
  { change (txt "transfer_function.processing_parameters." ++ lower n) with (txt "transfer_function." ++ (txt "processing_parameters" ++ "."%char :: lower n)). apply no_provenance. intros M. apply mentions_dot in M as [M|M]; [apply mentions_contains in M; discriminate M|exact (NP M)|cbn; intuition discriminate]. }
  rewrite P. change (txt "transfer_function.processing_parameters." ++ lower n) with (txt "transfer_function." ++ txt "processing_parameters." ++ lower n) at 1. rewrite tf_there. unfold tf_note. rewrite parameter_second by (apply lower_nodot; exact ND). cbn [bindR].
  rewrite (proj2 (mentions_contains (txt "processing_parameters") (txt "processing_parameters." ++ lower n))) by (exists [], ("."%char :: lower n); reflexivity). f_equal. f_equal. unfold last_part.
  change (txt "processing_parameters." ++ lower n) with (txt "processing_parameters" ++ "."%char :: lower n). rewrite split_on_app by (cbn; intuition discriminate). rewrite split_on_no by (apply lower_nodot; exact ND). reflexivity.
Qed.

(** ** All notes *)
Lemma all_app d : forall d' g, all_notes refuse (d ++ d') g = bindR (all_notes refuse d g) (all_notes refuse d').
Proof. induction d as [|kv d IH]; intros d' g; [reflexivity|]. cbn [app all_notes]. destruct (one_note refuse g kv) as [g'|x]; [cbn [bindR]; apply IH|reflexivity]. Qed.
Lemma all_calm d : forall g, (forall k v, In (k, v) d -> calm k) -> all_notes refuse d g = Ok g.
Proof. induction d as [|[k v] d IH]; intros g C; [reflexivity|]. cbn [all_notes]. rewrite calm_note by (apply (C k v); left; reflexivity). cbn [bindR]. apply IH. intros k' v' I. apply (C k' v'). right. exact I. Qed.
Lemma dset_calm k v d : forall g, calm k -> all_notes refuse (dset text_dec k v d) g = all_notes refuse d g.
Proof.
  induction d as [|[k' v'] d IH]; intros g C; [cbn [dset all_notes]; rewrite calm_note by exact C; reflexivity|]. cbn [dset]. destruct (text_dec k k') as [->|N]; cbn [all_notes]; [rewrite !calm_note by exact C; reflexivity|].
  destruct (one_note refuse g (k', v')) as [g'|x]; [cbn [bindR]; apply IH; exact C|reflexivity].
Qed.
Lemma put_all_calm p fs : forall d g, (forall k v, In (k, v) fs -> calm (p ++ k)) -> all_notes refuse (put_all p fs d) g = all_notes refuse d g.
Proof.
  induction fs as [|[k v] fs IH]; intros d g C; [reflexivity|]. cbn [put_all]. rewrite IH by (intros k' v' I; apply (C k' v'); right; exact I). destruct (null v); [reflexivity|]. apply dset_calm. apply (C k v). left. reflexivity.
Qed.
Lemma put_run_calm r d g : (forall k, run_note r k -> calm k) -> all_notes refuse (put_run d r) g = all_notes refuse d g.
Proof.
  intros C. unfold put_run. assert (A : forall cs d, (forall c fs f v, In (c, fs) cs -> In (f, v) fs -> calm (r_id r ++ txt "." ++ c ++ txt "." ++ f)) -> all_notes refuse (fold_left (put_channel (r_id r)) cs d) g = all_notes refuse d g).
  { induction cs as [|[c fs] cs IH]; intros d1 H; [reflexivity|]. cbn [fold_left]. rewrite IH by (intros c' fs' f v I J; apply (H c' fs' f v); [right; exact I|exact J]). unfold put_channel. cbn [fst snd]. apply put_all_calm. intros k v I. apply filter_In in I as [I _]. rewrite <- !app_assoc. apply (H c fs k v); [left; reflexivity|exact I]. }
  rewrite A by (intros c fs f v I J; apply C; right; exists c, fs, f, v; repeat split; assumption). apply put_all_calm. intros k v I. rewrite <- app_assoc. apply C. left. exists k, v. split; [exact I|reflexivity].
Qed.
Lemma put_runs_calm rs : forall d g, (forall r k, In r rs -> run_note r k -> calm k) -> all_notes refuse (fold_left put_run rs d) g = all_notes refuse d g.
Proof. induction rs as [|r rs IH]; intros d g C; [reflexivity|]. cbn [fold_left]. rewrite IH by (intros r' k I; apply C; right; exact I). apply put_run_calm. intros k. apply C. left. reflexivity. Qed.
End Read.

(** ** What is put *)
Lemma put_all_fresh p fs : forall d, NoDup (map fst fs) -> (forall k v, In (k, v) fs -> ~ In (p ++ k) (dkeys d)) -> put_all p fs d = d ++ map (fun kv => (p ++ fst kv, snd kv)) (given_fields fs).
Proof.
  induction fs as [|[k v] fs IH]; intros d N F; [cbn; rewrite app_nil_r; reflexivity|]. inversion N as [|? ? NI N']; subst. cbn [put_all given_fields filter snd]. fold (given_fields fs). rewrite null_is. destruct (is_given v); cbn [negb].
  2: { apply IH; [exact N'|]. intros k' v' I. apply (F k' v'). right. exact I. }
  - rewrite dset_notin by (apply (F k v); left; reflexivity). rewrite IH; [cbn [map fst snd]; rewrite <- app_assoc; reflexivity|exact N'|]. intros k' v' I J. unfold dkeys in J. rewrite map_app in J. apply in_app_or in J as [J|[J|[]]]; [apply (F k' v'); [right; exact I|exact J]|].
    cbn [fst] in J. apply app_inv_head in J. subst k'. apply NI. apply in_map_iff. exists (k, v'). split; [reflexivity|exact I].
Qed.
Definition param_entry (nv : text * text) : text * value := (txt "transfer_function.processing_parameters." ++ fst nv, VText (snd nv)).
Lemma put_parameters_fresh ps : forall d, NoDup (map fst ps) -> (forall n v, In (n, v) ps -> ~ In "="%char n) -> (forall n v, In (n, v) ps -> ~ In (txt "transfer_function.processing_parameters." ++ n) (dkeys d)) ->
  put_parameters (map as_parameter ps) d = Ok (d ++ map param_entry ps).
Proof.
  induction ps as [|[n v] ps IH]; intros d N E F; [cbn; rewrite app_nil_r; reflexivity|]. inversion N as [|? ? NI N']; subst. cbn [map put_parameters]. unfold as_parameter at 1. cbn [fst snd]. change (n ++ txt "=" ++ v) with (n ++ "="%char :: v). rewrite split1_app by (apply (E n v); left; reflexivity).
  rewrite dset_notin by (apply (F n v); left; reflexivity). rewrite IH; [rewrite <- app_assoc; reflexivity|exact N'|intros n' v' I; apply (E n' v'); right; exact I|]. intros n' v' I J. unfold dkeys in J. rewrite map_app in J. apply in_app_or in J as [J|[J|[]]]; [apply (F n' v'); [right; exact I|exact J]|].
  cbn [fst] in J. apply app_inv_head in J. subst n'. apply NI. apply in_map_iff. exists (n, v'). split; [reflexivity|exact I].
Qed.

(** ** The notes of a transfer function *)
Section TF.
Variable refuse : place -> text -> value -> option exn.
Definition entries (k : text) (v : value) (es : notes) (pars : list (text * text)) : Prop :=
  (k = txt "processing_parameters" /\ v = VList (map as_parameter pars) /\ NoDup (map fst pars) /\ (forall n x, In (n, x) pars -> parameter_name n /\ given (VText x)) /\ es = map param_entry pars) \/
  (k <> txt "processing_parameters" /\ pars = [] /\ es = [(txt "transfer_function." ++ k, v)]).
Definition owned (k key : text) : Prop := if text_dec k (txt "processing_parameters") then exists n, key = txt "transfer_function.processing_parameters." ++ n /\ ~ In "."%char n else key = txt "transfer_function." ++ k.
Lemma all_params ps : forall g, (forall n x, In (n, x) ps -> parameter_name n /\ given (VText x)) -> all_notes refuse (map param_entry ps) g = Ok (add_params (map as_parameter (map small_name ps)) g).
Proof.
  induction ps as [|[n v] ps IH]; intros g H; [destruct g; unfold add_params; cbn; rewrite app_nil_r; reflexivity|]. cbn [map all_notes]. unfold param_entry at 1. cbn [fst snd]. destruct (H n v) as [P G]; [left; reflexivity|]. rewrite param_note by assumption. cbn [bindR].
  rewrite IH by (intros n' x' I; apply H; right; exact I). f_equal. unfold add_params. cbn [g_params g_refs g_runs g_processed g_log]. rewrite <- app_assoc. reflexivity.
Qed.
Definition plus (g : got) (ps refs : list text) (log : list (place * text * value)) : got := mkGot (g_params g ++ ps) (g_refs g ++ refs) (g_runs g) (g_processed g) (g_log g ++ log).
Lemma plus_nil g : plus g [] [] [] = g.
Proof. destruct g; unfold plus; cbn; rewrite !app_nil_r; reflexivity. Qed.
Lemma plus_plus g a b c a' b' c' : plus (plus g a b c) a' b' c' = plus g (a ++ a') (b ++ b') (c ++ c').
Proof. unfold plus; cbn; rewrite !app_assoc; reflexivity. Qed.
Definition tf_log (fs : list (text * value)) : list (place * text * value) := map (fun kv => (OfTF, fst kv, snd kv)) (other_fields fs).
(** The parameters as they come back *)
Definition back (s : text) : text := match split1 "=" s with (n, Some v) => lower n ++ txt "=" ++ v | (n, None) => n end.
Lemma back_as n v : ~ In "="%char n -> back (as_parameter (n, v)) = as_parameter (small_name (n, v)).
Proof. intros N. unfold back, as_parameter, small_name. cbn [fst snd]. change (n ++ txt "=" ++ v) with (n ++ "="%char :: v). rewrite split1_app by exact N. reflexivity. Qed.
Lemma tf_key_ne k n : ~ mentions (txt "processing_parameters") k -> txt "transfer_function." ++ k <> txt "transfer_function.processing_parameters." ++ n.
Proof. intros N E. change (txt "transfer_function.processing_parameters." ++ n) with (txt "transfer_function." ++ txt "processing_parameters." ++ n) in E. apply app_inv_head in E. apply N. exists [], ("."%char :: n). exact E. Qed.
Lemma put_tf_all fs : forall d, readable_tf refuse fs ->
  (forall k v key, In (k, v) fs -> In key (dkeys d) -> given v -> (k = txt "processing_parameters" -> forall n, key <> txt "transfer_function.processing_parameters." ++ n) /\ (k <> txt "processing_parameters" -> key <> txt "transfer_function." ++ k)) ->
  exists es, put_tf fs d = Ok (d ++ es) /\ (forall key, In key (dkeys es) -> begins (txt "transfer_function.") key) /\
    forall g, all_notes refuse es g = Ok (plus g (map back (the_field (txt "processing_parameters") (given_fields fs))) (the_field (txt "remote_references") (given_fields fs)) (tf_log fs)).
Proof.
  induction fs as [|[k v] fs IH]; intros d [N R] F.
  - exists []. cbn. rewrite app_nil_r. repeat split; [intros key []|]. intros g. rewrite plus_nil. reflexivity.
  - inversion N as [|? ? NI N']; subst. cbn [put_tf]. rewrite null_is. assert (R' : readable_tf refuse fs) by (split; [exact N'|intros k' v' I; apply R; right; exact I]).
    unfold tf_log, other_fields. cbn [given_fields filter snd]. fold (given_fields fs). destruct (is_given v) eqn:G; cbn [negb].
    2: { apply IH; [exact R'|]. intros k' v' key I. apply F. right. exact I. }
    cbn [the_field flat_map fst snd filter]. fold (the_field (txt "processing_parameters") (given_fields fs)). fold (the_field (txt "remote_references") (given_fields fs)).
    destruct (R k v (or_introl eq_refl) G) as [[-> (ps & -> & NP & HP)]|C].
    + change (text_eqb (txt "processing_parameters") (txt "processing_parameters")) with true. cbn match. rewrite put_parameters_fresh; [|exact NP|intros n x I; apply (HP n x I)|].
      2: { intros n x I J. destruct (F _ _ _ (or_introl eq_refl) J G) as [A _]. exact (A eq_refl n eq_refl). }
      cbn [bindR]. destruct (IH (d ++ map param_entry ps) R') as (es & E & B & A).
      { intros k' v' key I J G'. unfold dkeys in J. rewrite map_app in J. apply in_app_or in J as [J|J]; [apply (F k' v' key); [right; exact I|exact J|exact G']|]. rewrite map_map in J. apply in_map_iff in J as ([n x] & <- & J). unfold param_entry. cbn [fst].
        split; [intros ->; exfalso; apply NI; apply in_map_iff; eexists; split; [|exact I]; reflexivity|]. intros NK. apply not_eq_sym. destruct (R' ) as [_ R'']. destruct (R'' k' v' I G') as [[-> _]|[[-> _]|[->|[T _]]]]; [congruence|discriminate|discriminate|]. apply tf_key_ne. apply T. cbn; tauto. }
      exists (map param_entry ps ++ es). rewrite E, app_assoc. split; [reflexivity|split].
      * intros key J. unfold dkeys in J. rewrite map_app in J. apply in_app_or in J as [J|J]; [|apply B; exact J]. rewrite map_map in J. apply in_map_iff in J as ([n x] & <- & J). exists (txt "processing_parameters." ++ n). reflexivity.
      * intros g. rewrite all_app, all_params by exact HP. cbn [bindR]. rewrite A. apply f_equal.
        destruct (text_dec (txt "processing_parameters") (txt "processing_parameters")) as [_|X]; [|elim X; reflexivity]. destruct (text_dec (txt "processing_parameters") (txt "remote_references")) as [X|_]; [discriminate X|].
        destruct (in_dec text_dec (txt "processing_parameters") [txt "processing_parameters"; txt "remote_references"; txt "runs_processed"]) as [_|X]; [|elim X; left; reflexivity].
        assert (M : map back (map as_parameter ps) = map as_parameter (map small_name ps)). { rewrite !map_map. apply map_ext_in. intros [n x] I. apply back_as. apply (HP n x I). }
        rewrite map_app, M. unfold add_params, plus. cbn [g_params g_refs g_runs g_processed g_log app]. rewrite app_assoc. reflexivity.
    + assert (NK : k <> txt "processing_parameters"). { intros ->. destruct C as [[X _]|[X|[T _]]]; [discriminate|discriminate|]. apply (proj2 T (txt "processing_parameters")); [cbn; tauto|]. exists [], []. reflexivity. }
      assert (TE : text_eqb k (txt "processing_parameters") = false) by (apply not_true_iff_false; intros X; apply text_eqb_eq in X; exact (NK X)). rewrite TE.
      rewrite dset_notin. 2: { intros J. destruct (F _ _ _ (or_introl eq_refl) J G) as [_ A]. exact (A NK eq_refl). }
      destruct (IH (d ++ [(txt "transfer_function." ++ k, v)]) R') as (es & E & B & A).
      { intros k' v' key I J G'. unfold dkeys in J. rewrite map_app in J. apply in_app_or in J as [J|[J|[]]]; [apply (F k' v' key); [right; exact I|exact J|exact G']|]. cbn [fst] in J. subst key. split.
        - intros _ n. destruct C as [[-> _]|[->|[T _]]]; [discriminate|discriminate|]. apply tf_key_ne. apply T. cbn; tauto.
        - intros _ X. apply app_inv_head in X. subst k'. apply NI. apply in_map_iff. eexists. split; [|exact I]. reflexivity. }
      exists ((txt "transfer_function." ++ k, v) :: es). split; [etransitivity; [exact E|rewrite <- app_assoc; reflexivity]|split].
      * intros key [<-|J]; [exists k; reflexivity|apply B; exact J].
      * intros g. cbn [all_notes]. destruct (text_dec k (txt "processing_parameters")) as [X|_]; [elim NK; exact X|]. cbn [app].
        destruct C as [[-> (l & ->)]|[->|[T RF]]].
        -- rewrite refs_note. cbn [bindR]. rewrite A. apply f_equal. destruct (text_dec (txt "remote_references") (txt "remote_references")) as [_|X]; [|elim X; reflexivity].
           destruct (in_dec text_dec (txt "remote_references") [txt "processing_parameters"; txt "remote_references"; txt "runs_processed"]) as [_|X]; [|elim X; right; left; reflexivity].
           unfold add_refs, plus. cbn [g_params g_refs g_runs g_processed g_log]. rewrite app_assoc. reflexivity.
        -- rewrite runs_note. cbn [bindR]. rewrite A. apply f_equal. destruct (text_dec (txt "runs_processed") (txt "remote_references")) as [X|_]; [discriminate X|].
           destruct (in_dec text_dec (txt "runs_processed") [txt "processing_parameters"; txt "remote_references"; txt "runs_processed"]) as [_|X]; [reflexivity|elim X; right; right; left; reflexivity].
        -- rewrite field_note by assumption. cbn [bindR]. rewrite A. apply f_equal.
           assert (Q : forall w, In w [txt "provenance"; txt "transfer_function."; txt "processing_parameters"; txt "remote_references"; txt "runs_processed"] -> k <> w) by (intros w I ->; apply (proj2 T w I); exists [], []; rewrite app_nil_r; reflexivity).
           destruct (text_dec k (txt "remote_references")) as [X|_]; [exfalso; revert X; apply Q; cbn; tauto|].
           destruct (in_dec text_dec k [txt "processing_parameters"; txt "remote_references"; txt "runs_processed"]) as [X|_]; [exfalso; destruct X as [X|[X|[X|[]]]]; symmetry in X; revert X; apply Q; cbn; tauto|].
           cbn [map fst snd app]. unfold plus. cbn [g_params g_refs g_runs g_processed g_log]. rewrite <- app_assoc. reflexivity.
Qed.
Definition prov_log (fs : list (text * value)) : list (place * text * value) := map (fun kv => (OfStation, txt "provenance." ++ fst kv, snd kv)) (given_fields fs).
Lemma all_provenance fs : forall g, (forall k v, In (k, v) fs -> given v -> small k /\ refuse OfStation (txt "provenance." ++ k) v = None) ->
  all_notes refuse (map (fun kv => (txt "provenance." ++ fst kv, snd kv)) (given_fields fs)) g = Ok (plus g [] [] (prov_log fs)).
Proof.
  induction fs as [|[k v] fs IH]; intros g H; [cbn; rewrite plus_nil; reflexivity|]. unfold prov_log. cbn [given_fields filter snd]. fold (given_fields fs). destruct (is_given v) eqn:G; [|apply IH; intros k' v' I; apply H; right; exact I].
  cbn [map fst snd all_notes]. destruct (H k v (or_introl eq_refl) G) as [S R]. assert (L : lower (txt "provenance." ++ k) = txt "provenance." ++ k) by (rewrite lower_app, (small_lower k S); reflexivity).
  rewrite provenance_note; [|exact G|rewrite L; exact R|rewrite L; exists [], ("."%char :: k); reflexivity]. cbn [bindR]. rewrite IH by (intros k' v' I; apply H; right; exact I). rewrite L. f_equal. unfold plus. cbn [g_params g_refs g_runs g_processed g_log]. rewrite <- app_assoc. reflexivity.
Qed.
End TF.
