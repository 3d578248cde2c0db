(** Lemmas for C54, C55 and C80 to C83. *)
From Verif Require Import PyBase PyFacts PyText TextFacts PyNum IsoModel IsoProofs PyFloat PyFloatFacts PyRepr PyReprFacts EdiProofs EnumModel ZmmModel ZmmProofs SxmlModel SxmlSpec.
Local Open Scope list_scope.

(** ** Dictionaries *)
Lemma dset_all k l : forall (d : list (text * text)) v, dget text_dec v (fold_left (fun d v => dset text_dec v k d) l d) = if in_dec text_dec v l then Some k else dget text_dec v d.
Proof.
  induction l as [|x l IH]; intros d v; [reflexivity|]. cbn [fold_left]. rewrite IH. destruct (in_dec text_dec v l) as [I|N]; destruct (in_dec text_dec v (x :: l)) as [I'|N']; try reflexivity.
  - exfalso. apply N'. right. exact I.
  - destruct I' as [->|I']; [apply dget_dset_eq|contradiction].
  - apply dget_dset_neq. intros ->. apply N'. left. reflexivity.
Qed.
Lemma flip_entry_get e d v : (exists k, gives e k v /\ dget text_dec v (flip_entry d e) = Some k) \/ ((forall k, ~ gives e k v) /\ dget text_dec v (flip_entry d e) = dget text_dec v d).
Proof.
  destruct e as [ok [|s|l]]; unfold flip_entry; cbn [fst snd].
  - right. split; [intros k G; inversion G|reflexivity].
  - destruct (text_eqb s (txt "special")) eqn:E; [apply text_eqb_eq in E; right; split; [intros k G; inversion G; congruence|reflexivity]|].
    assert (NS : s <> txt "special") by (intros X; apply text_eqb_eq in X; congruence). destruct ok as [k|]; [|right; split; [intros k G; inversion G|reflexivity]].
    destruct (text_dec v s) as [->|N]; [left; exists k; split; [constructor; exact NS|apply dget_dset_eq]|]. right. split; [intros k' G; inversion G; congruence|apply dget_dset_neq; exact N].
  - destruct ok as [k|]; [|right; split; [intros k G; inversion G|reflexivity]]. rewrite dset_all. destruct (in_dec text_dec v l) as [I|N]; [left; exists k; split; [constructor; exact I|reflexivity]|right; split; [intros k' G; inversion G; contradiction|reflexivity]].
Qed.
Lemma gives_fun e k k' v : gives e k v -> gives e k' v -> k = k'.
Proof. intros G H. inversion G; subst; inversion H; subst; reflexivity. Qed.
Lemma flip_dict_get d : forall v k, dget text_dec v (flip_dict d) = Some k <-> last_gives d v k.
Proof.
  unfold flip_dict. induction d as [|e d IH] using rev_ind; intros v k; [split; [discriminate|intros (a & e & b & E & _); destruct a; discriminate E]|].
  rewrite fold_left_app. cbn [fold_left]. destruct (flip_entry_get e (fold_left flip_entry d []) v) as [(k0 & G & E)|(N & E)]; rewrite E.
  - split.
    + intros X. injection X as <-. exists d, e, []. split; [reflexivity|]. split; [exact G|intros e' k' []].
    + intros (a & e0 & b & X & G0 & L). destruct b as [|y b] using rev_ind.
      * apply app_inj_tail in X as [_ <-]. rewrite (gives_fun _ _ _ _ G G0). reflexivity.
      * exfalso. change (a ++ e0 :: b ++ [y]) with (a ++ (e0 :: b) ++ [y]) in X. rewrite app_assoc in X. apply app_inj_tail in X as [_ <-]. apply (L e k0); [apply in_or_app; right; left; reflexivity|exact G].
  - rewrite IH. split; intros (a & e0 & b & X & G0 & L).
    + exists a, e0, (b ++ [e]). split; [rewrite X, <- app_assoc; reflexivity|]. split; [exact G0|]. intros e' k' I. apply in_app_or in I as [I|[<-|[]]]; [exact (L e' k' I)|exact (N k')].
    + destruct b as [|y b] using rev_ind; [apply app_inj_tail in X as [_ <-]; destruct (N k G0)|]. clear IHb.
      change (a ++ e0 :: b ++ [y]) with (a ++ (e0 :: b) ++ [y]) in X. rewrite app_assoc in X. apply app_inj_tail in X as [-> _]. exists a, e0, b. split; [reflexivity|]. split; [exact G0|]. intros e' k' I. apply L. apply in_or_app. left. exact I.
Qed.
(** ** Texts *)
Lemma word_like_trimmed s : word_like s -> trimmed s.
Proof. intros (_ & A & B). split; [exact A|intros c r; apply B]. Qed.
Lemma split1_colon a b : ~ In ":"%char a -> split1 ":" (a ++ ":"%char :: b) = (a, Some b).
Proof. apply split1_app. Qed.
Lemma contains_no p c s : In c p -> ~ In c s -> contains p s = false.
Proof. intros I N. destruct (contains p s) eqn:E; [|reflexivity]. apply contains_spec in E as (a & b & ->). exfalso. apply N. apply in_or_app. right. apply in_or_app. left. exact I. Qed.
Lemma pair_text_eq k v : pair_text (k, v) = k ++ ":"%char :: " "%char :: v.
Proof. reflexivity. Qed.
Lemma pairs_text_cons kv kvs : kvs <> [] -> pairs_text (kv :: kvs) = pair_text kv ++ ","%char :: " "%char :: pairs_text kvs.
Proof. intros N. unfold pairs_text. cbn [map]. destruct kvs as [|kv2 kvs]; [congruence|]. cbn [map join]. reflexivity. Qed.
Lemma pairs_text_head kvs : good_pairs kvs -> kvs <> [] -> word_like (pairs_text kvs).
Proof.
  intros [GK GV] NE. unfold word_like. split; [|split].
  - destruct kvs as [|[k v] kvs]; [congruence|]. inversion GK; subst. destruct H1 as ((K & _) & _). cbn [fst] in K. destruct k; [congruence|]. unfold pairs_text. cbn [map]. destruct kvs; discriminate.
  - intros c r E. destruct kvs as [|[k v] kvs]; [congruence|]. inversion GK; subst. destruct H1 as ((K & K1 & _) & _). cbn [fst] in K, K1. destruct k as [|x k]; [congruence|]. assert (c = x) as -> by (unfold pairs_text in E; cbn [map] in E; destruct kvs; injection E as <- _; reflexivity). exact (K1 x k eq_refl).
  - clear GK. revert GV NE. induction kvs as [|[k v] kvs IH]; intros GV NE r c E; [congruence|]. cbn [map good_values snd] in GV. destruct GV as ((V & _ & VL) & _ & _ & GV). destruct kvs as [|kv2 kvs].
    + unfold pairs_text in E. cbn [map join] in E. unfold pair_text in E. cbn [fst snd] in E. destruct (@exists_last _ v V) as (v' & x & ->). rewrite !app_assoc in E. apply app_inj_tail in E as [_ <-]. exact (VL v' x eq_refl).
    + rewrite pairs_text_cons in E by discriminate. assert (NE2 : pairs_text (kv2 :: kvs) <> []) by (destruct kv2; unfold pairs_text; cbn [map]; destruct kvs; unfold pair_text; cbn [fst snd join map]; intros X; apply app_eq_nil in X as [_ X]; discriminate X).
      destruct (@exists_last _ _ NE2) as (u & x & U). rewrite U in E. replace (pair_text (k, v) ++ ","%char :: " "%char :: u ++ [x]) with ((pair_text (k, v) ++ ","%char :: " "%char :: u) ++ [x]) in E by (rewrite <- app_assoc; reflexivity). apply app_inj_tail in E as [_ <-]. exact (IH GV ltac:(discriminate) u x U).
Qed.
Lemma strip_space s : word_like s -> strip (" "%char :: s) = s.
Proof. intros W. pose proof (strip_pad [" "%char] s [] eq_refl eq_refl (word_like_trimmed s W)) as E. rewrite app_nil_r in E. exact E. Qed.
(** [w ++ ":"] is not in the text of pairs whose keys do not have [w]. *)
Lemma no_key_word w kvs : ~ In " "%char w -> ~ In ","%char w -> w <> [] -> good_pairs kvs -> Forall (fun kv => contains w (fst kv) = false) kvs -> contains (w ++ [":"%char]) (pairs_text kvs) = false.
Proof.
  intros NS NC NE. induction kvs as [|[k v] kvs IH]; intros [GK GV] F; [destruct w as [|c w]; [congruence|reflexivity]|].
  inversion GK; subst. inversion F; subst. cbn [map good_values snd fst] in *. destruct GV as (W & VC & VM & GV).
  assert (P1 : ~ In " "%char (w ++ [":"%char])) by (intros I; apply in_app_or in I as [I|[I|[]]]; [contradiction|discriminate I]). assert (P2 : ~ In ","%char (w ++ [":"%char])) by (intros I; apply in_app_or in I as [I|[I|[]]]; [contradiction|discriminate I]).
  assert (K0 : contains (w ++ [":"%char]) (k ++ [":"%char]) = false).
  { destruct (contains (w ++ [":"%char]) (k ++ [":"%char])) eqn:E; [|reflexivity]. apply contains_spec in E as (a & b & E). destruct b as [|y b] using rev_ind.
    - rewrite app_nil_r, app_assoc in E. apply app_inj_tail in E as [-> _]. assert (C : contains w (a ++ w) = true) by (apply contains_spec; exists a, []; rewrite app_nil_r; reflexivity). congruence.
    - rewrite !app_assoc in E. apply app_inj_tail in E as [E _]. exfalso. destruct H1 as (_ & KC & _). apply KC. rewrite E. apply in_or_app. left. apply in_or_app. right. left. reflexivity. }
  assert (V0 : contains (w ++ [":"%char]) v = false) by (apply (contains_no _ ":"%char); [apply in_or_app; right; left; reflexivity|exact VC]).
  destruct kvs as [|kv2 kvs].
  - unfold pairs_text. cbn [map join]. rewrite pair_text_eq. replace (k ++ ":"%char :: " "%char :: v) with ((k ++ [":"%char]) ++ " "%char :: v) by (rewrite <- app_assoc; reflexivity). rewrite contains_sep by exact P1. rewrite K0, V0. reflexivity.
  - rewrite pairs_text_cons by discriminate. rewrite pair_text_eq. replace ((k ++ ":"%char :: " "%char :: v) ++ ","%char :: " "%char :: pairs_text (kv2 :: kvs)) with ((k ++ [":"%char]) ++ " "%char :: v ++ ","%char :: [] ++ " "%char :: pairs_text (kv2 :: kvs)) by (rewrite <- !app_assoc; reflexivity).
    set (p := w ++ [":"%char]) in *. rewrite (contains_sep p (k ++ [":"%char]) " "%char) by exact P1. rewrite (contains_sep p v ","%char) by exact P2. rewrite (contains_sep p [] " "%char) by exact P1. rewrite K0, V0. rewrite IH; [|split; assumption|assumption]. unfold p. destruct w; [congruence|reflexivity].
Qed.
Lemma not_author kvs : good_pairs kvs -> no_author kvs -> (contains (txt "author:") (pairs_text kvs) && contains (txt "comments:") (pairs_text kvs))%bool = false.
Proof.
  intros G [F|F]; apply andb_false_iff; [left|right].
  - change (txt "author:") with (txt "author" ++ [":"%char]). apply no_key_word; [| |discriminate|exact G|exact F]; intros I; vm_compute in I; repeat (destruct I as [I|I]; [discriminate I|]); exact I.
  - change (txt "comments:") with (txt "comments" ++ [":"%char]). apply no_key_word; [| |discriminate|exact G|exact F]; intros I; vm_compute in I; repeat (destruct I as [I|I]; [discriminate I|]); exact I.
Qed.
(** ** Parsing pairs *)
Lemma good_tail kv kvs : good_pairs (kv :: kvs) -> good_pairs kvs.
Proof. intros [GK GV]. cbn [map good_values] in *. inversion GK; subst. split; [assumption|tauto]. Qed.
Lemma no_author_tail kv kvs : no_author (kv :: kvs) -> no_author kvs.
Proof. intros [F|F]; inversion F; subst; [left|right]; assumption. Qed.
Lemma strip_lead s : word_like s -> strip (" "%char :: s) = s.
Proof. exact (strip_space s). Qed.
Lemma parse_pairs : forall fuel kvs d, good_pairs kvs -> no_author kvs -> kvs <> [] ->
  parse fuel (pairs_text kvs) d = Ok (fold_left (fun d kv => dset text_dec (fst kv) (Some (snd kv)) d) (firstn fuel kvs) d).
Proof.
  induction fuel as [|fuel IH]; intros kvs d G NA NE; [reflexivity|]. cbn [parse]. rewrite (not_author kvs G NA). destruct kvs as [|[k v] kvs]; [congruence|].
  pose proof (good_tail _ _ G) as G2. pose proof (no_author_tail _ _ NA) as NA2. destruct G as [GK GV]. cbn [map good_values fst snd] in *. inversion GK as [|? ? (WK & KC & KM) _]; subst. destruct GV as (WV & VC & VM & _).
  destruct kvs as [|kv2 kvs].
  - unfold pairs_text. cbn [map join]. rewrite pair_text_eq. rewrite split1_colon by exact KC. rewrite (split1_no ":"%char (" "%char :: v)) by (intros [I|I]; [discriminate I|contradiction]).
    rewrite strip_space by exact WV. cbn [firstn]. rewrite firstn_nil. reflexivity.
  - rewrite pairs_text_cons by discriminate. rewrite pair_text_eq. rewrite <- app_assoc. cbn [app]. rewrite split1_colon by exact KC. set (T := pairs_text (kv2 :: kvs)) in *.
    assert (VM2 : ~ In ","%char v) by (apply VM; discriminate).
    assert (CO : exists a r, split1 ":" (" "%char :: v ++ ","%char :: " "%char :: T) = (a, Some r) /\ (List.length (" "%char :: v) < List.length a)%nat).
    { unfold T. destruct kv2 as [k2 v2]. inversion GK as [|? ? _ GK2]; subst. inversion GK2 as [|? ? (_ & KC2 & _) _]; subst.
      assert (X : exists t, pairs_text ((k2, v2) :: kvs) = k2 ++ ":"%char :: t) by (destruct kvs; [exists (" "%char :: v2); reflexivity|rewrite pairs_text_cons by discriminate; rewrite pair_text_eq, <- app_assoc; eexists; reflexivity]).
      destruct X as (t & X). exists (" "%char :: v ++ ","%char :: " "%char :: k2), t. split.
      - rewrite X. replace (" "%char :: v ++ ","%char :: " "%char :: k2 ++ ":"%char :: t) with ((" "%char :: v ++ ","%char :: " "%char :: k2) ++ ":"%char :: t) by (cbn [app]; rewrite <- app_assoc; reflexivity). apply split1_app.
        intros [I|I]; [discriminate I|]. apply in_app_or in I as [I|[I|[I|I]]]; [contradiction|discriminate I|discriminate I|contradiction].
      - cbn [List.length]. rewrite app_length. cbn [List.length]. lia. }
    destruct CO as (a & r & E1 & L). rewrite E1. change (" "%char :: v ++ ","%char :: " "%char :: T) with ((" "%char :: v) ++ ","%char :: " "%char :: T). rewrite (split1_app ","%char (" "%char :: v)) by (intros [I|I]; [discriminate I|contradiction]).
    destruct (Nat.ltb_spec (List.length a) (List.length (" "%char :: v))) as [X|_]; [lia|]. unfold T. rewrite !strip_space; [|exact WV|apply pairs_text_head; [exact G2|discriminate]].
    rewrite IH; [|exact G2|exact NA2|discriminate]. reflexivity.
Qed.
Lemma fold_dset_new (kvs : list (text * text)) : forall (d : cdict), NoDup (map fst d ++ map fst kvs) ->
  fold_left (fun d kv => dset text_dec (fst kv) (Some (snd kv)) d) kvs d = d ++ as_comment kvs.
Proof.
  induction kvs as [|[k v] kvs IH]; intros d N; [cbn; rewrite app_nil_r; reflexivity|]. cbn [fold_left map fst snd] in *.
  assert (NI : ~ In k (map fst d)) by (apply NoDup_remove_2 in N; intros I; apply N; apply in_or_app; left; exact I).
  assert (DS : dset text_dec k (Some v) d = d ++ [(k, Some v)]).
  { clear -NI. induction d as [|[x y] d IHd]; [reflexivity|]. cbn [dset]. destruct (text_dec k x) as [->|_]; [exfalso; apply NI; left; reflexivity|]. rewrite IHd; [reflexivity|]. intros I. apply NI. right. exact I. }
  rewrite DS, IH; [rewrite <- app_assoc; reflexivity|]. rewrite map_app, <- app_assoc. exact N.
Qed.
Lemma find_sep p a c s : p <> [] -> contains p a = false -> ~ In c p -> find p (a ++ c :: s) = match find p s with Some n => Some (List.length a + 1 + n)%nat | None => None end.
Proof.
  intros NE. induction a as [|x a IH]; intros C N.
  - cbn [app find]. pose proof (prefix_of_sep p [] c s N) as F. cbn [app] in F. rewrite F. destruct p; [congruence|]. cbn [prefix_of List.length Nat.add]. destruct (find (a :: p) s); reflexivity.
  - rewrite contains_cons in C. apply orb_false_elim in C as [C1 C2]. cbn [app find]. assert (F : prefix_of p (x :: a ++ c :: s) = false) by (change (x :: a ++ c :: s) with ((x :: a) ++ c :: s); rewrite prefix_of_sep by exact N; exact C1). rewrite F, IH by assumption. cbn [List.length]. destruct (find p s); reflexivity.
Qed.
Lemma find_start p s : find p (p ++ s) = Some 0%nat.
Proof. assert (F : prefix_of p (p ++ s) = true) by (apply prefix_of_spec; exists s; reflexivity). destruct (p ++ s) eqn:E; cbn [find]; rewrite F; reflexivity. Qed.
