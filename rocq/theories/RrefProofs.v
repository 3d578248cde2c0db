From Verif Require Import PyBase PyFacts PyText TextFacts LayModel RrefModel RrefSpec.
Local Open Scope list_scope.

Lemma key_value_says p k v : key_value p = Some (k, v) <-> says p k v.
Proof.
  unfold key_value, says. split.
  - destruct (split1 "=" p) as [a [b|]] eqn:E.
    + intros H. injection H as <- <-. apply split1_Some in E. destruct E as [-> N]. exists a, b. split; [reflexivity|]. split; [reflexivity|]. left. split; [reflexivity|exact N].
    + apply split1_None in E. destruct E as [_ NE]. destruct (split1 ":" p) as [a' [b|]] eqn:E2; [|discriminate].
      intros H. injection H as <- <-. apply split1_Some in E2. destruct E2 as [E2 N]. exists a', b. split; [reflexivity|]. split; [reflexivity|]. right. repeat split; assumption.
  - intros (a & b & <- & <- & [[-> N]|(-> & N & NE)]).
    + rewrite (split1_app "=" a b N). reflexivity.
    + rewrite (split1_no "=" _ NE), (split1_app ":" a b N). reflexivity.
Qed.
Lemma key_value_none p : key_value p = None -> forall k v, ~ says p k v.
Proof. intros N k v S. apply key_value_says in S. congruence. Qed.

Section Proofs.
Variables (notes extra : Type) (put_note : text -> text -> notes -> notes) (note_pairs : notes -> list (text * text))
          (put_extra : text -> text -> extra -> extra) (is_number : text -> option text).
Notation take_param := (take_param notes extra put_note put_extra is_number).
Notation set_station := (set_station notes extra put_note put_extra is_number).
Notation get_station := (get_station notes extra note_pairs).

(** ** The id of the remote site *)
Lemma put_site_id k v s s' : put_site is_number k v s = Some s' -> k <> txt "remote_info.site.id" -> s_id s' = s_id s.
Proof.
  unfold put_site. intros H N. destruct (text_eqb k (txt "remote_info.site.id")) eqn:E; [apply text_eqb_eq in E; contradiction|].
  repeat (match type of H with context [if ?b then _ else _] => destruct b end; try (injection H as <-; reflexivity)); try discriminate H;
  destruct (is_number v); injection H as <-; reflexivity.
Qed.

Lemma site_after ps : forall i, ends_with_id ps (s_id (i_site _ _ i)) (s_id (i_site _ _ (fold_left take_param ps i))).
Proof.
  induction ps as [|p ps IH]; intros i; [constructor|]. cbn [fold_left]. specialize (IH (take_param i p)).
  destruct (key_value p) as [[k v]|] eqn:KV.
  - destruct (text_dec k (txt "remote_info.site.id")) as [-> |N].
    + assert (T : take_param i p = mkInfo _ _ (i_tag _ _ i) (if forallb alnum v then
         mkSite (s_acquired_by (i_site _ _ i)) (s_country (i_site _ _ i)) v (s_latitude (i_site _ _ i)) (s_name (i_site _ _ i)) (s_project (i_site _ _ i)) (s_runs (i_site _ _ i)) (s_survey (i_site _ _ i))
         else i_site _ _ i) (i_notes _ _ i) (i_extra _ _ i)).
      { unfold RrefModel.take_param. rewrite KV. reflexivity. }
      apply key_value_says in KV. destruct (forallb alnum v) eqn:A.
      * apply (id_said p ps _ v _ KV A). rewrite T in IH at 1. exact IH.
      * apply (id_refused p ps _ v _ KV A). rewrite T in IH at 1. exact IH.
    + apply not_said.
      * intros w W. apply key_value_says in W. congruence.
      * assert (E : s_id (i_site _ _ (take_param i p)) = s_id (i_site _ _ i)).
        { unfold RrefModel.take_param. rewrite KV. destruct (contains _ k); [reflexivity|]. destruct (put_site is_number k v (i_site _ _ i)) eqn:P; [|reflexivity].
          exact (put_site_id _ _ _ _ P N). }
        rewrite E in IH. exact IH.
  - apply not_said; [exact (key_value_none p KV _)|]. assert (E : take_param i p = i) by (unfold RrefModel.take_param; rewrite KV; reflexivity). rewrite E in IH at 1. exact IH.
Qed.

(** ** The remote site *)
Lemma key_value_render g k v : ~ In "="%char g -> ~ In "="%char k -> strip (g ++ k ++ [" "%char]) = g ++ k -> fine v ->
  key_value (render g (k, v)) = Some (g ++ k, v).
Proof.
  intros NG NK SK SV. apply key_value_says. exists (g ++ k ++ [" "%char]), (" "%char :: v). split; [exact SK|]. split.
  - unfold fine in SV. rewrite <- SV at 2. reflexivity.
  - left. split.
    + unfold render. cbn [fst snd]. change (txt " = ") with [" "; "="; " "]%char. rewrite <- !app_assoc. reflexivity.
    + intros I. apply in_app_or in I. destruct I as [I|I]; [exact (NG I)|]. apply in_app_or in I. destruct I as [I|[I|[]]]; [exact (NK I)|discriminate I].
Qed.

Definition with_site (s : site) (i : info notes extra) : info notes extra := mkInfo _ _ (i_tag _ _ i) s (i_notes _ _ i) (i_extra _ _ i).
Definition grp : text := txt "remote_info.site.".
Lemma take_site i k v s : ~ In "="%char k -> strip (grp ++ k ++ [" "%char]) = grp ++ k -> fine v -> contains (txt "remote_info.field_notes") (grp ++ k) = false ->
  put_site is_number (grp ++ k) v (i_site _ _ i) = Some s -> take_param i (render grp (k, v)) = with_site s i.
Proof.
  intros NK SK SV NF P. unfold RrefModel.take_param. rewrite (key_value_render grp k v); [|apply has_char_notIn; reflexivity|exact NK|exact SK|exact SV].
  rewrite NF, P. reflexivity.
Qed.

(** One text of the site *)
Lemma take_pair k v i f : ~ In "="%char k -> strip (grp ++ k ++ [" "%char]) = grp ++ k -> fine v -> contains (txt "remote_info.field_notes") (grp ++ k) = false ->
  put_site is_number (grp ++ k) v (i_site _ _ i) = Some (f v) -> f (s_id (i_site _ _ i)) = f (s_id (i_site _ _ i)) ->
  fold_left take_param (map (render grp) (pair k v)) i = if is_null v then i else with_site (f v) i.
Proof.
  intros NK SK SV NF P _. unfold pair. destruct (is_null v); [reflexivity|]. cbn [map fold_left]. apply take_site; assumption.
Qed.

Definition read_site (o s : site) : site :=
  mkSite (carried (s_acquired_by o) (s_acquired_by s)) (carried (s_country o) (s_country s)) (carried (s_id o) (s_id s)) (s_latitude s)
    (carried (s_name o) (s_name s)) (carried (s_project o) (s_project s))
    (match s_runs o with Some l => Some (read_runs (show_runs l)) | None => s_runs s end) (carried (s_survey o) (s_survey s)).

Lemma alnum_trimmed v f : (forall c, f c = true -> is_space c = false) -> forallb f v = true -> strip v = v.
Proof.
  intros H F. apply strip_trimmed. rewrite forallb_forall in F. split.
  - intros c r ->. apply H, F. left. reflexivity.
  - intros c r ->. apply H, F. apply in_or_app. right. left. reflexivity.
Qed.
Lemma alnum_space c : alnum c = true -> is_space c = false.
Proof. revert c. assert (A : forall c, (negb (alnum c) || negb (is_space c))%bool = true) by (apply ascii_forall; vm_compute; reflexivity).
  intros c H. specialize (A c). rewrite H in A. cbn in A. apply Bool.negb_true_iff in A. exact A. Qed.
Lemma project_space c : project_char c = true -> is_space c = false.
Proof. revert c. assert (A : forall c, (negb (project_char c) || negb (is_space c))%bool = true) by (apply ascii_forall; vm_compute; reflexivity).
  intros c H. specialize (A c). rewrite H in A. cbn in A. apply Bool.negb_true_iff in A. exact A. Qed.

Lemma show_runs_fine l : fine (show_runs l).
Proof.
  unfold fine, show_runs. apply strip_trimmed. split.
  - intros c r E. injection E as <- _. reflexivity.
  - intros c r E. change (txt "[" ++ join (txt ", ") (map quoted l) ++ txt "]") with (txt "[" ++ join (txt ", ") (map quoted l) ++ ["]"%char]) in E.
    rewrite app_assoc in E. apply app_inj_tail in E. destruct E as [_ <-]. reflexivity.
Qed.

Ltac key := first [apply has_char_notIn; reflexivity | reflexivity | assumption].
Lemma one_pair k v i s' : ~ In "="%char k -> strip (grp ++ k ++ [" "%char]) = grp ++ k -> contains (txt "remote_info.field_notes") (grp ++ k) = false -> fine v ->
  put_site is_number (grp ++ k) v (i_site _ _ i) = Some s' ->
  fold_left take_param (map (render grp) (pair k v)) i = if is_null v then i else with_site s' i.
Proof. intros NK SK NF SV P. unfold pair. destruct (is_null v); [reflexivity|]. cbn [map fold_left]. apply take_site; assumption. Qed.

Lemma take_pairs o i : site_ok o -> fold_left take_param (map (render grp) (site_pairs o)) i = with_site (read_site o (i_site _ _ i)) i.
Proof.
  intros (F1 & F2 & F3 & F4 & A & P). unfold site_pairs. rewrite !map_app, !fold_left_app.
  assert (SI : fine (s_id o)) by (apply (alnum_trimmed _ alnum alnum_space A)).
  assert (SP : fine (s_project o)) by (apply (alnum_trimmed _ project_char project_space P)).
  destruct i as [tag s n x]. destruct s as [a c d la na pr ru su].
  rewrite (one_pair (txt "acquired_by") _ _ (mkSite (s_acquired_by o) c d la na pr ru su)) by key.
  assert (E1 : (if is_null (s_acquired_by o) then mkInfo _ _ tag (mkSite a c d la na pr ru su) n x else with_site (mkSite (s_acquired_by o) c d la na pr ru su) (mkInfo _ _ tag (mkSite a c d la na pr ru su) n x)) =
    mkInfo _ _ tag (mkSite (carried (s_acquired_by o) a) c d la na pr ru su) n x) by (unfold carried; destruct (is_null (s_acquired_by o)); reflexivity).
  rewrite E1. clear E1. set (a' := carried (s_acquired_by o) a) in *.
  rewrite (one_pair (txt "country") _ _ (mkSite a' (s_country o) d la na pr ru su)) by key.
  assert (E1 : (if is_null (s_country o) then mkInfo _ _ tag (mkSite a' c d la na pr ru su) n x else with_site (mkSite a' (s_country o) d la na pr ru su) (mkInfo _ _ tag (mkSite a' c d la na pr ru su) n x)) =
    mkInfo _ _ tag (mkSite a' (carried (s_country o) c) d la na pr ru su) n x) by (unfold carried; destruct (is_null (s_country o)); reflexivity).
  rewrite E1. clear E1. set (c' := carried (s_country o) c) in *.
  rewrite (one_pair (txt "id") _ _ (mkSite a' c' (s_id o) la na pr ru su)); try key.
  2:{ cbn [i_site]. change (put_site is_number (grp ++ txt "id") (s_id o) (mkSite a' c' d la na pr ru su)) with
        (Some (if forallb alnum (s_id o) then mkSite a' c' (s_id o) la na pr ru su else mkSite a' c' d la na pr ru su)). rewrite A. reflexivity. }
  assert (E1 : (if is_null (s_id o) then mkInfo _ _ tag (mkSite a' c' d la na pr ru su) n x else with_site (mkSite a' c' (s_id o) la na pr ru su) (mkInfo _ _ tag (mkSite a' c' d la na pr ru su) n x)) =
    mkInfo _ _ tag (mkSite a' c' (carried (s_id o) d) la na pr ru su) n x) by (unfold carried; destruct (is_null (s_id o)); reflexivity).
  rewrite E1. clear E1. set (d' := carried (s_id o) d) in *.
  rewrite (one_pair (txt "name") _ _ (mkSite a' c' d' la (s_name o) pr ru su)) by key.
  assert (E1 : (if is_null (s_name o) then mkInfo _ _ tag (mkSite a' c' d' la na pr ru su) n x else with_site (mkSite a' c' d' la (s_name o) pr ru su) (mkInfo _ _ tag (mkSite a' c' d' la na pr ru su) n x)) =
    mkInfo _ _ tag (mkSite a' c' d' la (carried (s_name o) na) pr ru su) n x) by (unfold carried; destruct (is_null (s_name o)); reflexivity).
  rewrite E1. clear E1. set (na' := carried (s_name o) na) in *.
  rewrite (one_pair (txt "project") _ _ (mkSite a' c' d' la na' (s_project o) ru su)); try key.
  2:{ cbn [i_site]. change (put_site is_number (grp ++ txt "project") (s_project o) (mkSite a' c' d' la na' pr ru su)) with
        (Some (if forallb project_char (s_project o) then mkSite a' c' d' la na' (s_project o) ru su else mkSite a' c' d' la na' pr ru su)). rewrite P. reflexivity. }
  assert (E1 : (if is_null (s_project o) then mkInfo _ _ tag (mkSite a' c' d' la na' pr ru su) n x else with_site (mkSite a' c' d' la na' (s_project o) ru su) (mkInfo _ _ tag (mkSite a' c' d' la na' pr ru su) n x)) =
    mkInfo _ _ tag (mkSite a' c' d' la na' (carried (s_project o) pr) ru su) n x) by (unfold carried; destruct (is_null (s_project o)); reflexivity).
  rewrite E1. clear E1. set (pr' := carried (s_project o) pr) in *.
  assert (E2 : fold_left take_param (map (render grp) (match s_runs o with Some l => [(txt "run_list", show_runs l)] | None => [] end)) (mkInfo _ _ tag (mkSite a' c' d' la na' pr' ru su) n x) =
    mkInfo _ _ tag (mkSite a' c' d' la na' pr' (match s_runs o with Some l => Some (read_runs (show_runs l)) | None => ru end) su) n x).
  { destruct (s_runs o) as [l|]; [|reflexivity]. cbn [map fold_left].
    rewrite (take_site _ (txt "run_list") (show_runs l) (mkSite a' c' d' la na' pr' (Some (read_runs (show_runs l))) su)); try key; try reflexivity; apply show_runs_fine. }
  rewrite E2. clear E2. set (ru' := match s_runs o with Some l => Some (read_runs (show_runs l)) | None => ru end) in *.
  rewrite (one_pair (txt "survey") _ _ (mkSite a' c' d' la na' pr' ru' (s_survey o))) by key.
  unfold with_site, read_site, carried. cbn [i_tag i_site i_notes i_extra s_acquired_by s_country s_id s_latitude s_name s_project s_runs s_survey].
  destruct (is_null (s_survey o)); reflexivity.
Qed.

(** ** The field notes of the remote site leave the site alone *)
Lemma rstrip_keep g c x : is_space c = false -> exists y, rstrip (g ++ c :: x) = g ++ c :: y.
Proof.
  intros H. unfold rstrip. destruct (lstrip_decomp (rev x)) as (sp & E & S). rewrite rev_app_distr. cbn [rev]. rewrite E, <- !app_assoc.
  rewrite (lstrip_spaces sp _ S). destruct (lstrip (rev x)) as [|z r] eqn:Z.
  - exists []. cbn [app]. rewrite lstrip_fixed; [|intros c0 r0 E0; injection E0 as <- _; exact H]. cbn [rev]. rewrite rev_involutive. reflexivity.
  - exists (rev (z :: r)). rewrite lstrip_fixed; [|intros c0 r0 E0; cbn in E0; injection E0 as <- _; exact (lstrip_head _ _ _ Z)].
    rewrite !rev_app_distr, rev_involutive. cbn [rev app]. rewrite <- !app_assoc. reflexivity.
Qed.
Definition ngrp : text := txt "remote_info.field_notes.".
Lemma note_site kv i : i_site _ _ (take_param i (render ngrp kv)) = i_site _ _ i.
Proof.
  destruct kv as [k v]. unfold RrefModel.take_param.
  destruct (key_value (render ngrp (k, v))) as [[k' v']|] eqn:KV; [|reflexivity].
  assert (C : contains (txt "remote_info.field_notes") k' = true).
  { apply key_value_says in KV. destruct KV as (a & b & <- & _ & [[E N]|(E & _ & NE)]).
    - assert (exists x, a = ngrp ++ x) as (x & ->).
      { unfold render in E. cbn [fst snd] in E. destruct (split1 "=" k) as [k1 [k2|]] eqn:S.
        - apply split1_Some in S. destruct S as [-> NS]. exists k1.
          assert (E2 : split1 "=" (a ++ "="%char :: b) = split1 "=" ((ngrp ++ k1) ++ "="%char :: (k2 ++ txt " = " ++ v))) by (rewrite <- E, <- !app_assoc; reflexivity).
          rewrite !split1_app in E2; [congruence| |exact N]. intros I. apply in_app_or in I. destruct I as [I|I]; [|exact (NS I)]. revert I. apply has_char_notIn. reflexivity.
        - apply split1_None in S. destruct S as [_ NS]. exists (k ++ [" "%char]).
          assert (E2 : split1 "=" (a ++ "="%char :: b) = split1 "=" ((ngrp ++ k ++ [" "%char]) ++ "="%char :: (" "%char :: v))) by (rewrite <- E, <- !app_assoc; reflexivity).
          rewrite !split1_app in E2; [congruence| |exact N]. intros I. apply in_app_or in I. destruct I as [I|I]; [revert I; apply has_char_notIn; reflexivity|].
          apply in_app_or in I. destruct I as [I|[I|[]]]; [exact (NS I)|discriminate I]. }
      unfold strip. rewrite lstrip_fixed by (intros c r R; injection R as <- _; reflexivity).
      destruct (rstrip_keep (txt "remote_info.field_note") "s"%char ("."%char :: x) eq_refl) as (y & Y).
      change (ngrp ++ x) with (txt "remote_info.field_note" ++ "s"%char :: "."%char :: x). rewrite Y. apply contains_spec. exists [], y. reflexivity.
    - exfalso. apply NE. unfold render. cbn [fst snd]. apply in_or_app. right. apply in_or_app. right. right. left. reflexivity. }
  rewrite C. reflexivity.
Qed.
Lemma notes_site kvs : forall i, i_site _ _ (fold_left take_param (map (render ngrp) kvs) i) = i_site _ _ i.
Proof. induction kvs as [|kv kvs IH]; intros i; [reflexivity|]. cbn [map fold_left]. rewrite IH. apply note_site. Qed.
End Proofs.

(** ** Run lists *)
Lemma read_runs_join l : Forall run_name l -> read_runs (join (txt " ") l) = l.
Proof.
  intros F.
  assert (NC : forall c, (forall s, run_name s -> ~ In c s) -> c <> " "%char -> ~ In c (join (txt " ") l)).
  { intros c H NB. induction F as [|x r X R IH]; [intros []|]. destruct r as [|y r].
    - cbn [join]. apply H. exact X.
    - change (join (txt " ") (x :: y :: r)) with (x ++ " "%char :: join (txt " ") (y :: r)). intros I. apply in_app_or in I. destruct I as [I|[I|I]]; [exact (H x X I)|congruence|exact (IH I)]. }
  unfold read_runs.
  assert (B : has_char "[" (join (txt " ") l) = false) by (apply has_char_notIn, NC; [intros s (_ & _ & _ & H & _); exact H|discriminate]).
  assert (C : has_char "," (join (txt " ") l) = false) by (apply has_char_notIn, NC; [intros s (_ & _ & H & _); exact H|discriminate]).
  rewrite B. cbn [andb]. rewrite C. destruct l as [|x [|y r]].
  - reflexivity.
  - inversion F as [|? ? (NE & NB & _) _]; subst. cbn [join]. apply has_char_notIn in NB. rewrite NB. destruct x; [congruence|reflexivity].
  - assert (S : has_char " " (join (txt " ") (x :: y :: r)) = true).
    { apply has_char_In. change (join (txt " ") (x :: y :: r)) with (x ++ " "%char :: join (txt " ") (y :: r)). apply in_or_app. right. left. reflexivity. }
    rewrite S. apply split_join; [discriminate|]. intros s I. rewrite Forall_forall in F. apply (F s I).
Qed.
