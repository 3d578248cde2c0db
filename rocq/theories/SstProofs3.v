(** Lemmas for C119: the comments of a station. *)
From Coq Require Import QArith.
From Verif Require Import PyBase PyFacts PyText TextFacts ValidatorsProofs LayModel SxmlModel SxmlSpec SxmlProofs SxmlProps SxmlProps2 SxmlProps3 SstModel SstSpec SstProofs SstProofs2.
From Coq Require Import Lia.
Local Open Scope list_scope.

Section Comments.
Variable accepts : text -> text -> bool.
Lemma take_app a b st : take_comments accepts (a ++ b) st = bindR (take_comments accepts a st) (take_comments accepts b).
Proof. revert st. induction a as [|c a IH]; intros st; [reflexivity|]. cbn [app take_comments]. destruct (take_comment accepts c st) as [x|e]; [cbn [bindR]; apply IH|reflexivity]. Qed.
Lemma note_keys_ok k : In k note_keys -> comment_key (Some (txt "mt.station." ++ k)) = txt "mt.station." ++ k /\ contains (txt "mt.run") (txt "mt.station." ++ k) = false /\
  replace (txt "summary") (txt "comments") (station_key (txt "mt.station." ++ k)) = k /\ text_eqb k (txt "comments") = false /\ text_eqb k (txt "run_list") = false /\ existsb (text_eqb k) note_keys = true.
Proof.
  intros I. unfold note_keys in I. cbn [map] in I. repeat (destruct I as [<-|I]; [repeat split; vm_compute; reflexivity|]). destruct I.
Qed.
Lemma take_note k v st acc : In k note_keys -> ~ In ":"%char v -> accepts k v = true -> take_comment accepts (Some (txt "mt.station." ++ k), v) (st, acc) = Ok (set_note k v st, acc).
Proof.
  intros I N A. destruct (note_keys_ok k I) as (K1 & K2 & K3 & K4 & K5 & K6). unfold take_comment, read_comment. cbn [fst snd]. rewrite (proj2 (C54_text v) N). cbn [bindR]. rewrite K1. cbn [fst snd]. rewrite K2, K3, K4. unfold set_key. rewrite K5, K6, A. reflexivity.
Qed.
Definition put_note (s : station) (k : text) (st : station) : station := if nonempty (note s k) then set_note k (note s k) st else st.
Lemma take_notes s acc ks : incl ks note_keys -> (forall k, In k note_keys -> nonempty (note s k) = true -> ~ In ":"%char (note s k) /\ accepts k (note s k) = true) -> forall st,
  take_comments accepts (flat_map (fun k => if nonempty (note s k) then [(Some (txt "mt.station." ++ k), note s k)] else []) ks) (st, acc) = Ok (fold_left (fun st k => put_note s k st) ks st, acc).
Proof.
  intros IN H. induction ks as [|k ks IH]; intros st; [reflexivity|]. cbn [flat_map fold_left]. unfold put_note at 2. specialize (IH (fun x J => IN x (or_intror J))). destruct (nonempty (note s k)) eqn:E; [|apply IH].
  cbn [app take_comments]. destruct (H k (IN k (or_introl eq_refl)) E) as [N A]. pose proof (take_note k (note s k) st acc (IN k (or_introl eq_refl)) N A) as TN. match type of TN with ?l = _ => match goal with |- bindR ?x _ = _ => change x with l end end. rewrite TN. cbn [bindR]. apply IH.
Qed.
Lemma put_notes_get s ks : forall st k, dget text_dec k (s_notes (fold_left (fun st k => put_note s k st) ks st)) =
  if (existsb (text_eqb k) ks && nonempty (note s k))%bool then Some (note s k) else dget text_dec k (s_notes st).
Proof.
  induction ks as [|x ks IH]; intros st k; [reflexivity|]. cbn [fold_left existsb]. rewrite IH. destruct (text_eqb k x) eqn:E.
  - apply text_eqb_eq in E. subst x. cbn [orb andb]. unfold put_note. destruct (nonempty (note s k)); [|rewrite andb_false_r; reflexivity]. rewrite andb_true_r. destruct (existsb (text_eqb k) ks); [reflexivity|]. cbn [set_note s_notes]. rewrite dget_dset_eq. reflexivity.
  - cbn [orb]. destruct (existsb (text_eqb k) ks && nonempty (note s k))%bool; [reflexivity|]. unfold put_note. destruct (nonempty (note s x)); [|reflexivity]. cbn [set_note s_notes]. rewrite dget_dset_neq; [reflexivity|]. intros X. subst x. rewrite text_eqb_refl in E. discriminate E.
Qed.
Lemma put_notes_rest s ks : forall st, let st' := fold_left (fun st k => put_note s k st) ks st in
  s_comment st' = s_comment st /\ s_author st' = s_author st /\ s_runs st' = s_runs st.
Proof.
  induction ks as [|k ks IH]; intros st; [repeat split|]. cbn [fold_left]. destruct (IH (put_note s k st)) as (A & B & C). rewrite A, B, C. unfold put_note. destruct (nonempty (note s k)); repeat split.
Qed.
(** The list of runs *)
Lemma ids_list ids : ids <> [] -> Forall an_id ids -> ~ In ":"%char (join (txt ", ") ids) /\ map strip (split_on "," (join (txt ", ") ids)) = ids.
Proof.
  induction ids as [|x l IH]; intros NE F; [congruence|]. inversion F as [|? ? A F']; subst. assert (NC : ~ In ","%char x) by (apply (id_no _ _ A); reflexivity). assert (CA : ~ In ":"%char x) by (apply (id_no _ _ A); reflexivity). pose proof (strip_trimmed _ (id_trimmed _ A)) as ST. destruct l as [|y l].
  - cbn [join]. split; [exact CA|]. rewrite split_on_no by exact NC. cbn [map]. rewrite ST. reflexivity.
  - destruct (IH ltac:(discriminate) F') as [C S]. change (join (txt ", ") (x :: y :: l)) with (x ++ ","%char :: " "%char :: join (txt ", ") (y :: l)). split.
    + intros I. apply in_app_or in I. destruct I as [I|[I|[I|I]]]; [exact (CA I)|discriminate I|discriminate I|exact (C I)].
    + rewrite split_on_app by exact NC. cbn [map]. rewrite ST. f_equal. rewrite <- S at 2.
      change (split_on "," (" "%char :: join (txt ", ") (y :: l))) with (match split_on "," (join (txt ", ") (y :: l)) with w :: ws => (" "%char :: w) :: ws | [] => [[" "%char]] end).
      destruct (split_on "," (join (txt ", ") (y :: l))) as [|w ws] eqn:E; [destruct (split_on_nonnil "," _ E)|]. reflexivity.
Qed.
Lemma not_null ids : ids <> [] -> Forall an_id ids -> (forall i, ids = [i] -> ~ means_nothing i) -> is_null (join (txt ", ") ids) = false.
Proof.
  intros NE F M. rewrite <- not_true_iff_false. intros X. unfold is_null in X. apply existsb_exists in X as (w & I & E). apply text_eqb_eq in E.
  destruct ids as [|x [|y ids]]; [congruence| |].
  - cbn [join] in E. inversion F as [|? ? A _]; subst. specialize (M w eq_refl). unfold null_values in I. destruct A as [NX CX].
    repeat (destruct I as [<-|I]; [first [congruence | (apply M; vm_compute; tauto) | discriminate (CX "-"%char ltac:(vm_compute; tauto))]|]). destruct I.
  - change (join (txt ", ") (x :: y :: ids)) with (x ++ ","%char :: " "%char :: join (txt ", ") (y :: ids)) in E.
    assert (C : In ","%char w) by (rewrite <- E; apply in_or_app; right; left; reflexivity). clear E. unfold null_values in I. repeat (destruct I as [<-|I]; [revert C; no_in|]). destruct I.
Qed.
Lemma fold_new ids : forall done, NoDup (done ++ ids) -> fold_left (fun rs i => if existsb (fun r => text_eqb (r_id r) i) rs then rs else rs ++ [new_run i]) ids (map new_run done) = map new_run (done ++ ids).
Proof.
  induction ids as [|i ids IH]; intros done ND; [cbn [fold_left]; rewrite app_nil_r; reflexivity|]. cbn [fold_left]. pose proof (NoDup_remove_2 _ _ _ ND) as NI.
  assert (X : existsb (fun r => text_eqb (r_id r) i) (map new_run done) = false).
  { rewrite <- not_true_iff_false. intros X. apply existsb_exists in X as (r & I & E). apply in_map_iff in I as (j & <- & I). apply text_eqb_eq in E. cbn [new_run r_id] in E. subst j. apply NI. apply in_or_app. left. exact I. }
  rewrite X. change [new_run i] with (map new_run [i]). rewrite <- map_app. rewrite IH by (rewrite <- app_assoc; exact ND). rewrite <- app_assoc. reflexivity.
Qed.
Lemma take_run_list ids st acc : ids <> [] -> Forall an_id ids -> NoDup ids -> (forall i, ids = [i] -> ~ means_nothing i) -> s_runs st = [] ->
  take_comments accepts [(Some (txt "mt.station.run_list"), join (txt ", ") ids)] (st, acc) = Ok (set_runs (map new_run ids) st, acc).
Proof.
  intros NE F ND M R. destruct (ids_list ids NE F) as [NC S]. cbn [take_comments]. unfold take_comment, read_comment. cbn [fst snd]. rewrite (proj2 (C54_text _) NC). cbn [bindR].
  change (comment_key (Some (txt "mt.station.run_list"))) with (txt "mt.station.run_list"). cbn [fst snd]. change (contains (txt "mt.run") (txt "mt.station.run_list")) with false.
  change (replace (txt "summary") (txt "comments") (station_key (txt "mt.station.run_list"))) with (txt "run_list"). change (text_eqb (txt "run_list") (txt "comments")) with false. unfold set_key. change (text_eqb (txt "run_list") (txt "run_list")) with true. cbv iota.
  rewrite (not_null ids NE F M), S. cbn [bindR]. unfold set_run_list. rewrite R. destruct ids as [|i ids]; [congruence|]. cbn [List.length Nat.ltb Nat.leb].
  do 3 f_equal. apply (fold_new (i :: ids) [] ND).
Qed.
(** The comments of runs *)
Lemma take_run r st acc : writable_run r -> take_comments accepts (run_comments r) (st, acc) = Ok (st, acc ++ read_comments r).
Proof.
  intros (A & NP & NL & NDL & PL & CA & CM & CC).
  assert (G : forall a v w l acc, run_attr a -> comment_value v = Ok w -> take_comments accepts ((Some (subject_of (r_id r) a), v) :: l) (st, acc) = take_comments accepts l (st, acc ++ [(subject_of (lower (r_id r)) a, w)])).
  { intros a v w l ac RA E. cbn [take_comments]. unfold take_comment, read_comment. cbn [fst snd]. rewrite E. cbn [bindR]. rewrite (key_low _ _ A RA). cbn [fst snd]. rewrite run_key. reflexivity. }
  unfold run_comments, read_comments. cbn [app].
  change (txt "mt.run:" ++ r_id r ++ txt ".acquired_by") with (subject_of (r_id r) (txt "acquired_by")). change (txt "mt.run:" ++ r_id r ++ txt ".metadata_by") with (subject_of (r_id r) (txt "metadata_by")). change (txt "mt.run:" ++ r_id r ++ txt ".comments") with (subject_of (r_id r) (txt "comments")).
  rewrite !C54_written. change [txt "acquired_by.author"; txt "acquired_by.comments"] with (parts (txt "acquired_by")). change [txt "metadata_by.author"; txt "metadata_by.comments"] with (parts (txt "metadata_by")).
  rewrite (G _ _ _ _ _ ltac:(left; reflexivity) (person_value _ (txt "acquired_by") (or_introl eq_refl) CA)). rewrite (G _ _ _ _ _ ltac:(right; left; reflexivity) (person_value _ (txt "metadata_by") (or_intror eq_refl) CM)).
  fold (person_of (r_by r) (txt "acquired_by")). fold (person_of (r_by r) (txt "metadata_by")). rewrite <- app_assoc. cbn [app]. destruct (nonempty (r_comment r)).
  - rewrite (G _ _ _ _ _ ltac:(right; right; left; reflexivity) (comment_read _ CC)). cbn [take_comments]. rewrite <- app_assoc. reflexivity.
  - reflexivity.
Qed.
Lemma take_runs rs : Forall writable_run rs -> forall st acc, take_comments accepts (flat_map run_comments rs) (st, acc) = Ok (st, acc ++ flat_map read_comments rs).
Proof.
  induction 1 as [|r rs W F IH]; intros st acc; [cbn; rewrite app_nil_r; reflexivity|]. cbn [flat_map]. rewrite take_app, (take_run r st acc W). cbn [bindR]. rewrite IH, <- app_assoc. reflexivity.
Qed.
Lemma note_says s k : nonempty (note s k) = true <-> says (s_notes s) k (note s k).
Proof. unfold note, says. destruct (dget text_dec k (s_notes s)) as [[|c v]|]; cbn [nonempty]; split; try discriminate; try (intros _; split; [reflexivity|discriminate]); try reflexivity; intros [H1 H2]; congruence. Qed.

Lemma trip_ok s : writable accepts s -> exists s', trip accepts s = Ok s' /\ station_back s s'.
Proof.
  intros (WR & NDL & MN & WN). unfold trip, xml_to_mt, mt_to_xml. cbn [x_comments x_equipments].
  assert (AI : Forall an_id (map r_id (s_runs s))). { rewrite Forall_map. eapply Forall_impl; [|exact WR]. intros r W. apply W. }
  assert (ND : NoDup (map r_id (s_runs s))). { apply (NoDup_map_inv lower). rewrite map_map. exact NDL. }
  assert (WN' : forall k, In k note_keys -> nonempty (note s k) = true -> ~ In ":"%char (note s k) /\ accepts k (note s k) = true) by (intros k I E; apply (WN k); [exact I|apply note_says; exact E]).
  set (st1 := fold_left (fun st k => put_note s k st) note_keys new_station).
  assert (T : take_comments accepts (station_comments s ++ flat_map run_comments (s_runs s)) (new_station, []) = Ok (set_runs (map new_run (map r_id (s_runs s))) st1, flat_map read_comments (s_runs s))).
  { rewrite take_app. unfold station_comments. rewrite take_app, (take_notes s [] note_keys) by (try assumption; intros x I; exact I). cbn [bindR]. fold st1.
    assert (R1 : s_runs st1 = []) by (apply (put_notes_rest s note_keys new_station)).
    destruct (s_runs s) as [|r rs] eqn:E; [cbn [take_comments bindR flat_map map]; do 2 f_equal; rewrite <- R1; destruct st1; reflexivity|].
    rewrite (take_run_list (map r_id (r :: rs))); [|discriminate|exact AI|exact ND| |exact R1].
    - cbn [bindR]. rewrite (take_runs (r :: rs) WR). reflexivity.
    - intros i X. destruct rs as [|r2 rs]; [|discriminate X]. injection X as <-. apply MN. reflexivity. }
  rewrite T. cbn [bindR fst snd]. set (st2 := set_fields _ _).
  assert (R2 : s_runs st2 = map (fun r => new_run (r_id r)) (s_runs s)) by (unfold st2; cbn [set_fields set_runs s_runs]; apply map_map).
  destruct (put_pass (fun r => new_run (r_id r)) ltac:(reflexivity) (s_runs s) st2 WR) as (a1 & b1 & P1 & T1 & T0); [|intros r _; split; left; reflexivity|exact R2|exact ND|].
  { intros r I. apply absorb_new. rewrite Forall_forall in WR. apply WR. exact I. }
  rewrite P1. cbn [bindR].
  set (st3 := set_times a1 b1 (set_runs (map filled (s_runs s)) st2)).
  destruct (put_pass filled ltac:(reflexivity) (s_runs s) st3 WR) as (a2 & b2 & P2 & T2 & T02); [|intros r _; split; right; reflexivity|reflexivity|exact ND|].
  { intros r I. apply absorb_filled. rewrite Forall_forall in WR. apply WR. exact I. }
  rewrite P2. cbn [bindR].
  change (s_runs (set_times a2 b2 (set_runs (map filled (s_runs s)) st3))) with (map filled (s_runs s)).
  pose proof (run_steps filled ltac:(reflexivity) (s_runs s) []) as RS. cbn [map app] in RS. rewrite RS; [|rewrite Forall_map in AI; exact AI|exact NDL]. cbn [bindR]. eexists. split; [reflexivity|].
  unfold station_back. destruct (put_notes_rest s note_keys new_station) as (RC & RA & _). fold st1 in RC, RA. cbn [new_station s_comment s_author] in RC, RA.
  cbn [set_runs set_times s_id s_fdsn s_name s_comment s_place s_start s_end s_author s_notes s_runs st3 st2 set_fields x_alternate x_code x_site x_place x_description x_start x_end].
  split; [reflexivity|]. split; [reflexivity|]. split; [reflexivity|]. split; [rewrite RC; destruct (s_comment s); reflexivity|]. split; [reflexivity|]. split; [exact RA|]. split; [|split; [|split]].
  - intros k NK. pose proof (put_notes_get s note_keys new_station k) as G. fold st1 in G. destruct (note_keys_ok k NK) as (_ & _ & _ & _ & _ & EX). rewrite EX in G. cbn [andb] in G.
    change (s_notes (set_runs _ st1)) with (s_notes st1). split.
    + intros v [H1 H2]. assert (E : note s k = v) by (unfold note; rewrite H1; reflexivity). rewrite E in G. unfold says. rewrite G. destruct v; [congruence|]. split; [reflexivity|discriminate].
    + intros S v. assert (E : nonempty (note s k) = false). { rewrite <- not_true_iff_false. intros X. apply note_says in X. exact (S _ X). }
      rewrite E in G. unfold says. rewrite G. change (s_notes new_station) with fresh_notes. clear -NK. unfold noted in NK. cbn [map] in NK.
      repeat (destruct NK as [<-|NK]; [vm_compute; split; intros [H1 H2]; (split; [congruence|exact H2])|]). destruct NK.
  - rewrite Forall_forall in WR. clear -WR. induction (s_runs s) as [|r rs IH]; [constructor|]. cbn [map]. constructor; [apply upd_filled; apply WR; left; reflexivity|]. apply IH. intros x I. apply WR. right. exact I.
  - destruct (s_runs s) as [|r rs] eqn:E.
    + destruct (T0 eq_refl) as [-> _]. destruct (T02 eq_refl) as [-> _]. cbn [st3 set_times s_start st2 set_fields x_start map]. destruct (Z.eq_dec (s_start s) 0) as [Z0|N0]; [left; split; [exact Z0|constructor; [exact Z0|constructor]]|right; split; [exact N0|split; [left; reflexivity|intros u [<-|[]] _; lia]]].
    + rewrite <- E in *. destruct (T1 ltac:(congruence)) as (l0 & l1 & E1 & _ & I0 & _). destruct (T2 ltac:(congruence)) as (m0 & m1 & E2 & _ & _ & _ & EQ). destruct (EQ ltac:(reflexivity)) as [-> _]. exact (earliest_twice _ _ _ _ _ E1 I0 E2).
  - destruct (s_runs s) as [|r rs] eqn:E.
    + destruct (T0 eq_refl) as [_ ->]. destruct (T02 eq_refl) as [_ ->]. cbn [st3 set_times s_end st2 set_fields x_end map]. destruct (Z.eq_dec (s_end s) 0) as [Z0|N0]; [left; split; [exact Z0|constructor; [exact Z0|constructor]]|right; split; [exact N0|split; [left; reflexivity|intros u [<-|[]] _; lia]]].
    + rewrite <- E in *. destruct (T1 ltac:(congruence)) as (l0 & l1 & _ & E1 & _ & I0 & _). destruct (T2 ltac:(congruence)) as (m0 & m1 & _ & E2 & _ & _ & EQ). destruct (EQ ltac:(reflexivity)) as [_ ->]. exact (latest_twice _ _ _ _ _ E1 I0 E2).
Qed.
End Comments.
