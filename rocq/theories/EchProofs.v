From Coq Require Import QArith Reals.
From Verif Require Import PyBase PyFacts PyText TextFacts PyFloat LayModel ZmmModel EdnModel EdnSpec EdnProofs EchModel EchSpec.
From Coq Require Import Lia.
Local Open Scope list_scope.

(** ** Texts *)
Lemma find_at p sep r : (forall a b, p ++ sep ++ r = a ++ sep ++ b -> (length p <= length a)%nat) -> find sep (p ++ sep ++ r) = Some (length p).
Proof.
  intros H. destruct (find sep (p ++ sep ++ r)) as [n|] eqn:E.
  - destruct (find_Some _ _ _ E) as (a & b & Ek & En & Hm). f_equal. pose proof (H _ _ Ek) as L. rewrite En in L.
    destruct (Nat.eq_dec n (length p)) as [Q|Q]; [exact Q|]. assert (Lt : (length p < n)%nat) by lia.
    specialize (Hm _ Lt). rewrite skipn_app, skipn_all, Nat.sub_diag in Hm. cbn [app skipn] in Hm.
    assert (P : prefix_of sep (sep ++ r) = true) by (apply prefix_of_spec; eauto). congruence.
  - exfalso. exact (find_None _ _ E p r eq_refl).
Qed.
Lemma mentions_split comp u v : ~ In "."%char comp -> mentions (comp ++ txt ".") (u ++ "."%char :: v) -> mentions (comp ++ txt ".") (u ++ txt ".") \/ mentions (comp ++ txt ".") v.
Proof.
  intros N (a & b & E). cbn [txt String.list_ascii_of_string] in *. rewrite <- app_assoc in E. rewrite app_assoc in E. cbn [app] in E.
  apply app_eq_app in E. destruct E as (l & [(E1 & E2)|(E1 & E2)]).
  - (* u = (a++comp) ++ l *)
    destruct l as [|x l].
    + rewrite app_nil_r in E1. left. exists a, []. rewrite app_nil_r, E1, <- app_assoc. reflexivity.
    + injection E2 as <- E2. left. exists a, (l ++ ["."%char]). rewrite E1, <- !app_assoc. reflexivity.
  - destruct l as [|x l].
    + rewrite app_nil_r in E1. left. exists a, []. rewrite app_nil_r, <- E1, <- app_assoc. reflexivity.
    + injection E2 as <- E2. right. apply app_eq_app in E1. destruct E1 as (m & [(F1 & F2)|(F1 & F2)]).
      * destruct m as [|y m].
        { cbn [app] in F2. subst comp. exfalso. apply N. left. reflexivity. }
        { injection F2 as <- F2. subst l. exists m, b. rewrite E2, <- !app_assoc. reflexivity. }
      * exfalso. apply N. rewrite F2. apply in_or_app. right. left. reflexivity.
Qed.
Lemma apart_key comp rid c f : ~ In "."%char comp -> apart comp rid -> apart comp c -> apart comp f -> apart comp (rid ++ txt "." ++ c ++ txt "." ++ f).
Proof.
  intros N H1 H2 H3 M. unfold apart in *. rewrite <- !app_assoc in M. cbn [txt String.list_ascii_of_string app] in M.
  apply mentions_split in M; [|exact N]. destruct M as [M|M]; [exact (H1 M)|].
  apply mentions_split in M; [|exact N]. destruct M as [M|M]; [exact (H2 M)|exact (H3 M)].
Qed.
Lemma apart_key2 comp rid f : ~ In "."%char comp -> apart comp rid -> apart comp f -> apart comp (rid ++ txt "." ++ f).
Proof.
  intros N H1 H3 M. unfold apart in *. rewrite <- !app_assoc in M. cbn [txt String.list_ascii_of_string app] in M.
  apply mentions_split in M; [|exact N]. destruct M as [M|M]; [exact (H1 M)|exact (H3 M)].
Qed.
Lemma apart_not comp k : apart comp k -> ~ mentions (comp ++ txt ".") k.
Proof. intros H (a & b & E). apply H. exists a, (b ++ txt "."). rewrite E, <- !app_assoc. reflexivity. Qed.
Lemma apart_word comp k : apart comp k -> word_after comp k = None.
Proof.
  intros H. unfold word_after, second, after. pose proof (apart_not _ _ H) as M. destruct (find (comp ++ txt ".") k) eqn:E; [|reflexivity].
  exfalso. apply M. destruct (find_Some _ _ _ E) as (a & b & Ek & _). exists a, b. exact Ek.
Qed.
Lemma apart_after comp k : apart comp k -> after (txt "." ++ comp ++ txt ".") k = None.
Proof.
  intros H. unfold after. pose proof (apart_not _ _ H) as M. destruct (find (txt "." ++ comp ++ txt ".") k) eqn:E; [|reflexivity].
  exfalso. apply M. destruct (find_Some _ _ _ E) as (a & b & Ek & _). exists (a ++ txt "."), b. rewrite Ek, <- !app_assoc. reflexivity.
Qed.
Lemma skip_app {A} (p s r : list A) : skipn (length p + length s) (p ++ s ++ r) = r.
Proof. rewrite app_assoc, skipn_app, <- app_length, skipn_all, Nat.sub_diag. reflexivity. Qed.
Lemma own_word comp rid f : ~ In "."%char comp -> apart comp rid -> apart comp f -> no_blank f -> word_after comp (rid ++ txt "." ++ comp ++ txt "." ++ f) = Some f.
Proof.
  intros N H1 H3 NB. unfold word_after, second, after.
  replace (rid ++ txt "." ++ comp ++ txt "." ++ f) with ((rid ++ txt ".") ++ (comp ++ txt ".") ++ f) by (rewrite <- !app_assoc; reflexivity).
  rewrite find_at.
  - rewrite skip_app. rewrite before_none by exact (apart_not _ _ H3).
    rewrite strip_trimmed; [reflexivity|]. split; intros c r E; apply NB; rewrite E; [left; reflexivity|apply in_or_app; right; left; reflexivity].
  - intros a b E.
    destruct (Nat.le_gt_cases (length (rid ++ txt ".")) (length a)) as [L|L]; [exact L|]. exfalso.
    rewrite app_length in L. cbn [txt String.list_ascii_of_string length] in L.
    rewrite <- !app_assoc in E. cbn [txt String.list_ascii_of_string app] in E. rewrite (app_assoc a) in E.
    apply app_eq_app in E. destruct E as (l & [(E1 & E2)|(E1 & E2)]).
    + apply H1. destruct l as [|x l].
      * rewrite app_nil_r in E1. exists a, []. rewrite E1, app_nil_r, <- app_assoc. reflexivity.
      * injection E2 as <- E2. exists a, (l ++ txt "."). rewrite E1, <- !app_assoc. reflexivity.
    + destruct l as [|x l].
      * rewrite app_nil_r in E1. apply H1. exists a, []. rewrite <- E1, app_nil_r, <- app_assoc. reflexivity.
      * injection E2 as <- E2. apply N. apply app_eq_app in E1. destruct E1 as (m & [(F1 & F2)|(F1 & F2)]).
        { destruct m as [|y m]; [cbn [app] in F2; rewrite <- F2; left; reflexivity|]. exfalso. rewrite F1, app_length in L. cbn [length] in L. lia. }
        { rewrite F2. apply in_or_app. right. left. reflexivity. }
Qed.
Lemma own_after comp rid f : ~ In "."%char rid -> after (txt "." ++ comp ++ txt ".") (rid ++ txt "." ++ comp ++ txt "." ++ f) = Some f.
Proof.
  intros N. unfold after.
  replace (rid ++ txt "." ++ comp ++ txt "." ++ f) with (rid ++ (txt "." ++ comp ++ txt ".") ++ f) by (rewrite <- !app_assoc; reflexivity).
  rewrite find_at; [rewrite skip_app; reflexivity|].
  intros a b E. destruct (Nat.le_gt_cases (length rid) (length a)) as [L|L]; [exact L|]. exfalso. apply N.
  rewrite <- !app_assoc in E. cbn [txt String.list_ascii_of_string app] in E.
  apply app_eq_app in E. destruct E as (l & [(E1 & E2)|(E1 & E2)]).
  - rewrite E1. destruct l as [|x l]; [rewrite app_nil_r in E1; rewrite E1 in L; lia|]. injection E2 as <- E2. apply in_or_app. right. left. reflexivity.
  - rewrite E1, app_length in L. lia.
Qed.

(** ** Dictionaries that are built *)
Lemma In_dset {A} k (v : A) d k' v' : In (k', v') (dset text_dec k v d) -> In (k', v') d \/ (k' = k /\ v' = v).
Proof.
  induction d as [|[k0 v0] d IH]; cbn; [intros [E|[]]; injection E as <- <-; auto|].
  destruct (text_dec k k0) as [->|N]; cbn; intros [E|H]; auto.
  - injection E as <- <-. right. auto.
  - destruct (IH H); auto.
Qed.
(** What is written, in order *)
Definition note_writes (p : text) (fs : list (text * value)) : list (text * value) :=
  map (fun kv => (p ++ fst kv, snd kv)) (filter (fun kv => negb (null (snd kv))) fs).
Definition chan_writes (rid : text) (c : chan) : list (text * value) :=
  note_writes (rid ++ txt "." ++ c_component c ++ txt ".") (filter (fun kv => negb (existsb (text_eqb (fst kv)) skipped)) (c_fields c)).
Definition run_writes (r : erun) : list (text * value) :=
  note_writes (e_id r ++ txt ".") (e_fields r) ++ flat_map (chan_writes (e_id r)) (e_channels r).
Lemma dupdate_app {A} (d : list (text * A)) a b : dupdate text_dec d (a ++ b) = dupdate text_dec (dupdate text_dec d a) b.
Proof. unfold dupdate. apply fold_left_app. Qed.
Lemma put_all_writes p fs : forall d, put_all p fs d = dupdate text_dec d (note_writes p fs).
Proof.
  induction fs as [|[k v] fs IH]; intros d; [reflexivity|]. cbn [put_all]. rewrite IH. unfold note_writes. cbn [filter fst snd].
  destruct (null v); reflexivity.
Qed.
Lemma set_channels_writes rid cs : forall o o', set_channels rid cs o = Ok o' -> fst o' = dupdate text_dec (fst o) (flat_map (chan_writes rid) cs).
Proof.
  induction cs as [|c cs IH]; intros o o' H; cbn in H; [injection H as <-; reflexivity|].
  destruct (from_metadata c (snd o)) as [ms|e]; cbn in H; [|discriminate]. apply IH in H. cbn [fst] in H. rewrite H. cbn [flat_map]. rewrite dupdate_app.
  f_equal. apply put_all_writes.
Qed.
Lemma set_runs_writes rs : forall o o', set_runs rs o = Ok o' -> fst o' = dupdate text_dec (fst o) (flat_map run_writes rs).
Proof.
  induction rs as [|r rs IH]; intros o o' H; cbn in H; [injection H as <-; reflexivity|].
  destruct (set_channels _ _ _) as [o1|e] eqn:E; cbn in H; [|discriminate]. apply IH in H. apply set_channels_writes in E. cbn [fst] in E.
  rewrite H, E. cbn [flat_map]. unfold run_writes. rewrite !dupdate_app. rewrite put_all_writes. reflexivity.
Qed.
Lemma In_dupdate {A} (W : list (text * A)) : forall d k v, In (k, v) (dupdate text_dec d W) -> In (k, v) d \/ In (k, v) W.
Proof.
  induction W as [|[k0 v0] W IH]; intros d k v H; [left; exact H|]. change (In (k, v) (dupdate text_dec (dset text_dec k0 v0 d) W)) in H.
  destruct (IH _ _ _ H) as [Q|Q]; [|right; right; exact Q]. destruct (In_dset _ _ _ _ _ Q) as [Q'|[-> ->]]; [left; exact Q'|right; left; reflexivity].
Qed.
Lemma dupdate_one {A} (W : list (text * A)) : forall d k v, In (k, v) W -> (forall v', In (k, v') W -> v' = v) -> dget text_dec k (dupdate text_dec d W) = Some v.
Proof.
  intros d k v. revert d. induction W as [|[k0 v0] W IH] using rev_ind; intros d H U; [destruct H|].
  rewrite dupdate_app. change (dget text_dec k (dset text_dec k0 v0 (dupdate text_dec d W)) = Some v).
  destruct (text_dec k k0) as [<-|N].
  - rewrite dget_dset_eq. f_equal. apply U. apply in_or_app. right. left. reflexivity.
  - rewrite dget_dset_neq by congruence. apply IH.
    + apply in_app_or in H. destruct H as [H|[H|[]]]; [exact H|injection H as -> ->; congruence].
    + intros v' H'. apply U. apply in_or_app. left. exact H'.
Qed.
Lemma in_note_writes p fs k v : In (k, v) (note_writes p fs) <-> exists f, k = p ++ f /\ In (f, v) fs /\ given v.
Proof.
  unfold note_writes. rewrite in_map_iff. split.
  - intros ([f v'] & E & H). injection E as <- <-. apply filter_In in H. destruct H as [H G]. exists f. repeat split; [exact H|].
    cbn [snd] in G. rewrite null_is, negb_involutive in G. exact G.
  - intros (f & -> & H & G). exists (f, v). split; [reflexivity|]. apply filter_In. split; [exact H|]. cbn [snd]. rewrite null_is, negb_involutive. exact G.
Qed.
Lemma skipped_iff f : existsb (text_eqb f) skipped = true <-> In f not_noted.
Proof.
  rewrite existsb_exists. change skipped with not_noted. split; [intros (x & H & E); apply text_eqb_eq in E; subst; exact H|intros H; exists f; split; [exact H|apply text_eqb_eq; reflexivity]].
Qed.
Lemma in_chan_writes rid c k v : In (k, v) (chan_writes rid c) <-> exists f, k = rid ++ txt "." ++ c_component c ++ txt "." ++ f /\ noted c f v.
Proof.
  unfold chan_writes. rewrite in_note_writes. unfold noted. split.
  - intros (f & -> & H & G). apply filter_In in H. destruct H as [H S]. exists f. split; [rewrite <- !app_assoc; reflexivity|]. repeat split; [exact H|exact G|].
    cbn [fst] in S. intros I. apply skipped_iff in I. rewrite I in S. discriminate.
  - intros (f & -> & H & G & S). exists f. split; [rewrite <- !app_assoc; reflexivity|]. split; [|exact G]. apply filter_In. split; [exact H|]. cbn [fst].
    destruct (existsb (text_eqb f) skipped) eqn:E; [|reflexivity]. exfalso. apply S, skipped_iff, E.
Qed.
Lemma in_runs_writes rs k v : In (k, v) (flat_map run_writes rs) <->
  (exists r f, In r rs /\ In (f, v) (e_fields r) /\ given v /\ k = e_id r ++ txt "." ++ f) \/
  (exists x f, In x (channels_of rs) /\ noted (snd x) f v /\ k = fst x ++ txt "." ++ c_component (snd x) ++ txt "." ++ f).
Proof.
  rewrite in_flat_map. unfold run_writes. split.
  - intros (r & Hr & H). apply in_app_or in H. destruct H as [H|H].
    + apply in_note_writes in H. destruct H as (f & -> & H & G). left. exists r, f. rewrite <- app_assoc. auto.
    + apply in_flat_map in H. destruct H as (c & Hc & H). apply in_chan_writes in H. destruct H as (f & -> & H). right. exists (e_id r, c), f.
      split; [|split; [exact H|reflexivity]]. apply in_flat_map. exists r. split; [exact Hr|]. apply in_map. exact Hc.
  - intros [(r & f & Hr & H & G & ->)|([rid c] & f & Hx & H & ->)].
    + exists r. split; [exact Hr|]. apply in_or_app. left. apply in_note_writes. exists f. rewrite <- app_assoc. auto.
    + apply in_flat_map in Hx. destruct Hx as (r & Hr & Hc). apply in_map_iff in Hc. destruct Hc as (c' & E & Hc). injection E as <- <-.
      exists r. split; [exact Hr|]. apply in_or_app. right. apply in_flat_map. exists c'. split; [exact Hc|]. apply in_chan_writes. exists f. auto.
Qed.

(** ** Measurements *)
Fixpoint measure (cs : list chan) (ms : list (text * meas)) : result (list (text * meas)) :=
  match cs with [] => Ok ms | c :: r => bindR (from_metadata c ms) (measure r) end.
Lemma set_channels_measure rid cs : forall o o', set_channels rid cs o = Ok o' -> measure cs (snd o) = Ok (snd o').
Proof.
  induction cs as [|c cs IH]; intros o o' H; cbn in *; [injection H as <-; reflexivity|].
  destruct (from_metadata c (snd o)) as [ms|e]; cbn in *; [|discriminate]. apply IH in H. exact H.
Qed.
Lemma measure_app a : forall b ms, measure (a ++ b) ms = bindR (measure a ms) (measure b).
Proof. induction a as [|c a IH]; intros b ms; [reflexivity|]. cbn. destruct (from_metadata c ms); [apply IH|reflexivity]. Qed.
Lemma set_runs_measure rs : forall o o', set_runs rs o = Ok o' -> measure (map snd (channels_of rs)) (snd o) = Ok (snd o').
Proof.
  induction rs as [|r rs IH]; intros o o' H; cbn in H; [injection H as <-; reflexivity|].
  destruct (set_channels _ _ _) as [o1|e] eqn:E; cbn in H; [|discriminate]. apply IH in H. apply set_channels_measure in E. cbn [snd] in E.
  unfold channels_of in *. cbn [flat_map]. rewrite map_app, measure_app, map_map. cbn [snd]. rewrite map_id, E. exact H.
Qed.
(** What one channel leaves *)
Lemma from_metadata_other c ms ms' k : from_metadata c ms = Ok ms' -> lower (c_component c) <> k -> dget text_dec k ms' = dget text_dec k ms.
Proof.
  unfold from_metadata. intros H N.
  destruct (has_char "e" (c_component c)).
  - destruct (c_kind c); try discriminate. destruct (to_float (c_id c)); cbn in H; [|discriminate]. destruct (chtype_ok _ _); [|discriminate].
    injection H as <-. apply dget_dset_neq. congruence.
  - destruct (has_char "h" (c_component c)); [|injection H as <-; reflexivity].
    destruct (c_kind c); try discriminate; (destruct (to_float (c_id c)); cbn in H; [|discriminate]; destruct (chtype_ok _ _); [|discriminate];
    injection H as <-; apply dget_dset_neq; congruence).
Qed.
Lemma measure_other cs : forall ms ms' k, measure cs ms = Ok ms' -> (forall c, In c cs -> lower (c_component c) <> k) -> dget text_dec k ms' = dget text_dec k ms.
Proof.
  induction cs as [|c cs IH]; intros ms ms' k H N; cbn in H; [injection H as <-; reflexivity|].
  destruct (from_metadata c ms) as [m1|e] eqn:E; cbn in H; [|discriminate]. rewrite (IH _ _ _ H) by (intros; apply N; right; assumption).
  apply (from_metadata_other c); [exact E|apply N; left; reflexivity].
Qed.
Lemma measure_only l1 c l2 ms' : measure (l1 ++ c :: l2) [] = Ok ms' -> (forall x, In x (l1 ++ l2) -> lower (c_component x) <> lower (c_component c)) ->
  exists m0 m1, from_metadata c m0 = Ok m1 /\ dget text_dec (lower (c_component c)) ms' = dget text_dec (lower (c_component c)) m1 /\ dget text_dec (lower (c_component c)) m0 = None.
Proof.
  intros H N. rewrite measure_app in H. destruct (measure l1 []) as [m0|e] eqn:E0; cbn in H; [|discriminate].
  destruct (from_metadata c m0) as [m1|e] eqn:E1; cbn in H; [|discriminate]. exists m0, m1. split; [exact E1|]. split.
  - apply (measure_other l2); [exact H|]. intros x I. apply N. apply in_or_app. right. exact I.
  - rewrite (measure_other l1 _ _ _ E0); [reflexivity|]. intros x I. apply N. apply in_or_app. left. exact I.
Qed.

(** ** Reading *)
Lemma fold_same {A B} (g : list (text * A) -> B -> list (text * A)) f l : forall a, (forall x b, In x l -> dget text_dec f (g b x) = dget text_dec f b) -> dget text_dec f (fold_left g l a) = dget text_dec f a.
Proof. induction l as [|x l IH]; intros a H; [reflexivity|]. cbn. rewrite IH by (intros; apply H; right; assumption). apply H. left. reflexivity. Qed.
Lemma fold_keep {A B} (g : list (text * A) -> B -> list (text * A)) f w l : forall a, dget text_dec f a = Some w ->
  (forall x b, In x l -> dget text_dec f (g b x) = dget text_dec f b \/ dget text_dec f (g b x) = Some w) -> dget text_dec f (fold_left g l a) = Some w.
Proof.
  induction l as [|x l IH]; intros a E H; [exact E|]. cbn. apply IH; [|intros; apply H; right; assumption].
  destruct (H x a (or_introl eq_refl)) as [Q|Q]; [rewrite Q; exact E|exact Q].
Qed.
Lemma fold_found {A B} (g : list (text * A) -> B -> list (text * A)) f w l x0 : In x0 l -> (forall b, dget text_dec f (g b x0) = Some w) ->
  (forall x b, In x l -> dget text_dec f (g b x) = dget text_dec f b \/ dget text_dec f (g b x) = Some w) -> forall a, dget text_dec f (fold_left g l a) = Some w.
Proof.
  intros I E H a. apply in_split in I. destruct I as (l1 & l2 & ->). rewrite fold_left_app. cbn. apply fold_keep; [apply E|].
  intros x b J. apply H. apply in_or_app. right. right. exact J.
Qed.
