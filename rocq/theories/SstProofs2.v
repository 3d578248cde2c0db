(** Lemmas for C119: what becomes of runs, times and notes. *)
From Coq Require Import QArith.
From Verif Require Import PyBase PyFacts PyText TextFacts ValidatorsProofs LayModel SxmlModel SxmlSpec SxmlProofs SxmlProps SxmlProps2 SxmlProps3 SstModel SstSpec SstProofs.
From Coq Require Import Lia.
Local Open Scope list_scope.

(** ** What the updates make of a run without notes *)
Definition filled (r : run) : run := mkRun (r_id r) (r_start r) (r_end r) (r_plain r) (r_logger r) [] [].
Definition under (who : text) (kv : text * text) : text * text := (who ++ txt "." ++ fst kv, snd kv).
Definition word_under (d : list (text * text)) (k : text) : list (text * text) := match dget text_dec k d with Some (c :: v) => [(k, c :: v)] | _ => [] end.
Lemma sets_of d : map (under (txt "acquired_by")) (kvs_of d (txt "acquired_by")) ++
  map (under (txt "metadata_by")) (kvs_of d (txt "metadata_by")) = flat_map (word_under d) pkeys.
Proof.
  unfold kvs_of, parts, pkeys, word_under. cbn [set_values map flat_map].
  change (txt "acquired_by" ++ txt ".author") with (txt "acquired_by.author"). change (txt "acquired_by" ++ txt ".comments") with (txt "acquired_by.comments").
  change (txt "metadata_by" ++ txt ".author") with (txt "metadata_by.author"). change (txt "metadata_by" ++ txt ".comments") with (txt "metadata_by.comments").
  destruct (dget text_dec (txt "acquired_by.author") d) as [[|? ?]|], (dget text_dec (txt "acquired_by.comments") d) as [[|? ?]|],
    (dget text_dec (txt "metadata_by.author") d) as [[|? ?]|], (dget text_dec (txt "metadata_by.comments") d) as [[|? ?]|]; reflexivity.
Qed.
Lemma word_under_keys d ks : forall k, In k (map fst (flat_map (word_under d) ks)) -> In k ks.
Proof.
  induction ks as [|x ks IH]; intros k I; [destruct I|]. cbn [flat_map] in I. rewrite map_app in I. apply in_app_or in I as [I|I]; [|right; exact (IH k I)]. left. unfold word_under in I. destruct (dget text_dec x d) as [[|c v]|]; [destruct I| |destruct I]. destruct I as [I|[]]. exact I.
Qed.
Lemma word_under_nodup d ks : NoDup ks -> NoDup (map fst (flat_map (word_under d) ks)).
Proof.
  induction 1 as [|x ks NI ND IH]; [constructor|]. cbn [flat_map]. rewrite map_app. unfold word_under at 1. destruct (dget text_dec x d) as [[|c v]|]; [exact IH| |exact IH]. cbn [map fst app]. constructor; [|exact IH]. intros I. apply NI. exact (word_under_keys d ks x I).
Qed.
Lemma word_under_says d ks k : NoDup ks -> In k ks -> same_words d (flat_map (word_under d) ks) k.
Proof.
  induction 1 as [|x ks NI ND IH]; intros I v; [destruct I|]. cbn [flat_map]. destruct (text_dec x k) as [->|NE].
  - assert (N : dget text_dec k (flat_map (word_under d) ks) = None).
    { destruct (dget text_dec k (flat_map (word_under d) ks)) as [w|] eqn:E; [|reflexivity]. exfalso. apply NI. apply (word_under_keys d). apply dget_In in E. apply (in_map fst) in E. exact E. }
    remember (flat_map (word_under d) ks) as rest eqn:R. clear R IH. unfold says, word_under. destruct (dget text_dec k d) as [[|c w]|]; cbn [app].
    + rewrite N. split; [intros [H1 H2]; congruence|intros [H1 _]; discriminate H1].
    + cbn [dget]. destruct (text_dec k k) as [_|X]; [reflexivity|congruence].
    + rewrite N. split; intros [H _]; discriminate H.
  - destruct I as [->|I]; [congruence|]. rewrite (IH I v). remember (flat_map (word_under d) ks) as rest eqn:R. clear R IH. unfold says, word_under. destruct (dget text_dec x d) as [[|c w]|]; [reflexivity| |reflexivity]. cbn [app dget]. destruct (text_dec k x) as [->|_]; [congruence|reflexivity].
Qed.
Lemma pkeys_nodup : NoDup pkeys.
Proof. unfold pkeys. cbn [map]. repeat (constructor; [cbn [In]; intros X; repeat (destruct X as [X|X]; [discriminate X|]); exact X|]). constructor. Qed.

Lemma fold_sets who kvs : forall x, fold_left (fun x u => one_update u x) (map (set_of who) kvs) x =
  mkRun (r_id x) (r_start x) (r_end x) (r_plain x) (r_logger x) (dupdate text_dec (r_by x) (map (under (who)) kvs)) (r_comment x).
Proof.
  induction kvs as [|[k v] kvs IH]; intros x; [destruct x; reflexivity|]. cbn [map fold_left]. rewrite IH. reflexivity.
Qed.
Lemma dupdate_app (d a b : list (text * text)) : dupdate text_dec (dupdate text_dec d a) b = dupdate text_dec d (a ++ b).
Proof. unfold dupdate. rewrite fold_left_app. reflexivity. Qed.
(** "key: value" one by one *)
Lemma fold_said (l : list (text * text)) : forall x, l <> [] -> (forall kv, In kv l -> fst kv <> []) -> fold_left (fun x u => one_update u x) (map (fun kv => RComment (fst kv ++ txt ": " ++ show_opt (snd kv))) (as_comment l)) x =
  mkRun (r_id x) (r_start x) (r_end x) (r_plain x) (r_logger x) (r_by x) (match r_comment x with [] => pairs_text l | c => c ++ txt ", " ++ pairs_text l end).
Proof.
  induction l as [|[k v] l IH]; intros x NE NK; [congruence|]. destruct l as [|kv2 l].
  - destruct x as [? ? ? ? ? ? [|? ?]]; reflexivity.
  - cbn [as_comment map fold_left]. change (map (fun kv => (fst kv, Some (snd kv))) (kv2 :: l)) with (as_comment (kv2 :: l)).
    change ((fst kv2, Some (snd kv2)) :: map (fun kv => (fst kv, Some (snd kv))) l) with (as_comment (kv2 :: l)).
    etransitivity; [apply IH; [discriminate|intros kv I; apply NK; right; exact I]|].
    specialize (NK (k, v) (or_introl eq_refl)). cbn [fst] in NK. destruct k as [|ck k]; [congruence|].
    pose proof (pairs_text_cons (ck :: k, v) (kv2 :: l) ltac:(discriminate)) as PT. change (pair_text (ck :: k, v)) with ((ck :: k) ++ txt ": " ++ v) in PT.
    destruct x as [i a b p q y cm]. cbn [one_update r_id r_start r_end r_plain r_logger r_by r_comment fst snd show_opt]. apply f_equal. destruct cm as [|c0 w].
    + cbn [app]. etransitivity; [|symmetry; exact PT]. reflexivity.
    + etransitivity; [|exact (f_equal (fun t => (c0 :: w) ++ txt ", " ++ t) (eq_sym PT))]. cbn [app]. rewrite <- !app_assoc. cbn [app txt]. rewrite <- !app_assoc. reflexivity.
Qed.
Lemma said_result t : ~ In ":"%char t \/ listed_comment t -> forall x, r_comment x = [] -> fold_left (fun x u => one_update u x) (said_of t) x =
  mkRun (r_id x) (r_start x) (r_end x) (r_plain x) (r_logger x) (r_by x) (if has_char ":" t then t else []).
Proof.
  intros [N|(kvs & NE & L & ND & G & NA & E)] x CX.
  - assert (S : said_of t = []) by (unfold said_of, comment_value_of; rewrite (proj2 (C54_text t) N); reflexivity). rewrite S, (proj2 (has_char_notIn _ _) N). destruct x. cbn in *. subst. reflexivity.
  - change (join (txt ", ") (map (fun kv => fst kv ++ txt ": " ++ snd kv) kvs)) with (pairs_text kvs) in E. subst t. rewrite (pairs_text_colon kvs NE). unfold said_of, comment_value_of. rewrite (C54_pairs kvs NE L ND G NA). rewrite fold_said; [rewrite CX; reflexivity|exact NE|].
    intros kv I. destruct G as [GK _]. rewrite Forall_forall in GK. destruct (GK (fst kv) (in_map fst _ _ I)) as [[W _] _]. exact W.
Qed.
Lemma upd_filled r : writable_run r -> run_back r (upd r (filled r)).
Proof.
  intros (A & NP & NL & NDL & PL & CA & CM & CC). unfold upd. destruct (smallb (r_id r)) eqn:SB.
  - pose proof (proj1 (smallb_spec _) SB) as SM. unfold updates. rewrite !fold_left_app, !fold_sets. cbn [filled r_id r_start r_end r_plain r_logger r_by r_comment]. rewrite dupdate_app.
    assert (D : dupdate text_dec [] (map (under (txt "acquired_by")) (kvs_of (r_by r) (txt "acquired_by")) ++ map (under (txt "metadata_by")) (kvs_of (r_by r) (txt "metadata_by"))) = flat_map (word_under (r_by r)) pkeys).
    { rewrite sets_of. apply dupdate_nil. apply word_under_nodup. apply pkeys_nodup. }
    rewrite D, (said_result _ CC) by reflexivity. unfold run_back. cbn [r_id r_start r_end r_plain r_logger r_by r_comment]. repeat (split; [reflexivity|]). split; [|split].
    + intros _. split; [intros k K; apply word_under_says; [apply pkeys_nodup|exact K]|]. intros I. apply has_char_In in I. rewrite I. reflexivity.
    + intros NS. contradiction.
    + intros N. apply has_char_notIn in N. rewrite N. reflexivity.
  - unfold run_back, filled. cbn [r_id r_start r_end r_plain r_logger r_by r_comment]. repeat (split; [reflexivity|]). split; [|split].
    + intros S. apply smallb_spec in S. congruence.
    + intros _. split; reflexivity.
    + reflexivity.
Qed.

(** ** Times *)
Lemma least_spec l : forall m, In (least m l) (m :: l) /\ forall u, In u (m :: l) -> (least m l <= u)%Z.
Proof.
  induction l as [|x l IH]; intros m; cbn [least]; [split; [left; reflexivity|intros u [<-|[]]; lia]|]. destruct (IH (Z.min m x)) as [I L]. split.
  - destruct I as [I|I]; [rewrite <- I; destruct (Z.min_dec m x) as [-> | ->]; [left|right; left]; reflexivity|right; right; exact I].
  - intros u [<-|[<-|J]]; [specialize (L _ (or_introl eq_refl)); lia|specialize (L _ (or_introl eq_refl)); lia|exact (L u (or_intror J))].
Qed.
Lemma greatest_spec l : forall m, In (greatest m l) (m :: l) /\ forall u, In u (m :: l) -> (u <= greatest m l)%Z.
Proof.
  induction l as [|x l IH]; intros m; cbn [greatest]; [split; [left; reflexivity|intros u [<-|[]]; lia]|]. destruct (IH (Z.max m x)) as [I L]. split.
  - destruct I as [I|I]; [rewrite <- I; destruct (Z.max_dec m x) as [-> | ->]; [left|right; left]; reflexivity|right; right; exact I].
  - intros u [<-|[<-|J]]; [specialize (L _ (or_introl eq_refl)); lia|specialize (L _ (or_introl eq_refl)); lia|exact (L u (or_intror J))].
Qed.
Lemma known_In l u : In u (filter (fun t => negb (t =? 0)%Z) l) <-> In u l /\ u <> 0%Z.
Proof. rewrite filter_In, negb_true_iff, Z.eqb_neq. reflexivity. Qed.
Lemma update_start s : earliest (s_start s :: map r_start (s_runs s)) (s_start (update_time s)).
Proof.
  unfold update_time. cbn [s_start]. pose proof (known_In (map r_start (s_runs s))) as K. destruct (filter (fun t => negb (t =? 0)%Z) (map r_start (s_runs s))) as [|x l].
  - assert (Z0 : Forall (fun u => u = 0%Z) (map r_start (s_runs s))). { apply Forall_forall. intros u I. destruct (Z.eq_dec u 0) as [E|N]; [exact E|]. destruct (proj2 (K u) (conj I N)). }
    destruct (Z.eq_dec (s_start s) 0) as [E|N]; [left; split; [exact E|constructor; assumption]|right; split; [exact N|split; [left; reflexivity|]]]. intros u [<-|I] NU; [lia|]. rewrite Forall_forall in Z0. specialize (Z0 u I). congruence.
  - destruct (least_spec l x) as [I L]. apply K in I as [I NZ]. destruct (s_start s =? 0)%Z eqn:E.
    + apply Z.eqb_eq in E. right. split; [exact NZ|split; [right; exact I|]]. intros u [<-|J] NU; [congruence|]. apply L. apply K. split; assumption.
    + apply Z.eqb_neq in E. destruct (least x l <? s_start s)%Z eqn:C; [apply Z.ltb_lt in C|apply Z.ltb_ge in C].
      * right. split; [exact NZ|split; [right; exact I|]]. intros u [<-|J] NU; [lia|]. apply L. apply K. split; assumption.
      * right. split; [exact E|split; [left; reflexivity|]]. intros u [<-|J] NU; [lia|]. specialize (L u (proj2 (K u) (conj J NU))). lia.
Qed.
Lemma update_end s : latest (s_end s :: map r_end (s_runs s)) (s_end (update_time s)).
Proof.
  unfold update_time. cbn [s_end]. pose proof (known_In (map r_end (s_runs s))) as K. destruct (filter (fun t => negb (t =? 0)%Z) (map r_end (s_runs s))) as [|x l].
  - assert (Z0 : Forall (fun u => u = 0%Z) (map r_end (s_runs s))). { apply Forall_forall. intros u I. destruct (Z.eq_dec u 0) as [E|N]; [exact E|]. destruct (proj2 (K u) (conj I N)). }
    destruct (Z.eq_dec (s_end s) 0) as [E|N]; [left; split; [exact E|constructor; assumption]|right; split; [exact N|split; [left; reflexivity|]]]. intros u [<-|I] NU; [lia|]. rewrite Forall_forall in Z0. specialize (Z0 u I). congruence.
  - destruct (greatest_spec l x) as [I L]. apply K in I as [I NZ]. destruct (s_end s =? 0)%Z eqn:E.
    + apply Z.eqb_eq in E. right. split; [exact NZ|split; [right; exact I|]]. intros u [<-|J] NU; [congruence|]. apply L. apply K. split; assumption.
    + apply Z.eqb_neq in E. destruct (s_end s <? greatest x l)%Z eqn:C; [apply Z.ltb_lt in C|apply Z.ltb_ge in C].
      * right. split; [exact NZ|split; [right; exact I|]]. intros u [<-|J] NU; [lia|]. apply L. apply K. split; assumption.
      * right. split; [exact E|split; [left; reflexivity|]]. intros u [<-|J] NU; [lia|]. specialize (L u (proj2 (K u) (conj J NU))). lia.
Qed.
Lemma earliest_twice a b c l l0 : earliest (a :: l0) b -> (forall u, In u l0 -> u = 0%Z \/ In u l) -> earliest (b :: l) c -> earliest (a :: l) c.
Proof.
  intros E1 I0 E2. destruct E2 as [[-> Z2]|(NC & IC & LC)].
  - left. split; [reflexivity|]. inversion Z2 as [|? ? -> Z2']; subst. constructor; [|exact Z2']. destruct E1 as [[_ Z1]|(NB & _)]; [inversion Z1; assumption|congruence].
  - right. split; [exact NC|]. split.
    + destruct IC as [<-|IC]; [|right; exact IC]. destruct E1 as [[-> _]|(NB & IB & _)]; [congruence|]. destruct IB as [<-|IB]; [left; reflexivity|]. destruct (I0 _ IB) as [X|X]; [congruence|right; exact X].
    + intros u [<-|IU] NU; [|apply LC; [right; exact IU|exact NU]]. destruct E1 as [[-> Z1]|(NB & IB & LB)]; [inversion Z1; congruence|]. specialize (LB a (or_introl eq_refl) NU). specialize (LC b (or_introl eq_refl) NB). lia.
Qed.
Lemma latest_twice a b c l l0 : latest (a :: l0) b -> (forall u, In u l0 -> u = 0%Z \/ In u l) -> latest (b :: l) c -> latest (a :: l) c.
Proof.
  intros E1 I0 E2. destruct E2 as [[-> Z2]|(NC & IC & LC)].
  - left. split; [reflexivity|]. inversion Z2 as [|? ? -> Z2']; subst. constructor; [|exact Z2']. destruct E1 as [[_ Z1]|(NB & _)]; [inversion Z1; assumption|congruence].
  - right. split; [exact NC|]. split.
    + destruct IC as [<-|IC]; [|right; exact IC]. destruct E1 as [[-> _]|(NB & IB & _)]; [congruence|]. destruct IB as [<-|IB]; [left; reflexivity|]. destruct (I0 _ IB) as [X|X]; [congruence|right; exact X].
    + intros u [<-|IU] NU; [|apply LC; [right; exact IU|exact NU]]. destruct E1 as [[-> Z1]|(NB & IB & LB)]; [inversion Z1; congruence|]. specialize (LB a (or_introl eq_refl) NU). specialize (LC b (or_introl eq_refl) NB). lia.
Qed.

(** ** Equipment *)
Lemma to_run_filled r : writable_run r -> to_run (to_equipment r) = Ok (filled r).
Proof.
  intros (A & NP & NL & NDL & PL & _). unfold to_run, to_equipment. cbn [e_description e_resource e_start e_end e_plain].
  rewrite C82_description by assumption. cbn [bindR]. rewrite (proj2 (C82_run_id (r_id r))) by (apply (id_no _ _ A); reflexivity). cbn [bindR]. unfold filled. do 2 f_equal.
  rewrite map_map. transitivity (map (fun x : text * text => x) (r_logger r)); [|apply map_id]. apply map_ext. intros [k v]. reflexivity.
Qed.
Lemma dset_same (d : list (text * text)) k v : dget text_dec k d = Some v -> dset text_dec k v d = d.
Proof. induction d as [|[k' v'] d IH]; [discriminate|]. cbn [dget dset]. destruct (text_dec k k') as [->|N]; [intros H; injection H as ->; reflexivity|intros H; rewrite (IH H); reflexivity]. Qed.
Lemma dupdate_self (d : list (text * text)) : NoDup (map fst d) -> dupdate text_dec d d = d.
Proof.
  intros ND. assert (G : forall ps, incl ps d -> dupdate text_dec d ps = d); [|apply G; intros x I; exact I].
  induction ps as [|[k v] ps IH]; intros I; [reflexivity|]. unfold dupdate in *. cbn [fold_left fst snd]. rewrite dset_same; [apply IH; intros x J; apply I; right; exact J|]. apply In_dget; [exact ND|apply I; left; reflexivity].
Qed.
Lemma absorb_new r : writable_run r -> absorb (filled r) (new_run (r_id r)) = filled r.
Proof.
  intros (A & NP & NL & NDL & PL & _). unfold absorb, filled, new_run. cbn [r_id r_start r_end r_plain r_logger r_by r_comment]. rewrite !dupdate_nil by assumption. f_equal; [destruct (Z.eqb_spec (r_start r) 0)|destruct (Z.eqb_spec (r_end r) 0)]; congruence.
Qed.
Lemma absorb_filled r : writable_run r -> absorb (filled r) (filled r) = filled r.
Proof.
  intros (A & NP & NL & NDL & PL & _). unfold absorb, filled. cbn [r_id r_start r_end r_plain r_logger r_by r_comment]. rewrite !dupdate_self by assumption. f_equal; [destruct (r_start r =? 0)%Z|destruct (r_end r =? 0)%Z]; reflexivity.
Qed.
Lemma index_at i rs x post : (forall y, In y rs -> r_id y <> i) -> r_id x = i -> index_of i (rs ++ x :: post) = Some (List.length rs).
Proof.
  induction rs as [|y rs IH]; intros N E; cbn [app index_of List.length]; [rewrite E, text_eqb_refl; reflexivity|].
  destruct (text_eqb (r_id y) i) eqn:X; [apply text_eqb_eq in X; destruct (N y (or_introl eq_refl) X)|]. rewrite IH; [reflexivity|intros z J; apply N; right; exact J|exact E].
Qed.
Lemma on_run_at i f rs x post : (forall y, In y (rs ++ post) -> r_id y <> i) -> r_id x = i -> on_run i f (rs ++ x :: post) = rs ++ f x :: post.
Proof.
  intros N E. assert (G : forall l, (forall y, In y l -> r_id y <> i) -> on_run i f l = l).
  { induction l as [|y l IH]; intros H; [reflexivity|]. unfold on_run in *. cbn [map]. destruct (text_eqb (r_id y) i) eqn:X; [apply text_eqb_eq in X; destruct (H y (or_introl eq_refl) X)|]. rewrite IH; [reflexivity|intros z J; apply H; right; exact J]. }
  unfold on_run in *. rewrite map_app. cbn [map]. rewrite E, text_eqb_refl. apply f_equal2; [apply G; intros y I; apply N; apply in_or_app; left; exact I|apply f_equal; apply G; intros y I; apply N; apply in_or_app; right; exact I].
Qed.
Lemma put_rest (h : run -> run) : (forall r, r_id (h r) = r_id r) -> forall post done st, done <> [] -> Forall writable_run post -> (forall r, In r post -> absorb (filled r) (h r) = filled r) ->
  s_runs st = done ++ map h post -> NoDup (map r_id done ++ map r_id post) -> put_equipments (map to_equipment post) st = Ok (set_runs (done ++ map filled post) st).
Proof.
  intros H. induction post as [|r post IH]; intros done st ND0 F AB E ND.
  - cbn [map put_equipments] in *. rewrite <- E. destruct st; reflexivity.
  - inversion F as [|? ? W F']; subst. cbn [map put_equipments] in *. rewrite (to_run_filled r W). cbn [bindR].
    pose proof (NoDup_remove_2 _ _ _ ND) as NI.
    assert (NX : forall y, In y (done ++ map h post) -> r_id y <> r_id r).
    { intros y I X. apply NI. apply in_app_or in I as [I|I]; apply in_or_app; [left; rewrite <- X; apply in_map; exact I|right]. apply in_map_iff in I as (z & <- & I). rewrite H in X. rewrite <- X. apply in_map. exact I. }
    assert (P : put_item (filled r) st = set_runs (done ++ filled r :: map h post) st).
    { unfold put_item. change (r_id (filled r)) with (r_id r). rewrite E, index_at; [|intros y I; apply NX; apply in_or_app; left; exact I|apply H].
      destruct done as [|d0 done]; [congruence|]. cbn [List.length]. rewrite on_run_at; [|exact NX|apply H]. rewrite (AB r (or_introl eq_refl)). reflexivity. }
    rewrite P. specialize (IH (done ++ [filled r])). rewrite IH.
    + rewrite <- app_assoc. cbn [app]. destruct st; reflexivity.
    + destruct done; discriminate.
    + exact F'.
    + intros x I. apply AB. right. exact I.
    + cbn [set_runs s_runs]. rewrite <- app_assoc. reflexivity.
    + rewrite map_app, <- app_assoc. exact ND.
Qed.
(** Times of a station *)
Definition set_times (a b : Z) (s : station) : station := mkSt (s_id s) (s_fdsn s) (s_name s) (s_comment s) (s_place s) a b (s_author s) (s_notes s) (s_runs s).
Lemma update_time_eq s : update_time s = set_times (s_start (update_time s)) (s_end (update_time s)) s.
Proof. reflexivity. Qed.
Lemma put_pass (h : run -> run) : (forall r, r_id (h r) = r_id r) -> forall runs st, Forall writable_run runs -> (forall r, In r runs -> absorb (filled r) (h r) = filled r) ->
  (forall r, In r runs -> (r_start (h r) = 0%Z \/ r_start (h r) = r_start r) /\ (r_end (h r) = 0%Z \/ r_end (h r) = r_end r)) ->
  s_runs st = map h runs -> NoDup (map r_id runs) ->
  exists a b, put_equipments (map to_equipment runs) st = Ok (set_times a b (set_runs (map filled runs) st)) /\
    (runs <> [] -> exists l0 l1, earliest (s_start st :: l0) a /\ latest (s_end st :: l1) b /\ (forall u, In u l0 -> u = 0%Z \/ In u (map r_start runs)) /\ (forall u, In u l1 -> u = 0%Z \/ In u (map r_end runs)) /\
       ((forall r, In r runs -> h r = filled r) -> l0 = map r_start runs /\ l1 = map r_end runs)) /\
    (runs = [] -> a = s_start st /\ b = s_end st).
Proof.
  intros H runs st F AB TM E ND. destruct runs as [|r post].
  - exists (s_start st), (s_end st). cbn [map put_equipments] in *. split; [rewrite <- E; destruct st; reflexivity|]. split; [congruence|intros _; split; reflexivity].
  - inversion F as [|? ? W F']; subst. cbn [map put_equipments] in *. rewrite (to_run_filled r W). cbn [bindR]. inversion ND as [|? ? NI ND']; subst.
    assert (NX : forall y, In y (map h post) -> r_id y <> r_id r).
    { intros y I X. apply NI. apply in_map_iff in I as (z & <- & I). rewrite H in X. rewrite <- X. apply in_map. exact I. }
    set (st1 := set_runs (filled r :: map h post) st).
    assert (P : put_item (filled r) st = update_time st1).
    { unfold put_item. change (r_id (filled r)) with (r_id r). rewrite E. cbn [index_of]. rewrite H, text_eqb_refl. unfold st1. do 2 f_equal. change (h r :: map h post) with ([] ++ h r :: map h post). rewrite on_run_at; [|exact NX|apply H]. rewrite (AB r (or_introl eq_refl)). reflexivity. }
    rewrite P. rewrite (put_rest h H post [filled r]); [|discriminate|exact F'|intros x I; apply AB; right; exact I|reflexivity|cbn [map app]; exact ND].
    exists (s_start (update_time st1)), (s_end (update_time st1)). split; [rewrite update_time_eq; reflexivity|]. split; [|discriminate]. intros _.
    exists (map r_start (s_runs st1)), (map r_end (s_runs st1)). split; [exact (update_start st1)|]. split; [exact (update_end st1)|]. unfold st1. cbn [s_runs set_runs map].
    split; [|split].
    + intros u [<-|I]; [right; left; reflexivity|]. rewrite map_map in I. apply in_map_iff in I as (x & <- & I). destruct (TM x (or_intror I)) as ([X|X] & _); [left; exact X|right; right; rewrite X; apply in_map; exact I].
    + intros u [<-|I]; [right; left; reflexivity|]. rewrite map_map in I. apply in_map_iff in I as (x & <- & I). destruct (TM x (or_intror I)) as (_ & [X|X]); [left; exact X|right; right; rewrite X; apply in_map; exact I].
    + intros HF. rewrite !map_map. split; (apply f_equal2; [reflexivity|]); apply map_ext_in; intros x I; rewrite (HF x (or_intror I)); reflexivity.
Qed.
