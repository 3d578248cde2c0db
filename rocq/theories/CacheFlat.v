(** Flattening a field tree. *)
From Verif Require Import PyBase PyText PyFacts TextFacts PyJson PyJsonFacts CacheModel CacheSpec CacheProofs.
Local Open Scope nat_scope.

(** The leaves of a tree, by the names that lead to them. *)
Inductive leaf_in : json -> list text -> json -> Prop :=
| leaf_here l n s : In (n, s) l -> is_leaf s = true -> leaf_in (JObj l) [n] s
| leaf_below l n j names s : In (n, j) l -> is_leaf j = false -> leaf_in j names s -> leaf_in (JObj l) (n :: names) s.
Definition plain_name (n : text) : Prop := n <> [] /\ ~ In "."%char n.
Fixpoint tidy (j : json) : Prop :=
  if is_leaf j then True else
  match j with
  | JObj l => NoDup (map fst l) /\ Forall plain_name (map fst l) /\ fold_right (fun kv p => tidy (snd kv) /\ p) True l
  | _ => True
  end.
Lemma tidy_obj l : is_leaf (JObj l) = false -> tidy (JObj l) -> NoDup (map fst l) /\ Forall plain_name (map fst l) /\ Forall (fun kv => tidy (snd kv)) l.
Proof.
  intros N T. cbn [tidy] in T. rewrite N in T. destruct T as (A & B & C). split; [exact A|]. split; [exact B|]. clear -C. induction l as [|x l IH]; constructor; cbn [fold_right] in C; [apply C|apply IH, C].
Qed.
Lemma tidy_intro l : NoDup (map fst l) -> Forall plain_name (map fst l) -> Forall (fun kv => tidy (snd kv)) l -> tidy (JObj l).
Proof.
  intros A B C. cbn [tidy]. destruct (is_leaf (JObj l)); [exact I|]. split; [exact A|]. split; [exact B|]. clear -C. induction C as [|x l H C IH]; cbn [fold_right]; auto.
Qed.
Definition at_names (names : list text) : text := join (txt ".") names.
Lemma at_names_nil names : Forall plain_name names -> at_names names = [] -> names = [].
Proof. intros F E. destruct names as [|n [|m r]]; [reflexivity|..]; apply Forall_cons_iff in F as [[F _] _]; exfalso; apply F; unfold at_names in E; cbn [join] in E; [exact E|]. apply app_eq_nil in E. apply E. Qed.
Lemma at_names_inj a b : Forall plain_name a -> Forall plain_name b -> at_names a = at_names b -> a = b.
Proof.
  intros A B E. destruct a as [|x a].
  - symmetry. apply (at_names_nil b B). symmetry. exact E.
  - destruct b as [|y b]; [apply (at_names_nil _ A) in E; exact E|].
    unfold at_names in E. apply (f_equal (split_on ".")) in E. change (txt ".") with ["."%char] in E.
    rewrite !split_join in E; [exact E|discriminate| |discriminate|]; rewrite Forall_forall in *; intros w I; [apply (B _ I)|apply (A _ I)].
Qed.
Lemma dotted_at names n : Forall plain_name names -> dotted (at_names names) n = at_names (names ++ [n]).
Proof.
  intro F. unfold dotted. destruct (at_names names) as [|c r] eqn:E.
  - rewrite (at_names_nil _ F E). reflexivity.
  - rewrite <- E. assert (N : names <> []) by (intros ->; discriminate). clear E c r F. unfold at_names. revert N. induction names as [|m [|k names] IH]; intro N; [congruence|reflexivity|].
    change (join (txt ".") (m :: k :: names)) with (m ++ txt "." ++ join (txt ".") (k :: names)). change ((m :: k :: names) ++ [n]) with (m :: k :: names ++ [n]).
    change (join (txt ".") (m :: k :: names ++ [n])) with (m ++ txt "." ++ join (txt ".") ((k :: names) ++ [n])). rewrite <- IH by discriminate. rewrite <- !app_assoc. reflexivity.
Qed.

(** ** The flattened dictionary *)
Definition into (out : list (text * json)) (kv : text * json) : list (text * json) := dset text_dec (fst kv) (snd kv) out.
Definition one (prefix : text) (out : list (text * json)) (kv : text * json) : list (text * json) :=
  if is_leaf (snd kv) then dset text_dec (dotted prefix (fst kv)) (snd kv) out else fold_left into (flatten (dotted prefix (fst kv)) (snd kv)) out.
Lemma flatten_obj prefix l : flatten prefix (JObj l) = fold_left (one prefix) l [].
Proof. reflexivity. Qed.
Lemma In_dset k v (d : list (text * json)) q s : In (q, s) (dset text_dec k v d) -> (q = k /\ s = v) \/ In (q, s) d.
Proof.
  induction d as [|[k' v'] d IH]; cbn [dset]; [intros [E|[]]; injection E as <- <-; auto|]. destruct (text_dec k k') as [<- |N].
  - intros [E|I]; [injection E as <- <-; auto|right; right; exact I].
  - intros [E|I]; [right; left; exact E|]. destruct (IH I) as [X|X]; [left; exact X|right; right; exact X].
Qed.
Lemma dset_keeps k v (d : list (text * json)) q : In q (map fst d) -> In q (map fst (dset text_dec k v d)).
Proof.
  intro I. destruct (in_dec text_dec k (map fst d)) as [J|J].
  - change (map fst (dset text_dec k v d)) with (dkeys (dset text_dec k v d)). rewrite dkeys_dset_in by exact J. exact I.
  - rewrite dset_notin by exact J. rewrite map_app. apply in_or_app. left. exact I.
Qed.
Lemma dset_has k v (d : list (text * json)) : In k (map fst (dset text_dec k v d)).
Proof. pose proof (dget_dset_eq text_dec k v d) as G. apply dget_In in G. apply in_map with (f := fst) in G. exact G. Qed.
Lemma into_In l : forall out q s, In (q, s) (fold_left into l out) -> In (q, s) l \/ In (q, s) out.
Proof.
  induction l as [|[k v] l IH]; intros out q s I; [right; exact I|]. cbn [fold_left] in I. destruct (IH _ _ _ I) as [X|X]; [left; right; exact X|].
  apply In_dset in X as [[-> ->]|X]; [left; left; reflexivity|right; exact X].
Qed.
Lemma into_keeps l : forall out q, In q (map fst out) -> In q (map fst (fold_left into l out)).
Proof. induction l as [|kv l IH]; intros out q I; [exact I|]. cbn [fold_left]. apply IH, dset_keeps, I. Qed.
Lemma into_has l : forall out q, In q (map fst l) -> In q (map fst (fold_left into l out)).
Proof. induction l as [|kv l IH]; intros out q I; [destruct I|]. cbn [fold_left map] in *. destruct I as [<- |I]; [apply into_keeps, dset_has|apply IH, I]. Qed.
Lemma into_nodup l : forall out, NoDup (map fst out) -> NoDup (map fst (fold_left into l out)).
Proof. induction l as [|kv l IH]; intros out N; [exact N|]. cbn [fold_left]. apply IH. exact (NoDup_dset text_dec (fst kv) (snd kv) out N). Qed.
Lemma one_keeps prefix l : forall out q, In q (map fst out) -> In q (map fst (fold_left (one prefix) l out)).
Proof. induction l as [|kv l IH]; intros out q I; [exact I|]. cbn [fold_left]. apply IH. unfold one. destruct (is_leaf (snd kv)); [apply dset_keeps, I|apply into_keeps, I]. Qed.
Lemma one_nodup prefix l : forall out, NoDup (map fst out) -> NoDup (map fst (fold_left (one prefix) l out)).
Proof. induction l as [|kv l IH]; intros out N; [exact N|]. cbn [fold_left]. apply IH. unfold one. destruct (is_leaf (snd kv)); [exact (NoDup_dset text_dec (dotted prefix (fst kv)) (snd kv) out N)|apply into_nodup, N]. Qed.
Lemma flatten_nodup prefix j : NoDup (map fst (flatten prefix j)).
Proof. destruct j; try constructor. apply one_nodup. constructor. Qed.
Definition at_leaf (P : list text) (j : json) (q : text) (s : json) : Prop := exists names, leaf_in j names s /\ q = at_names (P ++ names).
Lemma flatten_sound j : forall P, is_leaf j = false -> tidy j -> Forall plain_name P -> forall q s, In (q, s) (flatten (at_names P) j) -> at_leaf P j q s.
Proof.
  induction j as [|b|z|r|s|l IH|l IH] using json_ind'; intros P NL T F q v I; try (destruct I; fail).
  rewrite flatten_obj in I. apply (tidy_obj _ NL) in T as (_ & N & TS).
  assert (G : forall l' out, (forall kv, In kv l' -> In kv l) -> In (q, v) (fold_left (one (at_names P)) l' out) -> at_leaf P (JObj l) q v \/ In (q, v) out).
  { induction l' as [|[k w] l' IHl]; intros out S J; [right; exact J|]. cbn [fold_left] in J. destruct (IHl _ (fun kv X => S kv (or_intror X)) J) as [X|X]; [left; exact X|].
    assert (K : In (k, w) l) by (apply S; left; reflexivity).
    assert (PK : plain_name k) by (rewrite Forall_forall in N; apply N; apply in_map with (f := fst) in K; exact K).
    unfold one in X. cbn [fst snd] in X. rewrite dotted_at in X by exact F. destruct (is_leaf w) eqn:LF.
    - apply In_dset in X as [[-> ->]|X]; [|right; exact X]. left. exists [k]. split; [apply leaf_here; assumption|reflexivity].
    - apply into_In in X as [X|X]; [|right; exact X]. left. rewrite Forall_forall in IH, TS.
      destruct (IH _ K (P ++ [k]) LF (TS _ K)) with (q := q) (s := v) as (names & LI & E); [apply Forall_app; auto|exact X|].
      exists (k :: names). split; [eapply leaf_below; eassumption|]. rewrite E, <- app_assoc. reflexivity. }
  destruct (G l [] (fun kv X => X) I) as [X|[]]. exact X.
Qed.
Lemma flatten_complete j names s : leaf_in j names s -> forall P, is_leaf j = false -> tidy j -> Forall plain_name P -> In (at_names (P ++ names)) (map fst (flatten (at_names P) j)).
Proof.
  intro L. induction L as [l n s I LF|l n j names s I LF L IH]; intros P NL T F; apply (tidy_obj _ NL) in T as (_ & N & TS); rewrite flatten_obj.
  - apply in_split in I as (l1 & l2 & ->). rewrite fold_left_app. cbn [fold_left]. apply one_keeps. unfold one. cbn [fst snd]. rewrite LF, dotted_at by exact F. apply dset_has.
  - assert (PK : plain_name n) by (rewrite Forall_forall in N; apply N; apply in_map with (f := fst) in I; exact I).
    rewrite Forall_forall in TS. pose proof (TS _ I) as TJ. cbn [snd] in TJ. apply in_split in I as (l1 & l2 & ->). rewrite fold_left_app. cbn [fold_left]. apply one_keeps. unfold one. cbn [fst snd]. rewrite LF, dotted_at by exact F.
    apply into_has. change (P ++ n :: names) with (P ++ [n] ++ names). rewrite app_assoc. apply IH; [exact LF|exact TJ|apply Forall_app; auto].
Qed.
Lemma leaf_plain j names s : leaf_in j names s -> is_leaf j = false -> tidy j -> Forall plain_name names.
Proof.
  intro L. induction L as [l n s I LF|l n j names s I LF L IH]; intros NL T; apply (tidy_obj _ NL) in T as (_ & N & TS); rewrite Forall_forall in N, TS.
  - constructor; [apply N; apply in_map with (f := fst) in I; exact I|constructor].
  - constructor; [apply N; apply in_map with (f := fst) in I; exact I|]. apply IH; [exact LF|exact (TS _ I)].
Qed.
Lemma leaf_unique j names s : leaf_in j names s -> is_leaf j = false -> tidy j -> forall s', leaf_in j names s' -> s = s'.
Proof.
  intro L. induction L as [l n s I LF|l n j names s I LF L IH]; intros NL T s' L'; apply (tidy_obj _ NL) in T as (ND & _ & TS); rewrite Forall_forall in TS.
  - inversion L'; subst.
    + apply (In_dget text_dec _ _ _ ND) in I. match goal with H : In (n, s') l |- _ => apply (In_dget text_dec _ _ _ ND) in H; congruence end.
    + match goal with H : leaf_in _ [] _ |- _ => inversion H end.
  - inversion L'; subst.
    + inversion L.
    + assert (E : j = j0).
      { apply (In_dget text_dec _ _ _ ND) in I. match goal with H : In (n, j0) l |- _ => apply (In_dget text_dec _ _ _ ND) in H; congruence end. }
      subst j0. apply IH; [exact LF|exact (TS _ I)|assumption].
Qed.
Theorem flatten_spec j : is_leaf j = false -> tidy j -> forall q s, dget text_dec q (all_fields j) = Some s <-> exists names, leaf_in j names s /\ q = at_names names.
Proof.
  intros NL T q s. unfold all_fields. change (@nil ascii) with (at_names []). split.
  - intro G. apply dget_In in G. destruct (flatten_sound j [] NL T (Forall_nil _) _ _ G) as (names & L & ->). exists names. auto.
  - intros (names & L & ->). pose proof (flatten_complete _ _ _ L [] NL T (Forall_nil _)) as K. cbn [app] in K.
    apply in_map_iff in K as ([q v] & E & K). cbn [fst] in E. subst q.
    destruct (flatten_sound j [] NL T (Forall_nil _) _ _ K) as (names' & L' & E). cbn [app] in E.
    apply at_names_inj in E; [|exact (leaf_plain _ _ _ L NL T)|exact (leaf_plain _ _ _ L' NL T)]. subst names'.
    rewrite (leaf_unique _ _ _ L NL T _ L'). apply In_dget; [apply flatten_nodup|exact K].
Qed.

(** ** The trees of classes *)
Section Fields.
Variable cls : Type.
Variable table : cls -> class cls.
Hypothesis names_differ : forall c, NoDup (map f_name (c_fields (table c))).
Hypothesis names_plain : forall c f, In f (c_fields (table c)) -> plain_name (f_name f).
Hypothesis leaves : forall c f s, In f (c_fields (table c)) -> f_kind f = Simple s -> is_leaf s = true.
Lemma entries_plain fs l : entries cls table fs l -> (forall f, In f fs -> plain_name (f_name f)) -> Forall plain_name (map fst l).
Proof.
  intro E. induction E as [|f fs l r D E IH|f fs l s D K E IH|f fs l d j' D K T E IH]; intro H; cbn [map fst]; [constructor|..].
  - apply IH. intros g I. apply H. right. exact I.
  - constructor; [apply H; left; reflexivity|]. apply IH. intros g I. apply H. right. exact I.
  - constructor; [apply H; left; reflexivity|]. apply IH. intros g I. apply H. right. exact I.
Qed.
Lemma entries_in fs l : entries cls table fs l -> forall n j, In (n, j) l -> exists f, In f fs /\ f_deprecated f = None /\ f_name f = n /\ (f_kind f = Simple j \/ exists d, f_kind f = Class d /\ tree cls table d j).
Proof.
  intro E. induction E as [|f fs l r D E IH|f fs l s D K E IH|f fs l d j' D K T E IH]; intros n j I.
  - destruct I.
  - destruct (IH _ _ I) as (g & G & R). exists g. split; [right; exact G|exact R].
  - destruct I as [I|I]; [injection I as <- <-; exists f; repeat split; auto; left; reflexivity|]. destruct (IH _ _ I) as (g & G & R). exists g. split; [right; exact G|exact R].
  - destruct I as [I|I]; [injection I as <- <-; exists f; repeat split; auto; [left; reflexivity|right; eauto]|]. destruct (IH _ _ I) as (g & G & R). exists g. split; [right; exact G|exact R].
Qed.
Lemma entries_has fs l : entries cls table fs l -> forall f, In f fs -> f_deprecated f = None -> exists j, In (f_name f, j) l /\ match f_kind f with Simple s => j = s | Class d => tree cls table d j end.
Proof.
  intro E. induction E as [|f fs l r D E IH|f fs l s D K E IH|f fs l d j' D K T E IH]; intros g I DG.
  - destruct I.
  - destruct I as [<- |I]; [congruence|exact (IH _ I DG)].
  - destruct I as [<- |I]; [exists s; rewrite K; split; [left|]; reflexivity|]. destruct (IH _ I DG) as (j & J & R). exists j. split; [right; exact J|exact R].
  - destruct I as [<- |I]; [exists j'; rewrite K; split; [left; reflexivity|exact T]|]. destruct (IH _ I DG) as (j & J & R). exists j. split; [right; exact J|exact R].
Qed.
Lemma tree_not_leaf c j : tree cls table c j -> is_leaf j = false.
Proof.
  intro T. apply tree_inv in T as (l & -> & E). cbn [is_leaf]. destruct (dget text_dec (txt "__field__") l) as [v|] eqn:G; [|reflexivity]. apply dget_In in G.
  destruct (entries_in _ _ E _ _ G) as (f & I & D & _ & [K|(d & K & T)]).
  - apply (leaves _ _ _ I) in K. destruct v; try reflexivity. discriminate.
  - apply tree_inv in T as (l' & -> & _). reflexivity.
Qed.
Lemma tree_tidy c j : tree cls table c j -> tidy j.
Proof.
  intro T. induction T as [c l E IH| |f fs l r D E IH|f fs l s D K E IH|f fs l d j D K T IT E IE] using tree_mut
    with (P0 := fun fs l _ => (forall f s, In f fs -> f_kind f = Simple s -> is_leaf s = true) -> Forall (fun kv => tidy (snd kv)) l).
  - apply tidy_intro; [exact (entries_nodup _ _ _ _ E (names_differ c))|exact (entries_plain _ _ E (names_plain c))|exact (IH (leaves c))].
  - intros _. constructor.
  - intro H. apply IH. intros g s I. apply H. right. exact I.
  - intro H. constructor; [|apply IH; intros g s' I; apply H; right; exact I]. cbn [snd]. pose proof (H f s (or_introl eq_refl) K) as LF. destruct s; try discriminate. cbn [tidy]. rewrite LF. exact I.
  - intro H. constructor; [exact IT|]. apply IE. intros g s' I. apply H. right. exact I.
Qed.
Lemma leaf_field j names s : leaf_in j names s -> forall c, tree cls table c j -> field_at table c names s.
Proof.
  intro L. induction L as [l n s I LF|l n j names s I LF L IH]; intros c T; apply tree_inv in T as (l' & E & EN); injection E as <-;
    destruct (entries_in _ _ EN _ _ I) as (f & M & D & <- & [K|(d & K & T)]).
  - eapply field_simple; eassumption.
  - rewrite (tree_not_leaf _ _ T) in LF. discriminate.
  - rewrite (leaves _ _ _ M K) in LF. discriminate.
  - eapply field_nested; try eassumption. apply IH, T.
Qed.
Lemma field_leaf c names s : field_at table c names s -> forall j, tree cls table c j -> leaf_in j names s.
Proof.
  intro F. induction F as [c f s I D K|c f d names s I D K F IH]; intros j T; apply tree_inv in T as (l & -> & E); destruct (entries_has _ _ E _ I D) as (j & J & R); rewrite K in R.
  - subst j. apply leaf_here; [exact J|exact (leaves _ _ _ I K)].
  - eapply leaf_below; [exact J|exact (tree_not_leaf _ _ R)|apply IH, R].
Qed.
Theorem fields_spec c j : tree cls table c j -> forall q s, dget text_dec q (all_fields j) = Some s <-> exists names, field_at table c names s /\ q = at_names names.
Proof.
  intros T q s. rewrite (flatten_spec j (tree_not_leaf _ _ T) (tree_tidy _ _ T)). split; intros (names & L & E); exists names; (split; [|exact E]).
  - exact (leaf_field _ _ _ L _ T).
  - exact (field_leaf _ _ _ L _ T).
Qed.
End Fields.
