(** Lemmas for the ListDict properties. *)
From Coq Require Import Permutation Sorted.
From Verif Require Import PyBase PyFacts ListDictModel ListDictSpec.

Section P.
  Context {A : Type}.
  Notation home := (home A).
  Notation obj := (obj A).

  Definition absd (d : home) : omap A := {| order := dkeys d; content := fun k => hget k d |}.

  Lemma absd_put k v (d : home) : put (absd d) k v (absd (hset k v d)).
  Proof.
    unfold put; simpl. repeat split.
    - intros H. unfold hset. now rewrite dkeys_dset_in.
    - intros H. unfold hset. rewrite dset_notin by assumption. unfold dkeys; now rewrite map_app.
    - apply dget_dset_eq.
    - intros a H. apply dget_dset_neq; assumption.
  Qed.

  Lemma ddel_split k (d : home) :
    In k (dkeys d) -> exists l1 l2, dkeys d = l1 ++ k :: l2 /\ dkeys (hdel k d) = l1 ++ l2.
  Proof.
    unfold hdel. induction d as [|[a b] d IH]; simpl; [tauto|].
    intros H. destruct (key_dec k a) as [->|n].
    - exists [], (dkeys d). auto.
    - destruct IH as (l1 & l2 & E1 & E2); [destruct H; congruence|].
      exists (a :: l1), l2. simpl. rewrite E1, E2. auto.
  Qed.

  Lemma absd_del k (d : home) :
    NoDup (dkeys d) -> In k (dkeys d) -> del (absd d) k (absd (hdel k d)).
  Proof.
    intros ND H. unfold del; simpl. split; [|split].
    - now apply ddel_split.
    - now apply dget_ddel_eq.
    - intros a Ha. now apply dget_ddel_neq.
  Qed.

  Lemma same_refl (m : omap A) : same m m.
  Proof. split; auto. Qed.

  Lemma key_from_index_Ok d z k :
    key_from_index d z = Ok k <-> at_position (absd d) z k.
  Proof.
    unfold key_from_index, at_position; simpl.
    destruct (z <? 0)%Z eqn:E.
    - apply Z.ltb_lt in E. split; [discriminate|lia].
    - apply Z.ltb_ge in E. destruct (nth_error (dkeys d) (Z.to_nat z)) eqn:N.
      + split; [intros H; injection H as ->; auto | intros [_ H]; congruence].
      + split; [discriminate | intros [_ H]; discriminate].
  Qed.

  Lemma key_from_index_Err d z e :
    key_from_index d z = Err e -> no_position (absd d) z /\ e = KeyError.
  Proof.
    intros H. split.
    - intros k Hk. apply key_from_index_Ok in Hk. congruence.
    - unfold key_from_index in H. destruct (z <? 0)%Z; [congruence|].
      destruct (nth_error _ _); congruence.
  Qed.

  Lemma key_from_object_Ok (o : obj) k : key_from_object o = Ok k <-> object_name o (Some k).
  Proof.
    unfold key_from_object. destruct (at_id o) eqn:E1; [|destruct (at_component o) eqn:E2].
    - split; [intros H; injection H as ->; now constructor|].
      inversion 1; subst; congruence.
    - split; [intros H; injection H as ->; now apply on_comp|].
      inversion 1; subst; congruence.
    - split; [discriminate|]. inversion 1; subst; congruence.
  Qed.

  Lemma key_from_object_Err (o : obj) e : key_from_object o = Err e -> object_name o None.
  Proof.
    unfold key_from_object. destruct (at_id o) eqn:E1; [discriminate|].
    destruct (at_component o) eqn:E2; [discriminate|]. intros _; now constructor.
  Qed.

  Lemma hset_NoDup k v (d : home) : NoDup (dkeys d) -> NoDup (dkeys (hset k v d)).
  Proof. apply NoDup_dset. Qed.

  Lemma puts_dupdate ps (d : home) : puts (absd d) ps (absd (dupdate key_dec d ps)).
  Proof.
    revert d; induction ps as [|[k v] ps IH]; intros d; simpl.
    - apply puts_nil, same_refl.
    - eapply puts_cons; [apply absd_put | apply IH].
  Qed.

  Lemma extend_filter other skip (d : home) :
    fst (extend d other skip) =
    dupdate key_dec d (filter (fun kv => if in_dec key_dec (fst kv) skip then false else true) other).
  Proof.
    unfold extend; simpl. revert d; induction other as [|[k v] other IH]; intros d; simpl; [reflexivity|].
    unfold memb. destruct (in_dec key_dec k skip); simpl; apply IH.
  Qed.

  Lemma update_from_listdict_ok other (d : home) :
    (forall o, ~ In (KNone, o) other) ->
    update_from_listdict d other = (dupdate key_dec d other, Done).
  Proof.
    revert d; induction other as [|[[|s] v] other IH]; intros d H; simpl; [reflexivity| |].
    - exfalso; eapply H; now left.
    - rewrite IH; [reflexivity|]. intros o Ho. eapply H; right; exact Ho.
  Qed.

  (** *** Sorting *)
  Lemma insert_key_perm k l : Permutation (k :: l) (insert_key k l).
  Proof.
    induction l as [|x l IH]; simpl; [auto|].
    destruct (String.leb k x); [auto|].
    rewrite perm_swap. now constructor.
  Qed.

  Lemma sort_strings_perm l : Permutation l (sort_strings l).
  Proof.
    induction l as [|x l IH]; simpl; [auto|].
    rewrite <- insert_key_perm. now constructor.
  Qed.

  Definition sle (a b : string) : Prop := String.leb a b = true.

  Lemma insert_key_sorted k l :
    StronglySorted sle l -> StronglySorted sle (insert_key k l).
  Proof.
    induction 1 as [|x l HS IH HF]; simpl.
    - constructor; constructor.
    - destruct (String.leb k x) eqn:E.
      + constructor; [now constructor|]. constructor; [exact E|].
        eapply Forall_impl; [|exact HF]. intros a Ha. eapply string_leb_trans; eauto.
      + constructor; [assumption|].
        assert (Hx : sle x k).
        { unfold sle. destruct (String.leb_total x k) as [H|H]; congruence. }
        eapply Permutation_Forall; [apply insert_key_perm|]. constructor; assumption.
  Qed.

  Lemma sort_strings_sorted l : StronglySorted sle (sort_strings l).
  Proof. induction l; simpl; [constructor|]. now apply insert_key_sorted. Qed.

  Lemma all_strings_Some l ss : all_strings l = Some ss -> l = map KStr ss.
  Proof.
    revert ss; induction l as [|[|s] l IH]; simpl; intros ss H.
    - now injection H as <-.
    - discriminate.
    - destruct (all_strings l); [|discriminate]. injection H as <-. simpl. f_equal. auto.
  Qed.

  Lemma all_strings_None l : all_strings l = None -> In KNone l.
  Proof.
    induction l as [|[|s] l IH]; simpl; [discriminate|now left|].
    destruct (all_strings l); [discriminate|]. auto.
  Qed.

  Lemma all_strings_map ss : all_strings (map KStr ss) = Some ss.
  Proof. induction ss as [|s ss IH]; simpl; [reflexivity|]. now rewrite IH. Qed.

  Lemma sorted_keys_spec l :
    match sorted_keys l with
    | Ok ks => Permutation l ks /\ (length l <= 1 \/ StronglySorted key_le ks)
    | Err e => e = TypeError /\ In KNone l /\ 1 < length l
    end.
  Proof.
    unfold sorted_keys. destruct (all_strings l) as [ss|] eqn:E.
    - apply all_strings_Some in E as ->. split.
      + apply Permutation_map, sort_strings_perm.
      + right. pose proof (sort_strings_sorted ss) as H.
        induction H as [|x r HS IH HF]; simpl; constructor; auto.
        rewrite Forall_map. exact HF.
    - apply all_strings_None in E. destruct (1 <? length l)%nat eqn:L.
      + apply Nat.ltb_lt in L. auto.
      + apply Nat.ltb_ge in L. auto.
  Qed.

  Lemma rebuild_fold (d : home) ks acc :
    NoDup ks -> (forall k, In k ks -> In k (dkeys d)) -> (forall k, In k ks -> ~ In k (dkeys acc)) ->
    let r := fold_left (fun od k => match hget k d with Some o => hset k o od | None => od end) ks acc in
    dkeys r = dkeys acc ++ ks /\
    (forall k, hget k r = if in_dec key_dec k ks then hget k d else hget k acc).
  Proof.
    revert acc; induction ks as [|k ks IH]; intros acc ND HI HF; cbn [fold_left].
    - simpl. rewrite app_nil_r. auto.
    - inversion ND as [|? ? Hn ND']; subst.
      destruct (hget k d) as [o|] eqn:E.
      2:{ exfalso. apply dget_None in E. apply E, HI. now left. }
      destruct (IH (hset k o acc)) as [H1 H2]; auto.
      + intros a Ha. apply HI; now right.
      + intros a Ha. unfold hset. rewrite dset_notin by (apply HF; now left).
        unfold dkeys. rewrite map_app, in_app_iff; simpl.
        intros [Hb|[Hb|[]]]; [apply (HF a); [now right|exact Hb] | subst; contradiction].
      + simpl. split.
        * rewrite H1. unfold hset. rewrite dset_notin by (apply HF; now left).
          unfold dkeys. rewrite map_app, <- app_assoc. reflexivity.
        * intros a. rewrite H2.
          destruct (in_dec key_dec a ks) as [Ha|Ha].
          -- destruct (key_dec k a); reflexivity.
          -- destruct (key_dec k a) as [->|Hka].
             ++ unfold hget, hset. rewrite dget_dset_eq. symmetry. exact E.
             ++ unfold hget, hset. rewrite dget_dset_neq by congruence. reflexivity.
  Qed.

  Lemma sort_spec (d : home) : NoDup (dkeys d) ->
    match sort d with
    | (d', Done) => Permutation (dkeys d) (dkeys d') /\ (forall k, hget k d' = hget k d) /\
                    (length (dkeys d) <= 1 \/ StronglySorted key_le (dkeys d'))
    | (d', Raised e) => d' = d /\ e = TypeError /\ In KNone (dkeys d) /\ 1 < length (dkeys d)
    | _ => False
    end.
  Proof.
    intros ND. unfold sort. pose proof (sorted_keys_spec (dkeys d)) as S.
    destruct (sorted_keys (dkeys d)) as [ks|e].
    - destruct S as [HP HS].
      destruct (rebuild_fold d ks []) as [H1 H2].
      + eapply Permutation_NoDup; eauto.
      + intros k Hk. eapply Permutation_in; [symmetry; exact HP|exact Hk].
      + auto.
      + simpl in H1. rewrite H1. split; [assumption|]. split; [|assumption].
        intros k. rewrite H2. destruct (in_dec key_dec k ks) as [Hk|Hk]; [reflexivity|].
        simpl. symmetry. apply dget_None. intros H; apply Hk. eapply Permutation_in; eauto.
    - destruct S as (-> & H1 & H2). auto.
  Qed.

  (** *** update_keys *)
  Lemma new_key_names old (o : obj) k : new_key old o = k <-> names o old k.
  Proof.
    unfold new_key. destruct (key_from_object o) eqn:E.
    - apply key_from_object_Ok in E. split.
      + intros ->. now constructor.
      + inversion 1 as [k' H1|H1]; subst.
        * apply key_from_object_Ok in E, H1. congruence.
        * exfalso. inversion E; inversion H1; congruence.
    - apply key_from_object_Err in E. split.
      + intros ->. now apply nm_anon.
      + inversion 1 as [k' H1|H1]; subst; [|reflexivity].
        exfalso. inversion E; inversion H1; congruence.
  Qed.

  Lemma update_keys_NoDup (d : home) : NoDup (dkeys (fst (update_keys d))).
  Proof.
    unfold update_keys; simpl. assert (G : forall l acc, NoDup (dkeys acc) -> NoDup (dkeys
      (fold_left (fun nh (kv : key * obj) => hset (new_key (fst kv) (snd kv)) (snd kv) nh) l acc))).
    { induction l as [|kv l IH]; intros acc H; cbn [fold_left]; [assumption|].
      apply IH. now apply hset_NoDup. }
    apply G. constructor.
  Qed.

  Lemma update_keys_as_dupdate (d : home) :
    fst (update_keys d) =
    dupdate key_dec [] (map (fun kv => (new_key (fst kv) (snd kv), snd kv)) d).
  Proof.
    unfold update_keys; simpl. unfold dupdate.
    generalize (@nil (key * obj)). induction d as [|kv d IH]; intros acc; simpl; [reflexivity|].
    apply IH.
  Qed.

  (** *** Every operation keeps keys unique. *)
  Lemma step_NoDup (d : home) o : NoDup (dkeys d) -> NoDup (dkeys (fst (step d o))).
  Proof.
    intros ND. destruct o as [i v|v|i|other skip|b other| | |k|]; simpl.
    - destruct i; simpl; auto using hset_NoDup.
    - now apply hset_NoDup.
    - assert (G : forall k, NoDup (dkeys (fst (delitem d k)))).
      { intros k. unfold delitem. destruct (hmem k d); simpl; [|assumption]. now apply NoDup_ddel. }
      destruct i; simpl; auto. destruct (key_from_index d z); simpl; auto.
    - change (NoDup (dkeys (fst (extend d other skip)))).
      rewrite extend_filter. now apply NoDup_dupdate.
    - destruct b; simpl; [|now apply NoDup_dupdate].
      clear -ND. revert d ND. induction other as [|[[|s] v] other IH]; intros d ND; simpl; auto.
      apply IH. now apply hset_NoDup.
    - constructor.
    - pose proof (sort_spec d ND) as S. destruct (sort d) as [d' [|e|?|?]]; simpl in *; try contradiction.
      + destruct S as (HP & _). eapply Permutation_NoDup; eauto.
      + destruct S as (-> & _). assumption.
    - unfold pop. destruct (hmem k d); simpl; [|assumption].
      destruct (truthy k).
      + destruct (rev d) as [|kv r] eqn:E; simpl; [assumption|].
        assert (d = rev r ++ [kv]) as ->.
        { rewrite <- (rev_involutive d), E. reflexivity. }
        unfold dkeys in *. rewrite map_app in ND. clear E.
        apply NoDup_remove_1 in ND. simpl in ND. now rewrite app_nil_r in ND.
      + destruct d as [|kv r]; simpl; [constructor|]. now inversion ND.
    - apply update_keys_NoDup.
  Qed.

  Lemma run_NoDup ops (d : home) : NoDup (dkeys d) -> NoDup (dkeys (fst (run d ops))).
  Proof.
    revert d; induction ops as [|o ops IH]; intros d ND; simpl; [assumption|].
    pose proof (step_NoDup d o ND) as H. destruct (step d o) as [d' x]; simpl in H.
    specialize (IH d' H). destruct (run d' ops); simpl in *; assumption.
  Qed.

  (** *** Each map operation meets its specification. *)
  Lemma step_spec (d : home) o :
    NoDup (dkeys d) -> is_map_op o ->
    spec_step (absd d) o (absd (fst (step d o))) (snd (step d o)).
  Proof.
    intros ND HM. destruct o as [i v|v|i|other skip|b other| | |k|]; simpl in *; try contradiction.
    - destruct i as [s|z|a b st| |]; simpl; try (split; [apply same_refl|reflexivity]).
      + split; [apply absd_put|reflexivity].
      + split; [reflexivity|].
        destruct (key_from_index d z) as [k|e] eqn:E.
        * left. exists k. split; [now apply key_from_index_Ok | apply absd_put].
        * right. split; [now apply key_from_index_Err in E|].
          destruct (key_from_object v) as [k|e2] eqn:E2.
          -- left. exists k. split; [now apply key_from_object_Ok|apply absd_put].
          -- right. split; [now apply key_from_object_Err in E2|apply absd_put].
    - split; [reflexivity|].
      destruct (key_from_object v) as [k|e2] eqn:E2.
      + left. exists k. split; [now apply key_from_object_Ok|apply absd_put].
      + right. split; [now apply key_from_object_Err in E2|].
        unfold dkeys. rewrite map_length. apply absd_put.
    - assert (G : forall k, (In k (dkeys d) /\ del (absd d) k (absd (fst (delitem d k))) /\ snd (delitem d k) = Done)
                 \/ (~ In k (dkeys d) /\ same (absd d) (absd (fst (delitem d k))) /\ snd (delitem d k) = Raised KeyError)).
      { intros k. unfold delitem. destruct (hmem k d) eqn:E; simpl.
        - left. apply dmem_true in E. auto using absd_del.
        - right. repeat split. intros H. apply (dmem_true key_dec) in H.
          unfold hmem in E. congruence. }
      destruct i as [s|z|a b st| |]; simpl; try (split; [apply same_refl|reflexivity]).
      + apply G.
      + destruct (key_from_index d z) as [k|e] eqn:E.
        * left. exists k. split; [now apply key_from_index_Ok|].
          destruct (G k) as [[_ H]|[H _]]; [assumption|].
          exfalso. apply key_from_index_Ok in E. destruct E as [_ E].
          apply H. eapply nth_error_In. exact E.
        * right. apply key_from_index_Err in E. destruct E as [E ->].
          split; [assumption|]. split; [apply same_refl|reflexivity].
      + apply G.
    - split; [|reflexivity]. change (puts (absd d)
        (filter (fun kv => if in_dec key_dec (fst kv) skip then false else true) other)
        (absd (fst (extend d other skip)))).
      rewrite extend_filter. apply puts_dupdate.
    - destruct b; simpl.
      + rewrite update_from_listdict_ok by assumption. simpl. split; [apply puts_dupdate|reflexivity].
      + split; [apply puts_dupdate|reflexivity].
    - split; [|reflexivity]. split; reflexivity.
    - pose proof (sort_spec d ND) as S. destruct (sort d) as [d' [|e|?|?]]; simpl in *; try contradiction.
      + left. intuition.
      + right. destruct S as (-> & -> & H1 & H2). repeat split; auto.
  Qed.

  Lemma run_spec ops (d : home) :
    NoDup (dkeys d) -> Forall (is_map_op (A:=A)) ops ->
    spec_run (absd d) ops (absd (fst (run d ops))) (snd (run d ops)).
  Proof.
    revert d; induction ops as [|o ops IH]; intros d ND HF; simpl.
    - constructor. apply same_refl.
    - inversion HF as [|? ? Ho HF']; subst.
      pose proof (step_spec d o ND Ho) as S. pose proof (step_NoDup d o ND) as ND'.
      destruct (step d o) as [d' x]; simpl in *. specialize (IH d' ND' HF').
      destruct (run d' ops) as [d'' xs]; simpl in *.
      econstructor; eauto.
  Qed.

  Lemma observe_absd (d : home) : observe d (absd d).
  Proof.
    split; [reflexivity|]. intros k; simpl.
    destruct (hget k d) eqn:E.
    - now apply dget_In in E.
    - now apply dget_None in E.
  Qed.

  Lemma observe_unique (d d' : home) m :
    NoDup (map fst d') -> observe d m -> observe d' m -> d = d'.
  Proof.
    intros ND [O1 C1] [O2 C2].
    assert (EK : dkeys d = dkeys d') by (unfold dkeys; congruence).
    assert (ND1 : NoDup (dkeys d)) by (rewrite EK; exact ND).
    apply (dget_ext_NoDup key_dec d d' ND1 EK). intros k.
    specialize (C1 k); specialize (C2 k). destruct (content m k) as [v|].
    - rewrite (In_dget key_dec k v d ND1 C1), (In_dget key_dec k v d' ND C2). reflexivity.
    - apply (dget_None key_dec) in C1, C2. congruence.
  Qed.

  (** *** Failed operations change nothing *)
  Lemma step_raise_unchanged (d : home) o e :
    NoDup (dkeys d) ->
    (forall other, o = OUpdate true other -> forall v, ~ In (KNone, v) other) ->
    snd (step d o) = Raised e -> fst (step d o) = d.
  Proof.
    intros ND HU. destruct o as [i v|v|i|other skip|b other| | |k|]; simpl; try discriminate.
    - destruct i; simpl; try discriminate; auto.
    - assert (G : forall k, snd (delitem d k) = Raised e -> fst (delitem d k) = d).
      { intros k. unfold delitem. destruct (hmem k d); simpl; [discriminate|reflexivity]. }
      destruct i; simpl; auto. destruct (key_from_index d z); simpl; auto.
    - destruct b; simpl; [|discriminate].
      rewrite update_from_listdict_ok by (apply (HU other); reflexivity). simpl. discriminate.
    - pose proof (sort_spec d ND) as S. destruct (sort d) as [d' [|e'|?|?]]; simpl in *; try discriminate.
      intros _. intuition.
    - unfold pop. destruct (hmem k d); simpl; [|auto].
      destruct (truthy k).
      + destruct (rev d) eqn:E; simpl; [auto|discriminate].
      + destruct d; simpl; [auto|discriminate].
  Qed.

  (** *** Last write *)
  Lemma dget_delitem k a (d : home) : NoDup (dkeys d) ->
    hget k (fst (delitem d a)) = if key_dec k a then None else hget k d.
  Proof.
    intros ND. unfold delitem. destruct (hmem a d) eqn:E; simpl.
    - destruct (key_dec k a) as [->|n]; [now apply dget_ddel_eq|now apply dget_ddel_neq].
    - destruct (key_dec k a) as [->|n]; [|reflexivity].
      unfold hmem, dmem in E. unfold hget. destruct (dget key_dec a d); congruence.
  Qed.

  Lemma last_write_run k h (d : home) :
    NoDup (dkeys d) -> hget k (fst (run d (write_ops h))) = last_write k h (hget k d).
  Proof.
    revert d; induction h as [|w h IH]; intros d ND; [reflexivity|].
    assert (G : exists o, write_ops (w :: h) = o :: write_ops h /\
      hget k (fst (step d o)) = match w with
                                | W k' v => if key_dec k k' then Some v else hget k d
                                | D k' => if key_dec k k' then None else hget k d
                                end).
    { destruct w as [[|s] v|[|s]].
      - eexists; split; [reflexivity|]. cbn [step fst]. rewrite extend_filter.
        cbn. apply dget_dset.
      - eexists; split; [reflexivity|]. cbn. apply dget_dset.
      - eexists; split; [reflexivity|]. cbn [step remove]. now apply dget_delitem.
      - eexists; split; [reflexivity|]. cbn [step remove]. now apply dget_delitem. }
    destruct G as (o & E & G). rewrite E. cbn [run].
    pose proof (step_NoDup d o ND) as ND'.
    destruct (step d o) as [d' x]; cbn [fst] in *. specialize (IH d' ND').
    destruct (run d' (write_ops h)); cbn [fst] in *. rewrite IH, G.
    destruct w; reflexivity.
  Qed.

  (** *** Positions and slices *)
  Lemma getitem_int (d : home) z k v :
    NoDup (dkeys d) -> (0 <= z)%Z -> nth_error d (Z.to_nat z) = Some (k, v) ->
    getitem d (IInt z) = Ok (inl v).
  Proof.
    intros ND Hz N. unfold getitem, key_from_index.
    destruct (z <? 0)%Z eqn:E; [apply Z.ltb_lt in E; lia|].
    unfold dkeys. rewrite nth_error_map, N. simpl.
    apply nth_error_In in N. unfold hget. now rewrite (In_dget key_dec k v d ND N).
  Qed.

  Lemma combine_seq_filter {B} (l : list B) (s a b : nat) :
    map snd (filter (fun iv : Z * B => (Z.of_nat a <=? fst iv)%Z && (fst iv <? Z.of_nat b)%Z)
                    (combine (map Z.of_nat (seq s (length l))) l)) =
    firstn (b - max s a) (skipn (a - s) l).
  Proof.
    revert s. induction l as [|x l IH]; intros s; simpl.
    - now rewrite skipn_nil, firstn_nil.
    - destruct (Z.of_nat a <=? Z.of_nat s)%Z eqn:E1; simpl.
      + apply Z.leb_le in E1. replace (a - s) with 0 by lia. simpl.
        destruct (Z.of_nat s <? Z.of_nat b)%Z eqn:E2; simpl.
        * apply Z.ltb_lt in E2. rewrite IH.
          replace (b - max s a) with (S (b - max (S s) a)) by lia. simpl.
          replace (a - S s) with 0 by lia. reflexivity.
        * apply Z.ltb_ge in E2. rewrite IH. replace (b - max s a) with 0 by lia.
          replace (b - max (S s) a) with 0 by lia. reflexivity.
      + apply Z.leb_gt in E1. rewrite IH.
        replace (max (S s) a) with (max s a) by lia.
        replace (a - s) with (S (a - S s)) by lia. reflexivity.
  Qed.

  Lemma py_slice_plain {B} (l : list B) (start stop : option Z) (a b : nat) :
    (match start with None => 0%Z | Some x => clampi 0 (Z.of_nat (length l)) (adjust (Z.of_nat (length l)) x) end = Z.of_nat a) ->
    (match stop with None => Z.of_nat (length l) | Some x => clampi 0 (Z.of_nat (length l)) (adjust (Z.of_nat (length l)) x) end = Z.of_nat b) ->
    py_slice l start stop None = Ok (firstn (b - a) (skipn a l)).
  Proof.
    intros Ha Hb. unfold py_slice. simpl. rewrite Ha, Hb. f_equal.
    pose proof (combine_seq_filter l 0 a b) as C. simpl in C.
    rewrite Nat.sub_0_r in C. rewrite <- C. f_equal. apply filter_ext.
    intros [i x]; simpl. now rewrite Z.mod_1_r, Z.eqb_refl, andb_true_r.
  Qed.

  Lemma dkeys_firstn_skipn_NoDup (d : home) a b :
    NoDup (dkeys d) -> NoDup (dkeys (firstn b (skipn a d))).
  Proof.
    intros ND.
    assert (G1 : forall n (l : home), NoDup (dkeys l) -> NoDup (dkeys (skipn n l))).
    { induction n as [|n IHn]; intros [|x l] H; simpl; auto. inversion H; auto. }
    assert (G2 : forall n (l : home), NoDup (dkeys l) -> NoDup (dkeys (firstn n l))).
    { induction n as [|n IHn]; intros [|x l] H; simpl; try constructor.
      - inversion H as [|? ? Hn H']; subst. intros HI; apply Hn.
        unfold dkeys in *. rewrite <- firstn_map in HI.
        rewrite <- (firstn_skipn n (map fst l)). apply in_or_app. now left.
      - inversion H; auto. }
    auto.
  Qed.

  Lemma index_of_spec k ks i :
    match index_of k ks i with
    | Ok j => exists n, j = (i + Z.of_nat n)%Z /\ nth_error ks n = Some k /\
                        (forall m, m < n -> nth_error ks m <> Some k)
    | Err e => e = KeyError /\ ~ In k ks
    end.
  Proof.
    revert i; induction ks as [|x ks IH]; intros i; simpl; [auto|].
    destruct (key_dec x k) as [->|n].
    - exists 0. repeat split; [lia|intros m Hm; lia].
    - specialize (IH (i + 1)%Z). destruct (index_of k ks (i + 1)) as [j|e].
      + destruct IH as (m & -> & H1 & H2). exists (S m). repeat split; [lia|exact H1|].
        intros [|q] Hq; simpl; [congruence|]. apply H2; lia.
      + destruct IH as [-> H]. split; [reflexivity|]. intuition.
  Qed.

  Lemma endpoint_resolve (d : home) dflt e p :
    NoDup (dkeys d) -> dflt <= length d -> endpoint (dkeys d) dflt e p ->
    exists z, resolve_end d e = Ok z /\
      match z with None => Z.of_nat dflt
      | Some x => clampi 0 (Z.of_nat (length d)) (adjust (Z.of_nat (length d)) x) end = Z.of_nat p.
  Proof.
    intros ND HD H. assert (L : length (dkeys d) = length d) by apply map_length.
    destruct H as [|p H|z H|p q H H'|z H|s p H]; simpl; rewrite ?L in *.
    - exists None; auto.
    - eexists; split; [reflexivity|]. unfold clampi, adjust.
      destruct (Z.ltb_spec (Z.of_nat p) 0); lia.
    - eexists; split; [reflexivity|]. unfold clampi, adjust. destruct (Z.ltb_spec z 0); lia.
    - eexists; split; [reflexivity|]. unfold clampi, adjust.
      destruct (Z.ltb_spec (- Z.of_nat q) 0); lia.
    - eexists; split; [reflexivity|]. unfold clampi, adjust. destruct (Z.ltb_spec z 0); lia.
    - unfold index_from_key. pose proof (index_of_spec (KStr s) (dkeys d) 0) as S.
      destruct (index_of (KStr s) (dkeys d) 0) as [j|e]; simpl.
      + destruct S as (n & -> & N & _). eexists; split; [reflexivity|].
        assert (n = p).
        { assert (n < length (dkeys d)) by (apply nth_error_Some; congruence).
          eapply NoDup_nth_error; eauto; congruence. }
        subst n. assert (p < length (dkeys d)) by (apply nth_error_Some; congruence).
        rewrite L in *. unfold clampi, adjust. destruct (Z.ltb_spec (0 + Z.of_nat p) 0); lia.
      + destruct S as [_ S]. exfalso. apply S. eapply nth_error_In; eauto.
  Qed.

  Lemma endpoint_le (d : home) dflt e p :
    dflt <= length d -> endpoint (dkeys d) dflt e p -> p <= length d.
  Proof.
    intros HD H. assert (L : length (dkeys d) = length d) by apply map_length.
    destruct H; try lia. assert (p < length (dkeys d)) by (apply nth_error_Some; congruence). lia.
  Qed.

  Lemma nth_error_firstn_skipn {B} (l : list B) n a i :
    i < n -> nth_error (firstn n (skipn a l)) i = nth_error l (a + i).
  Proof.
    intros H.
    assert (G1 : forall (n i : nat) (l : list B), i < n -> nth_error (firstn n l) i = nth_error l i).
    { clear. induction n as [|n IH]; intros i l H; [lia|].
      destruct l as [|x l]; destruct i as [|i]; simpl; auto. apply IH. lia. }
    assert (G2 : forall (a i : nat) (l : list B), nth_error (skipn a l) i = nth_error l (a + i)).
    { clear. induction a as [|a IH]; intros i l; [reflexivity|].
      destruct l as [|x l]; simpl; [now destruct i|]. apply IH. }
    now rewrite G1, G2.
  Qed.

  Lemma getitem_slice (d : home) ea eb a b :
    NoDup (dkeys d) -> endpoint (dkeys d) 0 ea a -> endpoint (dkeys d) (length d) eb b ->
    exists r, getitem d (ISlice ea eb None) = Ok (inr r) /\ between d a b r.
  Proof.
    intros ND Ha Hb.
    destruct (endpoint_resolve d 0 ea a ND) as (za & Ra & Ea); [lia|assumption|].
    destruct (endpoint_resolve d (length d) eb b ND) as (zb & Rb & Eb); [lia|assumption|].
    exists (firstn (b - a) (skipn a d)). split.
    - unfold getitem. rewrite Ra, Rb. cbn [bindR].
      rewrite (py_slice_plain d za zb a b Ea Eb). cbn [bindR].
      now rewrite dupdate_nil by (apply dkeys_firstn_skipn_NoDup; assumption).
    - assert (LB : b <= length d) by (eapply endpoint_le; [|exact Hb]; lia).
      split.
      + rewrite firstn_length, skipn_length. lia.
      + intros i Hi. apply nth_error_firstn_skipn.
        rewrite firstn_length in Hi. lia.
  Qed.

  Lemma sort_idempotent (d : home) d1 :
    NoDup (dkeys d) -> sort d = (d1, Done) -> sort d1 = (d1, Done).
  Proof.
    intros ND E1. pose proof (sort_spec d ND) as S. rewrite E1 in S.
    destruct S as (HP & HG & HS).
    assert (ND1 : NoDup (dkeys d1)) by (eapply Permutation_NoDup; eauto).
    pose proof (sort_spec d1 ND1) as S2.
    assert (U : forall d2, Permutation (dkeys d1) (dkeys d2) -> (forall k, hget k d2 = hget k d1) ->
       (length (dkeys d1) <= 1 \/ StronglySorted key_le (dkeys d2)) -> d2 = d1).
    { intros d2 HP2 HG2 HS2. symmetry. apply (dget_ext_NoDup key_dec d1 d2 ND1).
      2: intros k; symmetry; apply HG2.
      destruct (le_lt_dec (length (dkeys d1)) 1) as [L|L].
      - destruct (dkeys d1) as [|x [|y l]]; simpl in L; try lia.
        + apply Permutation_nil in HP2. congruence.
        + apply Permutation_length_1_inv in HP2. congruence.
      - destruct HS as [HS|HS].
        { apply Permutation_length in HP. lia. }
        destruct HS2 as [HS2|HS2]; [lia|].
        clear -HP2 HS HS2. revert HP2 HS HS2. generalize (dkeys d1), (dkeys d2).
        intros l1; induction l1 as [|x l1 IH]; intros l2 HP HS1 HS2.
        + apply Permutation_nil in HP. congruence.
        + destruct l2 as [|y l2]; [symmetry in HP; apply Permutation_nil in HP; discriminate|].
          inversion HS1 as [|? ? A1 B1]; subst. inversion HS2 as [|? ? A2 B2]; subst.
          assert (x = y) as ->.
          { assert (X : In x (y :: l2)) by (eapply Permutation_in; [exact HP|now left]).
            assert (Y : In y (x :: l1)) by (eapply Permutation_in; [symmetry; exact HP|now left]).
            destruct X as [X|X]; [congruence|]. destruct Y as [Y|Y]; [congruence|].
            rewrite Forall_forall in B1, B2. specialize (B1 y Y). specialize (B2 x X).
            destruct x, y; simpl in *; try contradiction. f_equal.
            now apply String.leb_antisym. }
          f_equal. apply IH; auto. eapply Permutation_cons_inv; eauto. }
    destruct (sort d1) as [d2 [|e|?|?]] eqn:E2; try contradiction.
    - destruct S2 as (HP2 & HG2 & HS2). f_equal. now apply U.
    - exfalso. destruct S2 as (_ & _ & HN & HL).
      destruct HS as [HS|HS].
      + apply Permutation_length in HP. lia.
      + destruct (dkeys d1) as [|x [|y l]]; simpl in HL; try lia.
        inversion HS as [|? ? A1 B1]; subst. inversion B1 as [|? ? B2 _]; subst.
        rewrite Forall_forall in B1. destruct HN as [->|HN].
        * destruct y; contradiction.
        * specialize (B1 _ HN). destruct x; contradiction.
  Qed.

  (** pop *)
  Lemma pop_truthy (d : home) k v s l :
    d = l ++ [(k, v)] -> In (KStr s) (dkeys d) -> s <> ""%string ->
    pop d (KStr s) = (l, Popped (k, v)).
  Proof.
    intros E H Hs. unfold pop.
    assert (hmem (KStr s) d = true) as -> by now apply dmem_true.
    simpl. destruct (String.eqb_spec s ""); [contradiction|]. simpl.
    rewrite E, rev_app_distr. simpl. now rewrite rev_involutive.
  Qed.
End P.
