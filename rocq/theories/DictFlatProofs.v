(** Lemmas for nested dictionaries and dotted names. *)
From Verif Require Import PyBase PyFacts PyText TextFacts DictFlatModel DictFlatSpec.

Section P.
  Context {A : Type}.
  Notation val := (val A).
  Notation dict := (dict A).

  Lemma val_ind_strong (P : val -> Prop) :
    (forall a, P (Leaf a)) ->
    (forall d, (forall k v, In (k, v) d -> P v) -> P (Node d)) ->
    forall v, P v.
  Proof.
    intros HL HN. fix IH 1. intros [a|d]; [apply HL|]. apply HN.
    induction d as [|[k v] d IHd]; intros k0 v0 H; [destruct H|].
    destruct H as [E|H]; [|exact (IHd k0 v0 H)].
    injection E as <- <-. apply IH.
  Qed.

  (** The leaves of a tree with their paths, in order. *)
  Definition under (k : text) (pa : list text * A) : list text * A := (k :: fst pa, snd pa).
  Fixpoint leaves (v : val) : list (list text * A) :=
    match v with
    | Leaf a => [([], a)]
    | Node d => (fix go (d : list (text * val)) :=
                   match d with
                   | [] => []
                   | (k, v') :: r => map (under k) (leaves v') ++ go r
                   end) d
    end.

  Lemma leaves_Node d : leaves (Node d) = flat_map (fun kv => map (under (fst kv)) (leaves (snd kv))) d.
  Proof. simpl. induction d as [|[k v] d IH]; simpl; [reflexivity|]. now rewrite IH. Qed.

  Lemma In_leaves v p a : In (p, a) (leaves v) <-> at_path v p (Leaf a).
  Proof.
    revert p a. induction v as [b|d IH] using val_ind_strong; intros p a.
    - simpl. split.
      + intros [E|[]]. injection E as <- <-. constructor.
      + inversion 1; subst. now left.
    - rewrite leaves_Node, in_flat_map. split.
      + intros ([k v] & HI & H). apply in_map_iff in H. destruct H as ([q b] & E & H).
        unfold under in E; simpl in E. injection E as <- <-. econstructor; [exact HI|].
        apply (IH k v HI). exact H.
      + inversion 1 as [|d' k v q w HI HP]; subst. exists (k, v). split; [assumption|].
        apply in_map_iff. exists (q, a). split; [reflexivity|]. now apply (IH k v HI).
  Qed.

  Lemma leaves_Node_path d p a : In (p, a) (leaves (Node d)) -> p <> [].
  Proof. rewrite In_leaves. inversion 1; discriminate. Qed.

  Lemma tidy_leaves_nonnil sep (v : val) : tidy sep v -> leaves v <> [].
  Proof.
    induction v as [b|d IH] using val_ind_strong; intros T; [discriminate|].
    inversion T as [|? ND NE H]; subst. rewrite leaves_Node.
    destruct d as [|[k v] d]; [exfalso; now apply NE|]. simpl.
    destruct (H k v) as (_ & _ & Tv); [now left|].
    specialize (IH k v (or_introl eq_refl) Tv).
    destruct (leaves v) as [|x l]; [now destruct IH|discriminate].
  Qed.

  Lemma NoDup_app {B} (l m : list B) :
    NoDup l -> NoDup m -> (forall x, In x l -> ~ In x m) -> NoDup (l ++ m).
  Proof.
    induction l as [|x l IH]; simpl; intros N1 N2 H; [assumption|].
    inversion N1 as [|? ? Hx N1']; subst. constructor.
    - rewrite in_app_iff. intros [H1|H1]; [contradiction|]. apply (H x); auto.
    - apply IH; auto.
  Qed.

  Lemma NoDup_map_inj {B C} (f : B -> C) l :
    (forall x y, In x l -> In y l -> f x = f y -> x = y) -> NoDup l -> NoDup (map f l).
  Proof.
    induction l as [|x l IH]; simpl; intros HI ND; [constructor|].
    inversion ND as [|? ? Hx ND']; subst. constructor.
    - rewrite in_map_iff. intros (y & E & Hy). apply HI in E; auto. congruence.
    - apply IH; auto.
  Qed.

  Lemma leaves_NoDup (v : val) : proper v -> NoDup (map fst (leaves v)).
  Proof.
    induction v as [b|d IH] using val_ind_strong; intros T; [repeat constructor; auto|].
    inversion T as [|? ND HP]; subst. rewrite leaves_Node. clear T.
    induction d as [|[k v] d IHd]; simpl; [constructor|].
    simpl in ND. inversion ND as [|? ? Hk ND']; subst.
    rewrite map_app. apply NoDup_app.
    - rewrite map_map. change (fun x => fst (under k x)) with (fun x : list text * A => k :: fst x).
      rewrite <- map_map with (g := cons k). apply NoDup_map_inj; [congruence|].
      apply (IH k v); [now left|]. apply (HP k v). now left.
    - apply IHd; auto.
      + intros k0 v0 H. apply (IH k0 v0). now right.
      + intros k0 v0 H. apply (HP k0 v0). now right.
    - intros p H1 H2. apply in_map_iff in H1, H2.
      destruct H1 as ([p1 a1] & E1 & H1). destruct H2 as ([p2 a2] & E2 & H2). simpl in *; subst.
      apply in_map_iff in H1. destruct H1 as ([q b] & E & _). unfold under in E; simpl in E.
      injection E as <- <-. apply in_flat_map in H2. destruct H2 as ([k' v'] & H2 & H3).
      apply in_map_iff in H3. destruct H3 as ([q' b'] & E & _). unfold under in E; simpl in E.
      injection E as -> -> ->. apply Hk. apply in_map_iff. exists (k, v'). auto.
  Qed.

  Lemma tidy_proper sep (v : val) : tidy sep v -> proper v.
  Proof.
    induction v as [b|d IH] using val_ind_strong; intros T; [constructor|].
    inversion T as [|? ND NE H]; subst. constructor; [assumption|].
    intros k v HI. destruct (H k v HI) as (_ & _ & Tv). eauto.
  Qed.

  (** Keys usable in a dotted name. *)
  Definition okkey (sep : ascii) (k : text) : Prop := k <> [] /\ ~ In sep k.

  Lemma tidy_path_ok sep (v w : val) p : tidy sep v -> at_path v p w -> forall k, In k p -> okkey sep k.
  Proof.
    intros T H. induction H as [|d k v p w HI HP IH]; [simpl; tauto|].
    inversion T as [|? ND NE HT]; subst. destruct (HT k v HI) as (H1 & H2 & Tv).
    intros x [<-|Hx]; [split; assumption|]. now apply IH.
  Qed.

  Lemma join_snoc sep p k : p <> [] -> join [sep] (p ++ [k]) = join [sep] p ++ [sep] ++ k.
  Proof.
    induction p as [|x p IH]; [congruence|]. intros _. destruct p as [|y p].
    - reflexivity.
    - change ((x :: y :: p) ++ [k]) with (x :: ((y :: p) ++ [k])).
      assert (E : join [sep] (x :: ((y :: p) ++ [k])) = x ++ [sep] ++ join [sep] ((y :: p) ++ [k])) by reflexivity.
      rewrite E, IH by discriminate.
      change (join [sep] (x :: y :: p)) with (x ++ [sep] ++ join [sep] (y :: p)).
      now rewrite <- !app_assoc.
  Qed.

  Lemma join_ok_nonnil sep p : p <> [] -> (forall k, In k p -> okkey sep k) -> join [sep] p <> [].
  Proof.
    destruct p as [|x p]; [congruence|]. intros _ H. destruct (H x (or_introl eq_refl)) as [H1 _].
    destruct x; [congruence|]. destruct p; discriminate.
  Qed.

  Lemma new_key_join sep p k :
    (forall x, In x p -> okkey sep x) -> new_key sep (join [sep] p) k = join [sep] (p ++ [k]).
  Proof.
    intros H. unfold new_key. destruct p as [|x p]; [reflexivity|].
    rewrite join_snoc by discriminate.
    pose proof (join_ok_nonnil sep (x :: p)) as N. specialize (N ltac:(discriminate) H).
    destruct (join [sep] (x :: p)) eqn:E; [congruence|]. reflexivity.
  Qed.

  Lemma join_inj sep p q :
    p <> [] -> q <> [] -> (forall k, In k p -> okkey sep k) -> (forall k, In k q -> okkey sep k) ->
    join [sep] p = join [sep] q -> p = q.
  Proof.
    intros Np Nq Hp Hq E. apply (f_equal (split_on sep)) in E.
    rewrite !split_join in E; auto.
    - intros w Hw. apply Hq; assumption.
    - intros w Hw. apply Hp; assumption.
  Qed.

  Lemma flat_val_Node sep parent (d : dict) :
    flat_val sep parent (Node d) =
    dupdate text_dec [] (flat_map (fun kv => flat_val sep (new_key sep parent (fst kv)) (snd kv)) d).
  Proof.
    simpl. f_equal. induction d as [|[k v] d IH]; simpl; [reflexivity|]. now rewrite IH.
  Qed.

  Definition named (sep : ascii) (pp : list text) (pa : list text * A) : text * A :=
    (join [sep] (pp ++ fst pa), snd pa).

  Lemma flat_val_leaves sep v : tidy sep v -> forall pp, (forall k, In k pp -> okkey sep k) ->
    flat_val sep (join [sep] pp) v = map (named sep pp) (leaves v).
  Proof.
    induction v as [b|d IH] using val_ind_strong; intros T pp HP.
    - simpl. unfold named; simpl. now rewrite app_nil_r.
    - pose proof (tidy_proper _ _ T) as PR.
      inversion T as [|? ND NE HT]; subst. rewrite flat_val_Node.
      assert (E : flat_map (fun kv => flat_val sep (new_key sep (join [sep] pp) (fst kv)) (snd kv)) d
                  = map (named sep pp) (leaves (Node d))).
      { rewrite leaves_Node. clear T PR ND NE. induction d as [|[k v] d IHd]; simpl; [reflexivity|].
        rewrite map_app. f_equal.
        - destruct (HT k v) as (H1 & H2 & Tv); [now left|].
          rewrite new_key_join by assumption.
          rewrite (IH k v (or_introl eq_refl) Tv).
          + rewrite map_map. apply map_ext. intros [q a]. unfold named, under; simpl.
            now rewrite <- app_assoc.
          + intros x Hx. apply in_app_iff in Hx. destruct Hx as [Hx|[<-|[]]]; [auto|split; assumption].
        - apply IHd.
          + intros k0 v0 H. apply (IH k0 v0). now right.
          + intros k0 v0 H. apply (HT k0 v0). now right. }
      rewrite E. apply dupdate_nil. unfold dkeys. rewrite map_map.
      change (fun x => fst (named sep pp x)) with (fun x : list text * A => join [sep] (pp ++ fst x)).
      rewrite <- map_map with (f := fst) (g := fun p => join [sep] (pp ++ p)).
      apply NoDup_map_inj; [|now apply leaves_NoDup].
      intros p q Hp Hq EJ. apply in_map_iff in Hp, Hq.
      destruct Hp as ([p1 a1] & <- & Hp). destruct Hq as ([q1 b1] & <- & Hq). simpl in *.
      assert (Np : p1 <> []) by (eapply leaves_Node_path; exact Hp).
      assert (Nq : q1 <> []) by (eapply leaves_Node_path; exact Hq).
      apply (In_leaves (Node d)) in Hp, Hq.
      apply join_inj in EJ.
      + now apply app_inv_head in EJ.
      + destruct pp; [exact Np|intros X; discriminate X].
      + destruct pp; [exact Nq|intros X; discriminate X].
      + intros k Hk. apply in_app_iff in Hk. destruct Hk; [auto|]. eapply tidy_path_ok; [exact T|exact Hp|assumption].
      + intros k Hk. apply in_app_iff in Hk. destruct Hk; [auto|]. eapply tidy_path_ok; [exact T|exact Hq|assumption].
  Qed.

  Lemma flatten_leaves sep (d : dict) : tidy_top sep d ->
    flatten_dict sep d = map (named sep []) (leaves (Node d)).
  Proof.
    intros [->|T]; [reflexivity|]. unfold flatten_dict.
    apply (flat_val_leaves sep (Node d) T []). simpl; tauto.
  Qed.

  (** *** Restructuring *)
  Fixpoint putall (L : list (list text * A)) (acc : dict) : result dict :=
    match L with
    | [] => Ok acc
    | (p, a) :: r => bindR (put_parts p (Leaf a) acc) (putall r)
    end.

  Lemma putall_app L M acc : putall (L ++ M) acc = bindR (putall L acc) (putall M).
  Proof.
    revert acc; induction L as [|[p a] L IH]; intros acc; simpl; [reflexivity|].
    destruct (put_parts p (Leaf a) acc); simpl; [apply IH|reflexivity].
  Qed.

  Lemma dset_last k (v w : val) acc :
    ~ In k (dkeys acc) -> dset text_dec k v (acc ++ [(k, w)]) = acc ++ [(k, v)].
  Proof.
    induction acc as [|[x y] acc IH]; simpl; intros H.
    - destruct (text_dec k k); congruence.
    - destruct (text_dec k x); [exfalso; apply H; now left|]. f_equal. apply IH. tauto.
  Qed.

  Lemma dget_last k (w : val) acc :
    ~ In k (dkeys acc) -> dget text_dec k (acc ++ [(k, w)]) = Some w.
  Proof.
    intros H. rewrite dget_app. apply (dget_None text_dec) in H. rewrite H. simpl.
    destruct (text_dec k k); congruence.
  Qed.

  Lemma put_parts_cons k p (v : val) d : p <> [] ->
    put_parts (k :: p) v d =
    match dget text_dec k d with
    | None => bindR (put_parts p v []) (fun n => Ok (dset text_dec k (Node n) d))
    | Some (Node n) => bindR (put_parts p v n) (fun n' => Ok (dset text_dec k (Node n') d))
    | Some (Leaf _) => Err (match p with [_] => TypeError | _ => AttributeError end)
    end.
  Proof. destruct p; [congruence|]. reflexivity. Qed.

  Lemma putall_under_existing k L acc m n :
    (forall p a, In (p, a) L -> p <> []) -> ~ In k (dkeys acc) ->
    putall L m = Ok n ->
    putall (map (under k) L) (acc ++ [(k, Node m)]) = Ok (acc ++ [(k, Node n)]).
  Proof.
    revert m; induction L as [|[p a] L IH]; intros m HN HK E; cbn [map under fst snd putall] in *.
    - now injection E as ->.
    - assert (Np : p <> []) by (eapply HN; now left).
      rewrite put_parts_cons by assumption. rewrite dget_last by assumption.
      destruct (put_parts p (Leaf a) m) as [m'|] eqn:Ep; [|discriminate]. cbn [bindR] in *.
      rewrite dset_last by assumption.
      apply IH; auto. intros q b H. eapply HN. right. exact H.
  Qed.

  Lemma putall_under_fresh k L acc n :
    L <> [] -> (forall p a, In (p, a) L -> p <> []) -> ~ In k (dkeys acc) ->
    putall L [] = Ok n ->
    putall (map (under k) L) acc = Ok (acc ++ [(k, Node n)]).
  Proof.
    destruct L as [|[p a] L]; [congruence|]. intros _ HN HK E.
    assert (Np : p <> []) by (eapply HN; now left).
    cbn [map under fst snd putall] in *. rewrite put_parts_cons by assumption.
    apply (dget_None text_dec) in HK. rewrite HK. apply (dget_None text_dec) in HK.
    destruct (put_parts p (Leaf a) []) as [m|] eqn:Ep; [|discriminate].
    cbn [bindR] in *. rewrite dset_notin by assumption.
    apply putall_under_existing; auto. intros q b H. eapply HN. right. exact H.
  Qed.

  Lemma putall_leaves sep v : tidy sep v -> forall d, v = Node d -> forall acc,
    (forall k, In k (map fst d) -> ~ In k (dkeys acc)) ->
    putall (leaves (Node d)) acc = Ok (acc ++ d).
  Proof.
    induction v as [b|d0 IH] using val_ind_strong; intros T d E acc HD; [discriminate|].
    injection E as ->. inversion T as [|? ND NE HT]; subst. rewrite leaves_Node.
    clear T NE. revert acc HD. induction d as [|[k v] d IHd]; intros acc HD; simpl.
    - now rewrite app_nil_r.
    - simpl in ND. inversion ND as [|? ? Hk ND']; subst.
      rewrite putall_app. destruct (HT k v) as (H1 & H2 & Tv); [now left|].
      assert (HKA : ~ In k (dkeys acc)) by (apply HD; now left).
      assert (E : putall (map (under k) (leaves v)) acc = Ok (acc ++ [(k, v)])).
      { destruct v as [a|n].
        - simpl. now rewrite dset_notin by assumption.
        - apply putall_under_fresh; auto.
          + eapply tidy_leaves_nonnil; eauto.
          + intros p a. apply leaves_Node_path.
          + apply (IH k (Node n) (or_introl eq_refl) Tv n eq_refl []). auto. }
      rewrite E. simpl. replace (acc ++ (k, v) :: d) with ((acc ++ [(k, v)]) ++ d) by (rewrite <- app_assoc; reflexivity).
      apply IHd; auto.
      + intros k0 v0 H. apply (IH k0 v0). now right.
      + intros k0 v0 H. apply (HT k0 v0). now right.
      + intros x Hx. unfold dkeys. rewrite map_app, in_app_iff. simpl.
        intros [H|[<-|[]]]; [|contradiction]. apply (HD x); [now right|exact H].
  Qed.

  Lemma parts_of_dot name : parts_of "." name = split_on "." name.
  Proof. unfold parts_of. now rewrite split_on_split1. Qed.

  Lemma structure_putall (L : list (list text * A)) acc :
    (forall p a, In (p, a) L -> p <> [] /\ forall k, In k p -> ~ In "."%char k) ->
    structure_from "." (as_items (map (named "." []) L)) acc = putall L acc.
  Proof.
    revert acc; induction L as [|[p a] L IH]; intros acc H; simpl; [reflexivity|].
    rewrite parts_of_dot. destruct (H p a (or_introl eq_refl)) as [H1 H2].
    rewrite split_join by auto. destruct (put_parts p (Leaf a) acc); simpl; [|reflexivity].
    apply IH. intros q b Hq. apply (H q b). now right.
  Qed.

  Lemma structure_flatten (d : dict) :
    tidy_top "." d -> structure_dict "." (as_items (flatten_dict "." d)) = Ok d.
  Proof.
    intros T. rewrite flatten_leaves by assumption. unfold structure_dict.
    rewrite structure_putall.
    - destruct T as [->|T]; [reflexivity|].
      apply (putall_leaves "." (Node d) T d eq_refl []). auto.
    - intros p a H. split; [eapply leaves_Node_path; eauto|].
      intros k Hk. destruct T as [->|T]; [destruct H|].
      apply In_leaves in H. eapply tidy_path_ok; eauto.
  Qed.

  Lemma flatten_spec sep (d : dict) n a : tidy_top sep d ->
    (In (n, a) (flatten_dict sep d) <-> exists p, n = dotted sep p /\ at_path (Node d) p (Leaf a)).
  Proof.
    intros T. rewrite flatten_leaves by assumption. rewrite in_map_iff. split.
    - intros ([p b] & E & H). unfold named in E; simpl in E. injection E as <- ->.
      exists p. split; [reflexivity|]. now apply In_leaves.
    - intros (p & -> & H). exists (p, a). split; [reflexivity|]. now apply In_leaves.
  Qed.

  Lemma flatten_NoDup sep (d : dict) : NoDup (map fst (flatten_dict sep d)).
  Proof. unfold flatten_dict. rewrite flat_val_Node. apply NoDup_dupdate. constructor. Qed.

  (** *** Attribute paths *)
  Lemma getattr_parts_cons k p (o : val) : p <> [] ->
    getattr_parts (k :: p) o = match attr k o with Some o' => getattr_parts p o' | None => Err AttributeError end.
  Proof. destruct p; [congruence|reflexivity]. Qed.

  Lemma setattr_parts_cons coerce base k p v (o : val) : p <> [] ->
    setattr_parts coerce base (k :: p) v o =
    match o with
    | Node d => match dget text_dec k d with
                | Some o' => bindR (setattr_parts coerce (base ++ [k]) p v o')
                                   (fun o'' => Ok (Node (dset text_dec k o'' d)))
                | None => Err AttributeError
                end
    | Leaf _ => Err AttributeError
    end.
  Proof. destruct p; [congruence|reflexivity]. Qed.

  Lemma set_then_get coerce p : forall base v (o o' : val),
    p <> [] -> setattr_parts coerce base p v o = Ok o' ->
    exists v', coerce (base ++ p) v = Ok v' /\ getattr_parts p o' = Ok (Some v').
  Proof.
    induction p as [|k p IH]; intros base v o o' Np E; [congruence|].
    destruct p as [|k2 p].
    - simpl in E. destruct o as [a|d]; [discriminate|].
      destruct (coerce (base ++ [k]) v) as [v'|] eqn:Ec; [|discriminate]. simpl in E.
      injection E as <-. exists v'. split; [reflexivity|]. simpl. now rewrite dget_dset_eq.
    - rewrite setattr_parts_cons in E by discriminate. destruct o as [a|d]; [discriminate|].
      destruct (dget text_dec k d) as [o1|] eqn:Ed; [|discriminate].
      destruct (setattr_parts coerce (base ++ [k]) (k2 :: p) v o1) as [o2|] eqn:Es; [|discriminate].
      simpl in E. injection E as <-. destruct (IH _ _ _ _ ltac:(discriminate) Es) as (v' & Ec & Eg).
      exists v'. rewrite <- app_assoc in Ec. split; [exact Ec|].
      rewrite getattr_parts_cons by discriminate. simpl attr. now rewrite dget_dset_eq.
  Qed.

  Lemma is_prefix_cons_l k (p q : list text) : is_prefix p q -> is_prefix (k :: p) (k :: q).
  Proof. intros [r ->]. now exists r. Qed.

  Lemma unrelated_cons k p q : unrelated (k :: p) (k :: q) -> unrelated p q.
  Proof. intros [H1 H2]. split; intros H; [apply H1|apply H2]; now apply is_prefix_cons_l. Qed.

  Lemma set_frame coerce p : forall base v (o o' : val) q,
    p <> [] -> q <> [] -> unrelated p q -> setattr_parts coerce base p v o = Ok o' ->
    getattr_parts q o' = getattr_parts q o.
  Proof.
    induction p as [|k p IH]; intros base v o o' q Np Nq U E; [congruence|].
    destruct q as [|j q]; [congruence|].
    destruct (text_dec j k) as [->|Hjk].
    - destruct p as [|k2 p].
      { exfalso. apply (proj1 U). now exists q. }
      destruct q as [|j2 q].
      { exfalso. apply (proj2 U). now exists (k2 :: p). }
      apply unrelated_cons in U.
      rewrite setattr_parts_cons in E by discriminate. destruct o as [a|d]; [discriminate|].
      destruct (dget text_dec k d) as [o1|] eqn:Ed; [|discriminate].
      destruct (setattr_parts coerce (base ++ [k]) (k2 :: p) v o1) as [o2|] eqn:Es; [|discriminate].
      simpl in E. injection E as <-.
      rewrite !getattr_parts_cons by discriminate. simpl attr. rewrite dget_dset_eq, Ed.
      eapply IH; eauto; discriminate.
    - assert (G : attr j o' = attr j o).
      { destruct p as [|k2 p].
        - simpl in E. destruct o as [a|d]; [discriminate|].
          destruct (coerce (base ++ [k]) v) as [v'|]; [|discriminate]. simpl in E.
          injection E as <-. simpl. now apply dget_dset_neq.
        - rewrite setattr_parts_cons in E by discriminate. destruct o as [a|d]; [discriminate|].
          destruct (dget text_dec k d) as [o1|]; [|discriminate].
          destruct (setattr_parts coerce (base ++ [k]) (k2 :: p) v o1) as [o2|]; [|discriminate].
          simpl in E. injection E as <-. simpl. now apply dget_dset_neq. }
      destruct q as [|j2 q]; simpl; now rewrite G.
  Qed.

  Lemma update_parts_cons coerce base k p v (o : val) : p <> [] ->
    update_parts coerce base (k :: p) v o =
    match attr k o, o with
    | Some o', Node d => bindR (update_parts coerce (base ++ [k]) p v o')
                               (fun o'' => Ok (Node (dset text_dec k o'' d)))
    | _, _ => Err AttributeError
    end.
  Proof. destruct p; [congruence|reflexivity]. Qed.

  Lemma dset_dset k (v w : val) d : dset text_dec k v (dset text_dec k w d) = dset text_dec k v d.
  Proof.
    induction d as [|[x y] d IH]; simpl.
    - destruct (text_dec k k); congruence.
    - destruct (text_dec k x) as [->|n]; simpl.
      + destruct (text_dec x x); congruence.
      + destruct (text_dec k x); [congruence|]. now rewrite IH.
  Qed.

  Lemma update_is_set coerce p : forall base v (o : val),
    update_parts coerce base p v o = setattr_parts coerce base p v o.
  Proof.
    induction p as [|k p IH]; intros base v o; [reflexivity|].
    destruct p as [|k2 p].
    - simpl. destruct o as [a|d]; [reflexivity|].
      destruct (coerce (base ++ [k]) v); simpl; [|reflexivity]. now rewrite dset_dset.
    - rewrite update_parts_cons, setattr_parts_cons by discriminate.
      destruct o as [a|d]; [reflexivity|]. simpl attr.
      destruct (dget text_dec k d); [|reflexivity]. now rewrite IH.
  Qed.

  Lemma update_attribute_is_set coerce name v (o : val) :
    update_attribute coerce name v o = set_attr_from_name coerce name v o.
  Proof.
    unfold update_attribute, set_attr_from_name. destruct (has_char "." name) eqn:E.
    - apply update_is_set.
    - apply has_char_notIn in E. rewrite split_on_no by assumption. reflexivity.
  Qed.

  (** *** Building nested data *)
  Lemma set_nested_cons k p (v : val) d : p <> [] ->
    set_nested (k :: p) v d =
    dset text_dec k (Node (set_nested p v (match dget text_dec k d with Some (Node n) => n | _ => [] end))) d.
  Proof. destruct p; [congruence|reflexivity]. Qed.

  Lemma nested_get p : forall (v : val) d, p <> [] -> getattr_parts p (Node (set_nested p v d)) = Ok (Some v).
  Proof.
    induction p as [|k p IH]; intros v d Np; [congruence|].
    destruct p as [|k2 p].
    - simpl. now rewrite dget_dset_eq.
    - rewrite set_nested_cons, getattr_parts_cons by discriminate. simpl attr.
      rewrite dget_dset_eq. apply IH. discriminate.
  Qed.

  Lemma found_cons k q (d : dict) : q <> [] ->
    found (k :: q) d = match dget text_dec k d with Some (Node n) => found q n | _ => None end.
  Proof.
    intros Nq. unfold found. rewrite getattr_parts_cons by assumption. simpl attr.
    destruct (dget text_dec k d) as [[a|n]|]; try reflexivity.
    destruct q as [|x [|y q]]; [congruence| |]; reflexivity.
  Qed.

  Lemma found_nil q : q <> [] -> found q ([] : dict) = None.
  Proof. destruct q as [|x [|y q]]; [congruence| |]; reflexivity. Qed.

  Lemma nested_frame p : forall (v : val) d q, p <> [] -> q <> [] -> unrelated p q ->
    found q (set_nested p v d) = found q d.
  Proof.
    induction p as [|k p IH]; intros v d q Np Nq U; [congruence|].
    destruct q as [|j q]; [congruence|].
    destruct (text_dec j k) as [->|Hjk].
    - destruct p as [|k2 p]; [exfalso; apply (proj1 U); now exists q|].
      destruct q as [|j2 q]; [exfalso; apply (proj2 U); now exists (k2 :: p)|].
      apply unrelated_cons in U. rewrite set_nested_cons by discriminate.
      rewrite !found_cons by discriminate. rewrite dget_dset_eq.
      rewrite IH by (auto; discriminate).
      destruct (dget text_dec k d) as [[a|n]|]; try reflexivity; apply found_nil; discriminate.
    - assert (G : dget text_dec j (set_nested (k :: p) v d) = dget text_dec j d).
      { destruct p; [simpl|rewrite set_nested_cons by discriminate]; now apply dget_dset_neq. }
      destruct q as [|j2 q].
      + unfold found. cbn [getattr_parts attr]. now rewrite G.
      + rewrite !found_cons by discriminate. now rewrite G.
  Qed.

  Lemma dget_set_nested_other j k p (v : val) d : j <> k ->
    dget text_dec j (set_nested (k :: p) v d) = dget text_dec j d.
  Proof.
    intros H. destruct p; [simpl|rewrite set_nested_cons by discriminate]; now apply dget_dset_neq.
  Qed.

  (** *** The constructor's data *)

  Lemma init_entry_dotted cls st k (v : val) :
    has_char "." k = true -> init_entry cls st (k, v) = (fst st, set_nested (split_on "." k) v (snd st)).
  Proof. intros H. unfold init_entry. destruct st. now rewrite H. Qed.

  Lemma init_entry_plain cls st k (v : val) :
    has_char "." k = false -> k <> cls -> init_entry cls st (k, v) = (dset text_dec k v (fst st), snd st).
  Proof.
    intros H N. unfold init_entry. destruct st. rewrite H. destruct (text_dec k cls); [congruence|reflexivity].
  Qed.

  Lemma init_flat_other cls (kw : dict) st k : no_class_key cls kw -> ~ In k (map fst kw) ->
    dget text_dec k (fst (fold_left (init_entry cls) kw st)) = dget text_dec k (fst st).
  Proof.
    revert st; induction kw as [|[x v] kw IH]; intros st NC NI; [reflexivity|].
    cbn [fold_left]. rewrite IH.
    - destruct (has_char "." x) eqn:E.
      + now rewrite init_entry_dotted.
      + rewrite init_entry_plain; [|assumption|apply (NC (x, v)); now left]. simpl.
        apply dget_dset_neq. intros ->. apply NI. now left.
    - intros kv H. apply NC. now right.
    - intros H. apply NI. now right.
  Qed.

  Lemma init_flat_get cls (kw : dict) st k v : no_class_key cls kw -> NoDup (map fst kw) ->
    In (k, v) kw -> has_char "." k = false ->
    dget text_dec k (fst (fold_left (init_entry cls) kw st)) = Some v.
  Proof.
    revert st; induction kw as [|[x w] kw IH]; intros st NC ND HI HK; [destruct HI|].
    cbn [fold_left]. simpl in ND. inversion ND as [|? ? Hx ND']; subst.
    assert (NC' : no_class_key cls kw) by (intros kv H; apply NC; now right).
    destruct HI as [E|HI].
    - injection E as -> ->. rewrite init_flat_other by assumption.
      rewrite init_entry_plain; [|assumption|apply (NC (k, v)); now left]. simpl. apply dget_dset_eq.
    - now apply IH.
  Qed.

  Lemma init_nested_top cls (kw : dict) st k : no_class_key cls kw ->
    (forall x v, In (x, v) kw -> has_char "." x = true -> forall r, split_on "." x <> k :: r) ->
    dget text_dec k (snd (fold_left (init_entry cls) kw st)) = dget text_dec k (snd st).
  Proof.
    revert st; induction kw as [|[x v] kw IH]; intros st NC H; [reflexivity|].
    cbn [fold_left]. rewrite IH.
    - destruct (has_char "." x) eqn:E.
      + rewrite init_entry_dotted by assumption. simpl.
        specialize (H x v (or_introl eq_refl) E).
        destruct (split_on "." x) as [|y r] eqn:Es; [reflexivity|].
        apply dget_set_nested_other. intros ->. now apply (H r).
      + rewrite init_entry_plain; [reflexivity|assumption|apply (NC (x, v)); now left].
    - intros kv HI. apply NC. now right.
    - intros y w HI. apply (H y w). now right.
  Qed.

  Lemma init_nested_other cls (kw : dict) st q : no_class_key cls kw -> q <> [] ->
    (forall x v, In (x, v) kw -> has_char "." x = true -> unrelated (split_on "." x) q) ->
    found q (snd (fold_left (init_entry cls) kw st)) = found q (snd st).
  Proof.
    revert st; induction kw as [|[x v] kw IH]; intros st NC Nq H; [reflexivity|].
    cbn [fold_left]. rewrite IH.
    - destruct (has_char "." x) eqn:E.
      + rewrite init_entry_dotted by assumption. simpl.
        apply nested_frame; [apply split_on_nonnil|assumption|].
        apply (H x v); [now left|assumption].
      + rewrite init_entry_plain; [reflexivity|assumption|apply (NC (x, v)); now left].
    - intros kv HI. apply NC. now right.
    - assumption.
    - intros y w HI. apply (H y w). now right.
  Qed.

  Lemma init_nested_get cls (kw : dict) st k v : no_class_key cls kw -> NoDup (map fst kw) ->
    In (k, v) kw -> has_char "." k = true ->
    (forall x w, In (x, w) kw -> has_char "." x = true -> x <> k -> unrelated (split_on "." x) (split_on "." k)) ->
    found (split_on "." k) (snd (fold_left (init_entry cls) kw st)) = Some v.
  Proof.
    revert st; induction kw as [|[x w] kw IH]; intros st NC ND HI HK HU; [destruct HI|].
    cbn [fold_left]. simpl in ND. inversion ND as [|? ? Hx ND']; subst.
    assert (NC' : no_class_key cls kw) by (intros kv H; apply NC; now right).
    destruct HI as [E|HI].
    - injection E as -> ->. rewrite init_nested_other; auto.
      + rewrite init_entry_dotted by assumption. simpl. unfold found.
        now rewrite nested_get by apply split_on_nonnil.
      + apply split_on_nonnil.
      + intros y u Hy Hd. apply (HU y u); [now right|assumption|].
        intros ->. apply Hx. apply in_map_iff. now exists (k, u).
    - apply IH; auto. intros y u Hy. apply (HU y u). now right.
  Qed.

  Lemma set_nested_NoDup p (v : val) d : NoDup (dkeys d) -> NoDup (dkeys (set_nested p v d)).
  Proof.
    intros ND. destruct p as [|k [|k2 p]]; [assumption|now apply NoDup_dset|].
    rewrite set_nested_cons by discriminate. now apply NoDup_dset.
  Qed.

  Lemma init_nested_NoDup cls (kw : dict) st : no_class_key cls kw -> NoDup (dkeys (snd st)) ->
    NoDup (dkeys (snd (fold_left (init_entry cls) kw st))).
  Proof.
    revert st; induction kw as [|[x v] kw IH]; intros st NC ND; [assumption|].
    cbn [fold_left]. apply IH.
    - intros kv HI. apply NC. now right.
    - destruct (has_char "." x) eqn:E.
      + rewrite init_entry_dotted by assumption. simpl. now apply set_nested_NoDup.
      + rewrite init_entry_plain; [assumption|assumption|apply (NC (x, v)); now left].
  Qed.

  Lemma dget_rev k (d : dict) : NoDup (dkeys d) -> dget text_dec k (rev d) = dget text_dec k d.
  Proof.
    intros ND. assert (NDr : NoDup (dkeys (rev d))).
    { unfold dkeys. rewrite map_rev. now apply NoDup_rev. }
    destruct (dget text_dec k d) as [v|] eqn:E.
    - apply (In_dget text_dec); [assumption|]. apply -> in_rev. now apply (dget_In text_dec).
    - apply dget_None. apply dget_None in E. unfold dkeys in *. rewrite map_rev. now rewrite <- in_rev.
  Qed.

  Lemma init_data_get cls (kw : dict) k : no_class_key cls kw ->
    dget text_dec k (init_data cls kw) =
    match dget text_dec k (snd (fold_left (init_entry cls) kw ([], []))) with
    | Some v => Some v
    | None => dget text_dec k (fst (fold_left (init_entry cls) kw ([], [])))
    end.
  Proof.
    intros NC. unfold init_data.
    pose proof (init_nested_NoDup cls kw ([], []) NC (NoDup_nil _)) as ND.
    destruct (fold_left (init_entry cls) kw ([], [])) as [flat nested]. simpl in *.
    rewrite dget_dupdate, dget_rev by assumption. reflexivity.
  Qed.
End P.
