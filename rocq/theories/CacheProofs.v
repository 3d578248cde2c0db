(** Proofs about the field caches. *)
From Verif Require Import PyBase PyText PyFacts TextFacts PyJson PyJsonFacts CacheModel CacheSpec.
Local Open Scope nat_scope.

Scheme tree_mut := Induction for tree Sort Prop with entries_mut := Induction for entries Sort Prop.

Section Proofs.
Variable cls : Type.
Variable cls_dec : forall a b : cls, {a = b} + {a <> b}.
Variable table : cls -> class cls.
Variable version : text.
Variable digest : list (text * list (option text)) -> text.
Variable limit : nat.
Variable depth : cls -> nat.
Hypothesis reg : regular cls table limit depth.
Hypothesis digest_length : forall x, List.length (digest x) = 64.
Variable others : nat -> list (text * option text).
Variable fails : nat -> option exn.
Variable writes : nat -> written.
Notation tree := (tree cls table).
Notation entries := (entries cls table).
Notation path := (path cls table version digest).
Notation world := (world cls).
Notation get := (get cls cls_dec table version digest others fails writes).
Notation compute := (compute cls others fails).
Notation copy_of := (copy_of cls table).

(** ** Trees *)
Lemma tree_inv c j : tree c j -> exists l, j = JObj l /\ entries (c_fields (table c)) l.
Proof. intro T. inversion T; subst. eauto. Qed.
Lemma entries_some fs : (forall f d, In f fs -> f_deprecated f = None -> f_kind f = Class d -> exists j, tree d j) -> exists l, entries fs l.
Proof.
  induction fs as [|f fs IH]; intro H; [exists []; constructor|].
  destruct IH as (l & E); [intros g d I; apply H; right; exact I|]. destruct (f_deprecated f) as [r|] eqn:D; [exists l; eapply entries_deprecated; eassumption|].
  destruct (f_kind f) as [s|d] eqn:K.
  - exists ((f_name f, s) :: l). apply entries_simple; assumption.
  - destruct (H f d (or_introl eq_refl) D K) as (j & T). exists ((f_name f, j) :: l). eapply entries_class; eassumption.
Qed.
Lemma tree_exists c : exists j, tree c j.
Proof.
  remember (depth c) as n eqn:N. assert (L : depth c <= n) by lia. clear N. revert c L. induction n as [|n IH]; intros c L.
  - destruct (entries_some (c_fields (table c))) as (l & E); [|exists (JObj l); constructor; exact E]. intros f d I D K. pose proof (acyclic _ _ _ _ reg _ _ _ I D K). lia.
  - destruct (entries_some (c_fields (table c))) as (l & E); [|exists (JObj l); constructor; exact E]. intros f d I D K. pose proof (acyclic _ _ _ _ reg _ _ _ I D K). apply IH. lia.
Qed.
Lemma tree_unique c j : tree c j -> forall j', tree c j' -> j = j'.
Proof.
  intro T. induction T as [c l E IH| |f fs l r D E IH|f fs l s D K E IH|f fs l d j D K T IT E IE] using tree_mut
    with (P0 := fun fs l _ => forall l', entries fs l' -> l = l').
  - intros j' T'. apply tree_inv in T' as (l' & -> & E'). rewrite (IH _ E'). reflexivity.
  - intros l' E'. inversion E'. reflexivity.
  - intros l' E'. inversion E'; subst; try congruence. apply IH. assumption.
  - intros l' E'. inversion E'; subst; try congruence. replace s0 with s by congruence. f_equal. apply IH. assumption.
  - intros l' E'. inversion E'; subst; try congruence. replace d0 with d in * by congruence. f_equal; [f_equal; apply IT; assumption|apply IE; assumption].
Qed.
Lemma entries_names fs l : entries fs l -> forall n, In n (map fst l) -> In n (map f_name fs).
Proof. intro E. induction E as [|f fs l r D E IH|f fs l s D K E IH|f fs l d j D K T E IH]; intros n I; cbn [map fst] in *; [exact I|right; auto|destruct I; [left|right]; auto|destruct I; [left|right]; auto]. Qed.
Lemma entries_nodup fs l : entries fs l -> NoDup (map f_name fs) -> NoDup (map fst l).
Proof.
  intro E. induction E as [|f fs l r D E IH|f fs l s D K E IH|f fs l d j D K T E IH]; intro N; cbn [map fst] in *; [constructor|..]; apply NoDup_cons_iff in N as [N1 N2].
  - auto.
  - constructor; [|auto]. intro I. apply N1. exact (entries_names _ _ E _ I).
  - constructor; [|auto]. intro I. apply N1. exact (entries_names _ _ E _ I).
Qed.
Lemma tree_good c j : tree c j -> good j.
Proof.
  intro T. induction T as [c l E IH| |f fs l r D E IH|f fs l s D K E IH|f fs l d j D K T IT E IE] using tree_mut
    with (P0 := fun fs l _ => (forall f s, In f fs -> f_kind f = Simple s -> good s) -> Forall (fun kv => good (snd kv)) l).
  - apply good_obj. split; [apply (entries_nodup _ _ E), (names_differ _ _ _ _ reg)|]. apply IH. intros f s I K. exact (summaries _ _ _ _ reg _ _ _ I K).
  - intros _. constructor.
  - intro H. apply IH. intros g s I. apply H. right. exact I.
  - intro H. constructor; [apply (H f s (or_introl eq_refl) K)|]. apply IH. intros g s' I. apply H. right. exact I.
  - intro H. constructor; [exact IT|]. apply IE. intros g s' I. apply H. right. exact I.
Qed.

(** ** Files *)
Lemma app_same_tail {A} (a b x y : list A) : List.length x = List.length y -> a ++ x = b ++ y -> a = b /\ x = y.
Proof.
  revert b. induction a as [|c a IH]; intros [|d b] L E; cbn [app] in E.
  - auto.
  - subst x. cbn [List.length] in L. rewrite app_length in L. lia.
  - subst y. cbn [List.length] in L. rewrite app_length in L. lia.
  - injection E as -> E. destruct (IH _ L E) as [-> ->]. auto.
Qed.
Lemma path_parts a b : path a = path b -> c_fqname (table a) = c_fqname (table b) /\ fingerprint cls table digest a = fingerprint cls table digest b.
Proof.
  unfold CacheModel.path. intro E. apply app_same_tail in E as [E E2].
  - split; [exact E|]. apply app_inv_head, app_inv_head, app_inv_head in E2. apply app_inv_tail in E2. exact E2.
  - unfold fingerprint. rewrite !app_length, !digest_length. reflexivity.
Qed.
Lemma path_inj a b : path a = path b -> a = b.
Proof. intro E. apply path_parts in E as [E _]. exact (classes_differ _ _ _ _ reg _ _ E). Qed.
Definition files (d : list (text * text)) : Prop := forall c t, dget text_dec (path c) d = Some t -> copy_of c t.
Hypothesis others_ok : forall n c t, In (path c, Some t) (others n) -> copy_of c t.
Lemma dget_remove q d : forall p, dget text_dec p (remove q d) = if text_dec q p then None else dget text_dec p d.
Proof.
  induction d as [|[k t] d IH]; intro p; cbn [remove dget]; [destruct (text_dec q p); reflexivity|].
  destruct (text_dec q k) as [-> |N].
  - rewrite IH. destruct (text_dec k p) as [-> |M]; [reflexivity|]. destruct (text_dec p k); [congruence|reflexivity].
  - cbn [dget]. destruct (text_dec p k) as [-> |M]; [|apply IH]. destruct (text_dec q k); [congruence|reflexivity].
Qed.
Lemma files_tick w : files (w_disk cls w) -> files (w_disk cls (tick cls others w)).
Proof.
  unfold tick. cbn [w_disk]. assert (O := others_ok (w_clock cls w)). revert O. generalize (w_disk cls w). induction (others (w_clock cls w)) as [|[p o] l IH]; intros d O F; [exact F|].
  cbn [fold_left]. apply IH; [intros c t I; apply O; right; exact I|]. unfold disturb. cbn [fst snd]. destruct o as [t|]; intros c u G.
  - rewrite dget_dset in G. destruct (text_dec (path c) p) as [E|E]; [|exact (F _ _ G)]. injection G as <-. apply O. left. rewrite E. reflexivity.
  - rewrite dget_remove in G. destruct (text_dec p (path c)); [discriminate|exact (F _ _ G)].
Qed.
Lemma blanks_ws : forallb ws (txt "  ") = true. Proof. reflexivity. Qed.
Lemma torn_whole s : torn s s. Proof. split; [lia|]. intros i c E. right. exact E. Qed.
Lemma torn_firstn n s : torn s (firstn n s).
Proof.
  split; [rewrite firstn_length; lia|]. intros i c E. right. revert i s E. induction n as [|n IH]; intros i s E; [destruct i; discriminate|].
  destruct s as [|a s]; [destruct i; discriminate|]. destruct i as [|i]; cbn [firstn nth_error] in *; [exact E|]. exact (IH _ _ E).
Qed.

(** ** Questions *)
Definition inv (busy : list cls) (w : world) : Prop := (forall c j, dget cls_dec c (w_mem cls w) = Some j -> tree c j \/ In c busy) /\ files (w_disk cls w).
Lemma inv_tick busy w : inv busy w -> inv busy (tick cls others w).
Proof. intros [M F]. split; [exact M|apply files_tick, F]. Qed.
Definition fine (busy : list cls) (c : cls) (x : world * result json) : Prop :=
  (exists j, snd x = Ok j /\ tree c j /\ inv busy (fst x)) \/ (exists n e, fails n = Some e /\ snd x = Err e /\ files (w_disk cls (fst x))).
Lemma load_ok busy w c w' r : inv busy w -> load cls table version digest others fails w c = (w', r) ->
  w_mem cls w' = w_mem cls w /\ inv busy w' /\ ((exists n e, fails n = Some e /\ r = Err e) \/ r = Ok None \/ exists j, r = Ok (Some j) /\ tree c j).
Proof.
  unfold load. cbv zeta. intros I E. pose proof (inv_tick _ _ I) as I2. assert (M : w_mem cls (tick cls others w) = w_mem cls w) by reflexivity. revert E I2 M.
  generalize (tick cls others w) as w2. intros w2 E I2 M. destruct (fails (w_clock cls w)) as [e|] eqn:F; injection E as <- <-; (split; [exact M|]; split; [exact I2|]); [left; eauto|right].
  destruct (dget text_dec (path c) (w_disk cls w2)) as [t|] eqn:G; [|left; reflexivity].
  destruct (proj2 I2 _ _ G) as (j & T & Q). destruct (loads t) as [v|] eqn:L; [|left; reflexivity]. right.
  destruct (tree_inv _ _ T) as (l & -> & _). destruct (torn_refused false (txt "  ") l t v blanks_ws (tree_good _ _ T) Q L) as [-> _]. exists (JObj l). auto.
Qed.
Lemma compute_ok (g : world -> cls -> world * result json) busy fs :
  (forall f d w, In f fs -> f_deprecated f = None -> f_kind f = Class d -> inv busy w -> fine busy d (g w d)) ->
  forall w out, inv busy w -> NoDup (map fst out ++ map f_name fs) ->
  (exists l, snd (compute g w fs out) = Ok (out ++ l) /\ entries fs l /\ inv busy (fst (compute g w fs out))) \/
  (exists n e, fails n = Some e /\ snd (compute g w fs out) = Err e /\ files (w_disk cls (fst (compute g w fs out)))).
Proof.
  induction fs as [|f fs IH]; intros G w out I N.
  - left. exists []. cbn [CacheModel.compute fst snd]. rewrite app_nil_r. repeat split; [constructor|apply I|apply I].
  - assert (GF : forall g' d w0, In g' fs -> f_deprecated g' = None -> f_kind g' = Class d -> inv busy w0 -> fine busy d (g w0 d)) by (intros g' d w0 J; apply G; right; exact J).
    assert (NI : ~ In (f_name f) (map fst out)) by (cbn [map] in N; intro H; apply NoDup_remove_2 in N; apply N, in_or_app; left; exact H).
    assert (NX : forall j, NoDup (map fst (out ++ [(f_name f, j)]) ++ map f_name fs)) by (intro j; rewrite map_app, <- app_assoc; exact N).
    cbn [CacheModel.compute]. destruct (f_deprecated f) as [r|] eqn:D.
    + destruct (IH GF w out I) as [(l & E & T & J)|X]; [cbn [map] in N; apply NoDup_remove_1 in N; exact N| |right; exact X].
      left. exists l. repeat split; [exact E|eapply entries_deprecated; eassumption|apply J|apply J].
    + destruct (f_kind f) as [s|d] eqn:K.
      * destruct (fails (w_clock cls w)) as [e|] eqn:F; [right; exists (w_clock cls w), e; cbn [fst snd]; repeat split; [exact F|apply files_tick, I]|].
        assert (DS : dset text_dec (f_name f) s out = out ++ [(f_name f, s)]) by (apply dset_notin; exact NI). rewrite DS.
        destruct (IH GF (tick cls others w) (out ++ [(f_name f, s)]) (inv_tick _ _ I) (NX s)) as [(l & E & T & J)|X]; [|right; exact X].
        left. exists ((f_name f, s) :: l). rewrite E, <- app_assoc. repeat split; [apply entries_simple; assumption|apply J|apply J].
      * specialize (G f d w (or_introl eq_refl) D K I). destruct (g w d) as [w' r]. unfold fine in G. cbn [fst snd] in G.
        destruct G as [(j & -> & T & J)|(n & e & F & -> & J)]; [|right; exists n, e; cbn [fst snd]; auto].
        assert (DS : dset text_dec (f_name f) j out = out ++ [(f_name f, j)]) by (apply dset_notin; exact NI). rewrite DS.
        destruct (IH GF w' (out ++ [(f_name f, j)]) J (NX j)) as [(l & E & T2 & J2)|X]; [|right; exact X].
        left. exists ((f_name f, j) :: l). rewrite E, <- app_assoc. repeat split; [eapply entries_class; eassumption|apply J2|apply J2].
Qed.
Lemma inv_remember busy w c j : inv busy w -> tree c j \/ In c busy -> inv busy (remember cls cls_dec c j w).
Proof.
  intros [M F] T. split; [|exact F]. intros d k G. unfold remember in G. cbn [w_mem] in G. rewrite dget_dset in G.
  destruct (cls_dec d c) as [-> |N]; [injection G as <-; exact T|exact (M _ _ G)].
Qed.
Lemma inv_busy busy c w : inv busy w -> inv (c :: busy) w.
Proof. intros [M F]. split; [|exact F]. intros d j G. destruct (M _ _ G) as [T|I]; [left; exact T|right; right; exact I]. Qed.
Lemma get_ok fuel : forall busy w c, depth c < fuel -> (forall s, In s busy -> depth c < depth s) -> inv busy w -> fine busy c (get fuel w c).
Proof.
  induction fuel as [|fuel IH]; intros busy w c L B I; [lia|]. cbn [CacheModel.get]. destruct (dget cls_dec c (w_mem cls w)) as [j|] eqn:G.
  - left. exists j. repeat split; [|apply I|apply I]. destruct (proj1 I _ _ G) as [T|T]; [exact T|]. specialize (B _ T). lia.
  - assert (ST : exists w1 r, (if w_off cls w then (w, Ok None) else load cls table version digest others fails w c) = (w1, r) /\ inv busy w1 /\
                 ((exists n e, fails n = Some e /\ r = Err e) \/ r = Ok None \/ exists j, r = Ok (Some j) /\ tree c j)).
    { destruct (w_off cls w).
      - exists w, (Ok None). auto.
      - destruct (load cls table version digest others fails w c) as [w1 r] eqn:E. exists w1, r. split; [reflexivity|]. apply (load_ok _ _ _ _ _ I E). }
    destruct ST as (w1 & r & -> & I1 & [(n & e & F & ->)|[-> |(j & -> & T)]]).
    + right. exists n, e. cbn [fst snd]. repeat split; [exact F|apply I1].
    + assert (C := compute_ok (get fuel) (c :: busy) (c_fields (table c))).
      assert (I2 : inv (c :: busy) (remember cls cls_dec c (JObj []) w1)) by (apply inv_remember; [apply inv_busy, I1|right; left; reflexivity]).
      destruct (C) with (w := remember cls cls_dec c (JObj []) w1) (out := @nil (text * json)) as [(l & E & T & J)|(n & e & F & E & J)].
      * intros f d w0 M D K J. pose proof (acyclic _ _ _ _ reg _ _ _ M D K). apply IH; [lia| |exact J]. intros s [<- |S]; [assumption|]. specialize (B _ S). lia.
      * exact I2.
      * cbn [map app]. apply (names_differ _ _ _ _ reg).
      * destruct (compute (get fuel) (remember cls cls_dec c (JObj []) w1) (c_fields (table c)) []) as [w2 r2]. cbn [fst snd app] in E, J. subst r2.
        assert (TC : tree c (JObj l)) by (constructor; exact T).
        assert (I3 : inv busy (remember cls cls_dec c (JObj l) w2)).
        { split; [|apply J]. intros d k G'. unfold remember in G'. cbn [w_mem] in G'. rewrite dget_dset in G'.
          destruct (cls_dec d c) as [-> |N]; [injection G' as <-; left; exact TC|]. destruct (proj1 J _ _ G') as [T'|[T'|T']]; [left; exact T'|congruence|right; exact T']. }
        cbv zeta. destruct (w_off cls (remember cls cls_dec c (JObj l) w2)).
        { left. exists (JObj l). cbn [fst snd]. auto. }
        unfold save. destruct (fails (w_clock cls (remember cls cls_dec c (JObj l) w2))) as [e|] eqn:F.
        { right. exists (w_clock cls (remember cls cls_dec c (JObj l) w2)), e. cbn [fst snd]. split; [exact F|]. split; [reflexivity|]. apply files_tick, I3. }
        left. exists (JObj l). cbn [fst snd]. split; [reflexivity|]. split; [exact TC|]. apply inv_tick in I3.
        assert (PUT : forall t, torn (dumps false (txt "  ") (JObj l)) t -> inv busy
          (mkWorld cls (w_mem cls (tick cls others (remember cls cls_dec c (JObj l) w2))) (dset text_dec (path c) t (w_disk cls (tick cls others (remember cls cls_dec c (JObj l) w2))))
             (w_off cls (tick cls others (remember cls cls_dec c (JObj l) w2))) (w_clock cls (tick cls others (remember cls cls_dec c (JObj l) w2))))).
        { intros t Q. split; [exact (proj1 I3)|]. intros d u G'. cbn [w_disk] in G'. rewrite dget_dset in G'. destruct (text_dec (path d) (path c)) as [P|P]; [|exact (proj2 I3 _ _ G')].
          apply path_inj in P. subst d. injection G' as <-. exists (JObj l). auto. }
        destruct (writes (w_clock cls (remember cls cls_dec c (JObj l) w2))); [apply PUT, torn_whole|apply PUT, torn_firstn|exact I3].
      * destruct (compute (get fuel) (remember cls cls_dec c (JObj []) w1) (c_fields (table c)) []) as [w2 r2]. cbn [fst snd] in E, J. subst r2. right. exists n, e. auto.
    + left. exists j. cbn [fst snd]. repeat split; [exact T|..]; apply (inv_remember busy w1 c j I1 (or_introl T)).
Qed.
Notation run := (run cls cls_dec table version digest limit others fails writes).
Notation trusted := (trusted cls table fails).
Lemma spoilt h : forall w, trusted Spoilt (run w h).
Proof.
  induction h as [|e h IH]; intro w; [exact I|]. destruct e as [c| |off]; cbn [CacheModel.run step].
  - destruct (get limit w c) as [w' r]. apply IH.
  - apply IH.
  - apply IH.
Qed.
Lemma trusted_run h : forall w, (inv [] w -> trusted Fine (run w h)) /\ (files (w_disk cls w) -> trusted Risky (run w h)).
Proof.
  induction h as [|e h IH]; intro w; [split; intros; exact I|].
  assert (NEW : forall d off n, files d -> inv [] (mkWorld cls [] d off n)) by (intros d off n F; split; [intros c j G; discriminate|exact F]).
  destruct e as [c| |off]; cbn [CacheModel.run step].
  - split; [intro I|intros _].
    + assert (G := get_ok limit [] w c (shallow _ _ _ _ reg c) ltac:(intros s []) I). destruct (get limit w c) as [w' r]. unfold fine in G. cbn [fst snd] in G. cbn [CacheSpec.trusted].
      destruct G as [(j & -> & T & J)|(n & e & F & -> & J)]; [left; exists j; repeat split; [exact T|apply IH, J]|right; exists n, e; repeat split; [exact F|apply IH, J]].
    + destruct (get limit w c) as [w' r]. apply spoilt.
  - split; [intros [M F]|intro F]; cbn [CacheSpec.trusted]; apply IH, NEW, F.
  - split; [intros [M F]|intro F]; cbn [CacheSpec.trusted]; apply IH, NEW, F.
Qed.
End Proofs.
