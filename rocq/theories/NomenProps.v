From Verif Require Import PyBase PyText PyFacts EnumModel EnumProofs NomenModel NomenSpec NomenProofs.

(** C44.  Assigning a keyword, in any spelling, gives all five channels the labels of that system, whatever the
    object looked like before. *)
Theorem C44_keyword_sets_all_labels : forall s k n, In k (map fst systems) -> spelling s k ->
  exists n', assign_keyword (EText s) n = Ok n' /\ n_key n' = k /\ has_labels n' k.
Proof.
  intros s k n I Hs. change (map fst systems) with keywords in I.
  assert (V : validate_keyword (EText s) = Ok k).
  { unfold validate_keyword, check_keyword. apply find_spelling; auto.
    intros m Im E. apply keywords_lower; auto. }
  exists (with_labels (set_key k n) k). split; [apply assign_keyword_of, V|].
  split; [rewrite with_labels_key; reflexivity|apply with_labels_has, I].
Qed.
(** The same holds whatever accepted value was given, and nothing else is accepted as a keyword. *)
Theorem C44_accepted_keyword : forall v n n', assign_keyword v n = Ok n' ->
  In (n_key n') (map fst systems) /\ has_labels n' (n_key n').
Proof.
  intros v n n' H. apply assign_keyword_ok in H. destruct H as (k & _ & I & ->).
  rewrite with_labels_key. cbn [set_key n_key]. split; [exact I|apply with_labels_has, I].
Qed.
(** None for the keyword is the default system. *)
Theorem C44_none_is_default : forall n, exists n', assign_keyword ENone n = Ok n' /\ n_key n' = txt "default" /\ has_labels n' (txt "default").
Proof.
  intros n. destruct (C44_keyword_sets_all_labels (txt "default") (txt "default") n) as (n' & E & K); [left; reflexivity|reflexivity|].
  exists n'. split; [exact E|exact K].
Qed.
Theorem C44_other_keywords_refused : forall s n, (forall k, In k (map fst systems) -> ~ spelling s k) ->
  assign_keyword (EText s) n = Err ValueError.
Proof.
  intros s n H. unfold assign_keyword, validate_keyword, check_keyword, validate_enum, normalize_case.
  destruct (List.find (matches s) keywords) as [m|] eqn:F; [|reflexivity]. exfalso.
  apply find_some in F. destruct F as [I M]. apply text_eqb_true in M. exact (H m I M).
Qed.

(** The labels of a system are unambiguous, and the electric ones are recognised by their first letter. *)
Theorem C44_labels_distinct : forall n k, has_labels n k -> unambiguous n.
Proof. intros n k H. apply (has_labels_facts n k H). Qed.
Theorem C44_electric_labels : forall n k, has_labels n k -> forall c, electric c <-> starts_with_e (label n c).
Proof. intros n k H. apply (has_labels_facts n k H). Qed.
(** Unpacking gives the labels back, in the order ex, ey, hx, hy, hz, without repetition; the lists of
    channels are made of these labels. *)
Theorem C44_unpack : forall n k, has_labels n k ->
  unpack n = map (label n) [Ex; Ey; Hx; Hy; Hz] /\ NoDup (unpack n) /\
  default_input_channels n = map (label n) [Hx; Hy] /\
  default_output_channels n = map (label n) [Ex; Ey; Hz] /\
  default_reference_channels n = map (label n) [Hx; Hy] /\
  ex_ey n = map (label n) [Ex; Ey] /\ hx_hy n = map (label n) [Hx; Hy] /\
  hx_hy_hz n = map (label n) [Hx; Hy; Hz] /\ ex_ey_hz n = map (label n) [Ex; Ey; Hz].
Proof.
  intros n k H. repeat split.
  change (unpack n) with (map (label n) [Ex; Ey; Hx; Hy; Hz]).
  assert (U : unambiguous n) by (apply (has_labels_facts n k H)).
  assert (G : forall l, NoDup l -> NoDup (map (label n) l)).
  { induction l as [|c l IH]; intros ND; [constructor|]. inversion ND as [|? ? N ND']; subst. cbn [map]. constructor; [|apply IH; exact ND'].
    intros F. apply in_map_iff in F. destruct F as (c' & E & F). apply U in E. subst c'. exact (N F). }
  apply G. repeat constructor; cbn [In]; intros F; repeat (destruct F as [F|F]; [discriminate F|]); exact F.
Qed.
(** [channels] lists the same labels as [unpack] as long as no label was changed by hand. *)
Theorem C44_channels : forall n, In (n_key n) (map fst systems) -> has_labels n (n_key n) ->
  exists l, channels n = Ok l /\ Permutation.Permutation l (unpack n).
Proof.
  intros n I H. change (map fst systems) with keywords in I.
  pose proof (with_labels_has n (n_key n) I) as W.
  assert (E : unpack n = unpack (with_labels n (n_key n))).
  { change (map (label n) [Ex; Ey; Hx; Hy; Hz] = map (label (with_labels n (n_key n))) [Ex; Ey; Hx; Hy; Hz]).
    apply map_ext. intros c. exact (has_labels_det n _ H _ W c). }
  rewrite E. clear E W H. destruct n as [a b c d e k]. cbn [n_key] in *. apply keyword_cases in I.
  unfold channels, get_channel_map. cbn [n_key].
  destruct I as [-> | [-> | [-> | [-> | ->]]]]; (eexists; split; [vm_compute; reflexivity|]);
    match goal with |- Permutation.Permutation [?a;?b;?c;?d;?e] _ =>
      apply (Permutation.Permutation_app_comm [a;b;c] [d;e]) end.
Qed.

(** Histories.  After any uses, a label is the one last assigned by hand since the last accepted keyword,
    and otherwise that of the keyword. *)
Theorem C44_history_after_keyword : forall n l v l' n1, In (n_key n) (map fst systems) ->
  assign_keyword v (history n l) = Ok n1 ->
  (forall c w t, In (OLabel c w) l' -> validate_enum (members c) w <> Ok t) ->
  (forall w k, In (OKey w) l' -> validate_keyword w <> Ok k) ->
  has_labels (history n (l ++ OKey v :: l')) (n_key n1) /\ n_key (history n (l ++ OKey v :: l')) = n_key n1.
Proof.
  intros n l v l' n1 I A NL NK. rewrite history_app.
  change (history (history n l) (OKey v :: l')) with (fold_left step l' (step (history n l) (OKey v))).
  replace (step (history n l) (OKey v)) with n1 by (unfold step; cbn [run_op]; rewrite A; reflexivity).
  assert (G : forall l' m, (forall c w t, In (OLabel c w) l' -> validate_enum (members c) w <> Ok t) ->
     (forall w k, In (OKey w) l' -> validate_keyword w <> Ok k) -> fold_left step l' m = m).
  { clear. induction l' as [|o l' IH]; intros m NL NK; [reflexivity|]. cbn [fold_left].
    assert (E : step m o = m).
    { unfold step. destruct (run_op o m) as [m'|] eqn:E; [|reflexivity]. exfalso. destruct o as [c w|w]; cbn [run_op] in E.
      - apply assign_label_ok in E. destruct E as (t & V & _). exact (NL c w t (or_introl eq_refl) V).
      - apply assign_keyword_ok in E. destruct E as (k & V & _). exact (NK w k (or_introl eq_refl) V). }
    rewrite E. apply IH; [intros c w t F; apply (NL c w t); right; exact F|intros w k F; apply (NK w k); right; exact F]. }
  rewrite G by assumption. apply C44_accepted_keyword in A. tauto.
Qed.
Theorem C44_history_last_label : forall n l c w t l',
  validate_enum (members c) w = Ok t ->
  (forall w' t', In (OLabel c w') l' -> validate_enum (members c) w' <> Ok t') ->
  (forall w' k, In (OKey w') l' -> validate_keyword w' <> Ok k) ->
  label (history n (l ++ OLabel c w :: l')) c = t.
Proof.
  intros n l c w t l' V NL NK. rewrite history_app.
  change (history (history n l) (OLabel c w :: l')) with (fold_left step l' (step (history n l) (OLabel c w))).
  replace (step (history n l) (OLabel c w)) with (set_label c t (history n l))
    by (unfold step; cbn [run_op]; unfold assign_label; rewrite V; reflexivity).
  assert (G : forall l' m, (forall w' t', In (OLabel c w') l' -> validate_enum (members c) w' <> Ok t') ->
     (forall w' k, In (OKey w') l' -> validate_keyword w' <> Ok k) -> label (fold_left step l' m) c = label m c).
  { clear. induction l' as [|o l' IH]; intros m NL NK; [reflexivity|]. cbn [fold_left].
    rewrite IH; [|intros w' t' F; apply (NL w' t'); right; exact F|intros w' k F; apply (NK w' k); right; exact F].
    unfold step. destruct (run_op o m) as [m'|] eqn:E; [|reflexivity]. destruct o as [c' w'|w']; cbn [run_op] in E.
    - apply assign_label_ok in E. destruct E as (t & V & ->). apply label_set_neq. intros ->. exact (NL w' t (or_introl eq_refl) V).
    - exfalso. apply assign_keyword_ok in E. destruct E as (k & V & _). exact (NK w' k (or_introl eq_refl) V). }
  rewrite G by assumption. apply label_set_eq.
Qed.
(** The keyword is always one of the supported ones and every label one its channel may have. *)
Theorem C44_history_valid : forall g n l, construct g = Ok n ->
  In (n_key (history n l)) (map fst systems) /\ forall c, In (label (history n l) c) (members c).
Proof.
  intros g n l H. apply construct_in in H. destruct H as [I HL].
  split; [apply history_key_in; exact I|].
  assert (M : forall n k, has_labels n k -> forall c, In (label n c) (members c)).
  { clear. intros n k (ex & ey & hx & hy & hz & I & A & B & C & D & E) c. unfold systems in I. cbn [In] in I.
    repeat (destruct I as [I|I]; [injection I as <- <- <- <- <- <-|]); try contradiction;
      destruct c; cbn [label]; rewrite ?A, ?B, ?C, ?D, ?E; unfold members; cbn [In]; tauto. }
  assert (S0 : forall c, In (label n c) (members c)) by (intros c; exact (M n _ HL c)).
  clear HL. revert n I S0. induction l as [|o l IH]; intros n I S0 c; [apply S0|].
  cbn [history fold_left]. change (In (label (history (step n o) l) c) (members c)).
  unfold step. destruct (run_op o n) as [n'|] eqn:E; [|apply IH; assumption].
  destruct o as [c' v|v]; cbn [run_op] in E.
  - apply assign_label_ok in E. destruct E as (t & V & ->). apply IH; [rewrite set_label_key; exact I|].
    intros c2. destruct (comp_dec c' c2) as [<-|N]; [rewrite label_set_eq; exact (validate_in _ _ _ V)|rewrite label_set_neq by exact N; apply S0].
  - apply C44_accepted_keyword in E. destruct E as [I' L]. apply IH; [exact I'|]. exact (M _ _ L).
Qed.
(** Writing an object to a dictionary and reading it brings the keyword and the labels back when the labels
    are those of the keyword. *)
Theorem C44_round_trip_partial : forall n blank, In (n_key n) (map fst systems) -> has_labels n (n_key n) ->
  n_key (restore n blank) = n_key n /\ forall c, label (restore n blank) c = label n c.
Proof.
  intros n blank I H.
  assert (Hs : spelling (n_key n) (n_key n)) by reflexivity.
  unfold restore.
  change [OLabel Ex (EText (n_ex n)); OLabel Ey (EText (n_ey n)); OLabel Hx (EText (n_hx n));
          OLabel Hy (EText (n_hy n)); OLabel Hz (EText (n_hz n)); OKey (EText (n_key n))]
    with ([OLabel Ex (EText (n_ex n)); OLabel Ey (EText (n_ey n)); OLabel Hx (EText (n_hx n));
          OLabel Hy (EText (n_hy n)); OLabel Hz (EText (n_hz n))] ++ [OKey (EText (n_key n))])%list.
  rewrite history_app.
  destruct (C44_keyword_sets_all_labels (n_key n) (n_key n)
     (history blank [OLabel Ex (EText (n_ex n)); OLabel Ey (EText (n_ey n)); OLabel Hx (EText (n_hx n));
          OLabel Hy (EText (n_hy n)); OLabel Hz (EText (n_hz n))]) I Hs) as (n' & A & K & L).
  match goal with |- context [history ?h [OKey ?v]] =>
    replace (history h [OKey v]) with n' by (unfold history at 1; cbn [fold_left]; unfold step at 1; cbn [run_op]; rewrite A; reflexivity) end.
  split; [exact K|]. intros c. exact (has_labels_det n' _ L n H c).
Qed.

Definition lemi : given := mkGiven (fun _ => None) (Some (EText (txt "LEMI12"))).
Definition custom : given := mkGiven (fun c => match c with Ex => Some (EText (txt "E1")) | _ => None end) None.
Definition fresh : nomen := mkNomen (txt "ex") (txt "ey") (txt "hx") (txt "hy") (txt "hz") (txt "default").

(** Not so: labels changed by hand stay unambiguous. *)
Theorem C44_custom_labels_refuted :
  ~ (forall g n l, construct g = Ok n -> unambiguous (history n l)).
Proof.
  intros H. specialize (H lemi _ [OLabel Ey (EText (txt "e1"))] eq_refl Ex Ey).
  assert (F : Ex = Ey) by (apply H; vm_compute; reflexivity). discriminate F.
Qed.
(** Not so: [channels] lists the labels in use. *)
Theorem C44_channels_refuted :
  ~ (forall g n l ch, construct g = Ok n -> channels (history n l) = Ok ch ->
       forall t, In t (unpack (history n l)) -> In t ch).
Proof.
  intros H. specialize (H lemi _ [OLabel Ex (EText (txt "e4"))] _ eq_refl eq_refl (txt "e4")).
  assert (F : In (txt "e4") [txt "bx"; txt "by"; txt "bz"; txt "e1"; txt "e2"]) by (apply H; left; vm_compute; reflexivity).
  cbn [In] in F. repeat (destruct F as [F|F]; [discriminate F|]). exact F.
Qed.
(** Not so: a label given to the constructor is the label of the channel.  It is replaced by that of the
    keyword. *)
Theorem C44_given_label_refuted :
  ~ (forall g n c v t, construct g = Ok n -> g_label g c = Some v -> validate_enum (members c) v = Ok t -> label n c = t).
Proof.
  intros H. specialize (H custom _ Ex _ (txt "e1") eq_refl eq_refl eq_refl). vm_compute in H. discriminate H.
Qed.
(** An object can be made exactly if every label that is given is one of its channel and the keyword, if given, is accepted.  The keyword is the default one if it is left out. *)
Theorem C44_construct_accepts : forall g,
  ((forall c v, g_label g c = Some v -> exists t, validate_enum (members c) v = Ok t) /\ (forall v, g_key g = Some v -> exists k, validate_keyword v = Ok k) <->
   exists n, construct g = Ok n) /\
  (forall n, construct g = Ok n -> match g_key g with None => n_key n = txt "default" | Some v => validate_keyword v = Ok (n_key n) end).
Proof.
  intros g.
  assert (L : forall c, (exists t, construct_label g c = Ok t /\ forall v, g_label g c = Some v -> exists t, validate_enum (members c) v = Ok t) \/
                        (exists e v, construct_label g c = Err e /\ g_label g c = Some v /\ validate_enum (members c) v = Err e)).
  { intros c. unfold construct_label. destruct (g_label g c) as [v|]; [|left; eexists; split; [reflexivity|discriminate]].
    destruct (validate_enum (members c) v) as [t|e] eqn:E; [left; exists t; split; [reflexivity|intros w W; injection W as <-; exists t; exact E]|].
    right. exists e, v. auto. }
  assert (R : forall c e v, g_label g c = Some v -> validate_enum (members c) v = Err e -> ~ (forall c v, g_label g c = Some v -> exists t, validate_enum (members c) v = Ok t)).
  { intros c e v V F A. destruct (A c v V) as [t T]. congruence. }
  unfold construct.
  destruct (L Ex) as [(ex & Eex & Aex)|(e & v & E & V & F)]; [rewrite Eex|rewrite E]; cbn [bindR]; [|split; [split; [intros [A _]; destruct (R _ e v V F A)|intros [n N]; discriminate N]|discriminate]].
  destruct (L Ey) as [(ey & Eey & Aey)|(e & v & E & V & F)]; [rewrite Eey|rewrite E]; cbn [bindR]; [|split; [split; [intros [A _]; destruct (R _ e v V F A)|intros [n N]; discriminate N]|discriminate]].
  destruct (L Hx) as [(hx & Ehx & Ahx)|(e & v & E & V & F)]; [rewrite Ehx|rewrite E]; cbn [bindR]; [|split; [split; [intros [A _]; destruct (R _ e v V F A)|intros [n N]; discriminate N]|discriminate]].
  destruct (L Hy) as [(hy & Ehy & Ahy)|(e & v & E & V & F)]; [rewrite Ehy|rewrite E]; cbn [bindR]; [|split; [split; [intros [A _]; destruct (R _ e v V F A)|intros [n N]; discriminate N]|discriminate]].
  destruct (L Hz) as [(hz & Ehz & Ahz)|(e & v & E & V & F)]; [rewrite Ehz|rewrite E]; cbn [bindR]; [|split; [split; [intros [A _]; destruct (R _ e v V F A)|intros [n N]; discriminate N]|discriminate]].
  assert (AA : forall c v, g_label g c = Some v -> exists t, validate_enum (members c) v = Ok t) by (intros []; assumption). clear L R.
  assert (U : forall k, In k keywords -> exists n, update (mkNomen ex ey hx hy hz k) = Ok n /\ n_key n = k).
  { intros k I. exists (with_labels (mkNomen ex ey hx hy hz k) k). split; [apply update_ok; exact I|rewrite with_labels_key; reflexivity]. }
  destruct (g_key g) as [v|].
  - destruct (validate_keyword v) as [k|e] eqn:E; cbn [bindR].
    + destruct (U k) as (n & N & K); [exact (validate_in _ _ _ E)|]. rewrite N. split; [split; [intros _; exists n; reflexivity|intros _; split; [exact AA|intros w W; injection W as <-; exists k; exact E]]|].
      intros n' F. injection F as <-. rewrite K. exact eq_refl.
    + split; [split; [intros [_ B]; destruct (B v eq_refl) as [k K]; congruence|intros [n N]; discriminate N]|discriminate].
  - cbn [bindR]. destruct (U (txt "default")) as (n & N & K); [left; reflexivity|]. rewrite N. split; [split; [intros _; exists n; reflexivity|intros _; split; [exact AA|discriminate]]|].
    intros n' F. injection F as <-. exact K.
Qed.
Theorem C44_constructor : forall g n, construct g = Ok n -> has_labels n (n_key n).
Proof. intros g n H. apply construct_in in H. tauto. Qed.
(** Not so: a dictionary round trip keeps labels set by hand.  The keyword is assigned last and replaces
    them. *)
Theorem C44_round_trip_refuted :
  ~ (forall g n l, construct g = Ok n -> forall c, label (restore (history n l) fresh) c = label (history n l) c).
Proof.
  intros H. specialize (H lemi _ [OLabel Ex (EText (txt "e4"))] eq_refl Ex). vm_compute in H. discriminate H.
Qed.
(** Not so: every system with a channel map can be chosen. *)
Theorem C44_every_map_refuted :
  ~ (forall k m n, In (k, m) channel_maps -> exists n', assign_keyword (EText k) n = Ok n').
Proof.
  intros H. destruct (H (txt "nims") (cmap (txt "hx") (txt "hy") (txt "hz") (txt "ex") (txt "ey")) fresh) as [n' E].
  - unfold channel_maps. cbn [In]. tauto.
  - vm_compute in E. discriminate E.
Qed.

(** The names accepted as input and output channels of a transfer function are the labels of the systems,
    each once. *)
Theorem C44_allowed_names : forall set_order standard l,
  (forall a, Permutation.Permutation (set_order a) a) -> allowed_names set_order standard = Ok l ->
  NoDup l /\ forall t, In t l <-> exists c n k, In c standard /\ has_labels n k /\ t = label n c.
Proof.
  intros so st l P H. unfold allowed_names, bindR in H.
  destruct (mapR _ st) as [ls|] eqn:E in H; [|discriminate]. injection H as <-.
  split; [eapply Permutation.Permutation_NoDup; [apply Permutation.Permutation_sym, P|apply NoDup_nodup]|].
  assert (A : forall t, In t (concat ls) <-> exists c, In c st /\ exists km, In km channel_maps /\ dget comp_dec c (snd km) = Some t).
  { clear P so. revert ls E. induction st as [|c st IH]; intros ls E.
    - cbn [mapR] in E. injection E as <-. intros t. cbn [concat In]. split; [contradiction|intros (c & F & _); exact F].
    - cbn [mapR] in E. unfold bindR in E at 1. destruct (mapR _ channel_maps) as [x|] eqn:X in E; [|discriminate].
      unfold bindR in E. destruct (mapR _ st) as [y|] eqn:Y in E; [|discriminate]. injection E as <-. specialize (IH y Y).
      intros t. cbn [concat]. rewrite in_app_iff, IH.
      assert (XX : In t x <-> exists km, In km channel_maps /\ dget comp_dec c (snd km) = Some t).
      { clear IH Y. revert X. generalize channel_maps as cm. intros cm. revert x. induction cm as [|km cm IHm]; intros x X.
        - cbn [mapR] in X. injection X as <-. cbn [In]. split; [contradiction|intros (? & F & _); exact F].
        - cbn [mapR] in X. unfold bindR in X. destruct (dget comp_dec c (snd km)) as [t0|] eqn:D; [|discriminate].
          destruct (mapR _ cm) as [z|] eqn:Z in X; [|discriminate]. injection X as <-. cbn [In]. rewrite (IHm z Z). split.
          + intros [<-|(k & I & Q)]; [exists km; auto|exists k; auto].
          + intros (k & [<-|I] & Q); [left; congruence|right; exists k; auto]. }
      rewrite XX. split.
      + intros [F|(c' & I & F)]; [exists c; split; [left; reflexivity|exact F]|exists c'; split; [right; exact I|exact F]].
      + intros (c' & [<-|I] & F); [left; exact F|right; exists c'; auto]. }
  intros t. split.
  - intros I. apply (Permutation.Permutation_in _ (P _)) in I. apply nodup_In in I. apply A in I.
    destruct I as (c & Ic & km & Ik & D). exists c.
    unfold channel_maps in Ik. cbn [In] in Ik.
    assert (G : forall k, In k keywords -> Some t = Some (label (with_labels fresh k) c) ->
              exists n k, In c st /\ has_labels n k /\ t = label n c).
    { intros k Kk Q. exists (with_labels fresh k), k. split; [exact Ic|]. split; [apply with_labels_has, Kk|congruence]. }
    repeat (destruct Ik as [<-|Ik]);
      [apply (G (txt "default"))|apply (G (txt "lemi12"))|apply (G (txt "lemi34"))|apply (G (txt "phoenix123"))
      |apply (G (txt "musgraves"))|apply (G (txt "default"))|contradiction];
      try (unfold keywords; cbn [In]; tauto); rewrite <- D; destruct c; vm_compute; reflexivity.
  - intros (c & n & k & Ic & L & ->). apply (Permutation.Permutation_in _ (Permutation.Permutation_sym (P _))). apply nodup_In. apply A.
    exists c. split; [exact Ic|].
    assert (I : In k keywords).
    { destruct L as (ex & ey & hx & hy & hz & I & _). apply (in_map fst) in I. exact I. }
    rewrite (has_labels_det n k L _ (with_labels_has fresh k I) c).
    apply keyword_cases in I. unfold channel_maps.
    destruct I as [-> | [-> | [-> | [-> | ->]]]];
      [exists (nth 0 channel_maps (txt "", []))|exists (nth 1 channel_maps (txt "", []))|exists (nth 2 channel_maps (txt "", []))
      |exists (nth 4 channel_maps (txt "", []))|exists (nth 3 channel_maps (txt "", []))];
      (split; [unfold channel_maps; cbn [nth In]; tauto|destruct c; vm_compute; reflexivity]).
Qed.
Theorem C44_allowed_names_total : forall so, exists l, allowed_names so [Hx; Hy] = Ok l /\
  exists l', allowed_names so [Ex; Ey; Hz] = Ok l'.
Proof. intros so. eexists. split; [reflexivity|eexists; reflexivity]. Qed.

(** The hypotheses are met. *)
Example C44_hyp :
  exists n, construct lemi = Ok n /\ has_labels n (txt "lemi12") /\ In (n_key n) (map fst systems) /\
    spelling (txt "Phoenix123") (txt "phoenix123") /\
    unpack (history n [OKey (EText (txt "bad")); OLabel Hx (EText (txt "H1")); OKey (EText (txt "MUSGRAVES"))])
      = [txt "ex"; txt "ey"; txt "bx"; txt "by"; txt "bz"] /\
    unpack (history n [OKey ENone; OLabel Hx (EText (txt "H1")); OLabel Hz (EText (txt "e1"))])
      = [txt "ex"; txt "ey"; txt "h1"; txt "hy"; txt "hz"].
Proof.
  eexists. split; [vm_compute; reflexivity|]. split.
  { apply (C44_constructor lemi). vm_compute. reflexivity. }
  repeat split; try (vm_compute; reflexivity). cbn [n_key]. unfold systems. cbn [map fst In]. tauto.
Qed.

Print Assumptions C44_keyword_sets_all_labels.
Print Assumptions C44_history_after_keyword.
Print Assumptions C44_history_last_label.
Print Assumptions C44_history_valid.
Print Assumptions C44_channels.
Print Assumptions C44_allowed_names.
Print Assumptions C44_round_trip_refuted.
