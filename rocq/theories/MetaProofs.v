(** Lemmas about metadata objects. *)
From Verif Require Import PyBase PyFacts PyNum ContainerModel ContainerProofs MetaModel MetaSpec.
Open Scope string_scope.

Definition is_attr (n : string) (kv : key * value) : bool :=
  match fst kv with KAttr m => String.eqb n m | _ => false end.
Definition is_note (n : string) (kv : key * value) : bool :=
  match fst kv with KAttr _ => false | k => String.eqb n (name_of k) end.

Definition step_attr (c : class) (n : string) (acc : option value) (kv : key * value) : option value :=
  match sget n (c_fields c) with
  | Some f => match coerce (f_type f) (snd kv) with Ok w => Some w | Err _ => acc end
  | None => acc
  end.
Definition step_note (acc : option comment) (kv : key * value) : option comment :=
  match acc with
  | None => match kv with (KComment _, VStr s) => Some (mkComment None default_time (Some s)) | _ => None end
  | Some m =>
      match kv with
      | (KComment _, VStr s) => Some (mkComment None default_time (Some s))
      | (KAuthor _, VNone) => Some (mkComment None (c_stamp m) (c_value m))
      | (KAuthor _, VStr s) => Some (mkComment (Some s) (c_stamp m) (c_value m))
      | (KStamp _, VTime t) => Some (mkComment (c_author m) t (c_value m))
      | (KValue _, VNone) => Some (mkComment (c_author m) (c_stamp m) None)
      | (KValue _, VStr s) => Some (mkComment (c_author m) (c_stamp m) (Some s))
      | _ => acc
      end
  end.

Ltac eqs := repeat match goal with
  | H : String.eqb _ _ = true |- _ => apply String.eqb_eq in H
  | H : String.eqb _ _ = false |- _ => apply String.eqb_neq in H end.

Lemma assign_attr c o k v o' n : assign c o k v = Ok o' ->
  attr o' n = if is_attr n (k, v) then step_attr c n (attr o n) (k, v) else attr o n.
Proof.
  unfold attr, is_attr. destruct k as [m|m|m|m|m]; cbn [assign fst].
  - destruct (sget m (c_fields c)) as [f|] eqn:F; [|discriminate].
    destruct (coerce (f_type f) v) as [w|e] eqn:E; cbn [bindR]; [|discriminate]. intros H. injection H as <-.
    cbn [o_attrs]. destruct (String.eqb n m) eqn:N; eqs.
    + subst m. unfold step_attr. rewrite F. cbn [snd]. rewrite E. apply dget_dset_eq.
    + now apply dget_dset_neq.
  - destruct v; intros H; try discriminate. injection H as <-. reflexivity.
  - destruct (sget m (o_notes o)); destruct v; intros H; try discriminate; injection H as <-; reflexivity.
  - destruct (sget m (o_notes o)); destruct v; intros H; try discriminate; injection H as <-; reflexivity.
  - destruct (sget m (o_notes o)); destruct v; intros H; try discriminate; injection H as <-; reflexivity.
Qed.
Lemma assign_note c o k v o' n : assign c o k v = Ok o' ->
  note o' n = if is_note n (k, v) then step_note (note o n) (k, v) else note o n.
Proof.
  unfold note, is_note. destruct k as [m|m|m|m|m]; cbn [assign fst name_of].
  - destruct (sget m (c_fields c)) as [f|] eqn:F; [|discriminate].
    destruct (coerce (f_type f) v) as [w|e] eqn:E; cbn [bindR]; [|discriminate]. intros H. injection H as <-. reflexivity.
  - destruct v; intros H; try discriminate. injection H as <-. cbn [o_notes]. destruct (String.eqb n m) eqn:N; eqs.
    + subst m. rewrite dget_dset_eq. unfold step_note. now destruct (sget n (o_notes o)).
    + now apply dget_dset_neq.
  - destruct (sget m (o_notes o)) eqn:G; destruct v; intros H; try discriminate; injection H as <-; cbn [o_notes];
    destruct (String.eqb n m) eqn:N; eqs; try (now apply dget_dset_neq); subst m; rewrite dget_dset_eq, G; reflexivity.
  - destruct (sget m (o_notes o)) eqn:G; destruct v; intros H; try discriminate; injection H as <-; cbn [o_notes];
    destruct (String.eqb n m) eqn:N; eqs; try (now apply dget_dset_neq); subst m; rewrite dget_dset_eq, G; reflexivity.
  - destruct (sget m (o_notes o)) eqn:G; destruct v; intros H; try discriminate; injection H as <-; cbn [o_notes];
    destruct (String.eqb n m) eqn:N; eqs; try (now apply dget_dset_neq); subst m; rewrite dget_dset_eq, G; reflexivity.
Qed.
Lemma assign_all_attr c l o o' n : assign_all c o l = Ok o' ->
  attr o' n = fold_left (step_attr c n) (filter (is_attr n) l) (attr o n).
Proof.
  revert o. induction l as [|[k v] l IH]; intros o; cbn [assign_all].
  - intros H. injection H as <-. reflexivity.
  - intros H. apply bindR_Ok in H as (o1 & A & H). apply IH in H. rewrite H, (assign_attr _ _ _ _ _ n A).
    cbn [filter]. now destruct (is_attr n (k, v)).
Qed.
Lemma assign_all_note c l o o' n : assign_all c o l = Ok o' ->
  note o' n = fold_left step_note (filter (is_note n) l) (note o n).
Proof.
  revert o. induction l as [|[k v] l IH]; intros o; cbn [assign_all].
  - intros H. injection H as <-. reflexivity.
  - intros H. apply bindR_Ok in H as (o1 & A & H). apply IH in H. rewrite H, (assign_note _ _ _ _ _ n A).
    cbn [filter]. now destruct (is_note n (k, v)).
Qed.

(* ---------------------------------------------------------------- values and types *)

Lemma coerce_fits t v w : coerce t v = Ok w -> fits t w.
Proof. destruct t, v; cbn; intros H; try discriminate; injection H as <-; exact I. Qed.
Lemma fits_coerce t v : fits t v -> coerce t v = Ok v.
Proof. destruct t, v; cbn; intros H; try destruct H; reflexivity. Qed.

Definition good (c : class) (kv : key * value) : Prop :=
  match kv with
  | (KAttr n, v) => exists f w, sget n (c_fields c) = Some f /\ coerce (f_type f) v = Ok w
  | (KComment n, v) => In n (c_comments c) /\ exists s, v = VStr s
  | (KAuthor n, v) | (KValue n, v) => In n (c_comments c) /\ exists o, v = opt_str o
  | (KStamp n, v) => In n (c_comments c) /\ exists t, v = VTime t
  end.

Lemma dkeys_sset_in {V} (d : dict V) k v : In k (dkeys d) -> dkeys (sset k v d) = dkeys d.
Proof. apply dkeys_dset_in. Qed.
Lemma In_dkeys_get {V} (d : dict V) k : In k (dkeys d) -> exists v, sget k d = Some v.
Proof.
  intros H. destruct (sget k d) as [v|] eqn:E; [now exists v|]. apply dget_None in E. tauto.
Qed.
Lemma get_In_dkeys {V} (d : dict V) k v : sget k d = Some v -> In k (dkeys d).
Proof. intros H. apply (dget_In string_dec) in H. unfold dkeys. apply in_map_iff. now exists (k, v). Qed.

Lemma instance_set_note c o n m : instance c o -> In n (c_comments c) ->
  instance c (mkObj (o_attrs o) (sset n m (o_notes o))).
Proof.
  intros (A & B & C) H. split; [exact A|]. split; [|exact C]. cbn [o_notes].
  rewrite dkeys_sset_in; [exact B|now rewrite B].
Qed.
Lemma instance_set_attr c o n f w : instance c o -> sget n (c_fields c) = Some f -> fits (f_type f) w ->
  instance c (mkObj (sset n w (o_attrs o)) (o_notes o)).
Proof.
  intros (A & B & C) F W. split; [|split; [exact B|]]; cbn [o_attrs].
  - rewrite dkeys_sset_in; [exact A|]. rewrite A. now apply get_In_dkeys in F.
  - intros m g v G. destruct (string_dec m n) as [->|N].
    + rewrite dget_dset_eq. intros E. injection E as <-. rewrite F in G. injection G as <-. exact W.
    + rewrite dget_dset_neq by assumption. intros E. exact (C _ _ _ G E).
Qed.
Lemma assign_good c o k v : instance c o -> good c (k, v) -> exists o', assign c o k v = Ok o' /\ instance c o'.
Proof.
  intros IO. destruct k as [n|n|n|n|n]; cbn [good assign].
  - intros (f & w & F & W). rewrite F, W. cbn [bindR]. eexists. split; [reflexivity|].
    apply (instance_set_attr c o n f w IO F). exact (coerce_fits _ _ _ W).
  - intros (H & s & ->). eexists. split; [reflexivity|]. now apply instance_set_note.
  - intros (H & [s|] & ->); cbn [opt_str];
    (destruct (In_dkeys_get (o_notes o) n) as (m & ->); [now rewrite (proj1 (proj2 IO))|]);
    (eexists; split; [reflexivity|]; now apply instance_set_note).
  - intros (H & t & ->).
    destruct (In_dkeys_get (o_notes o) n) as (m & ->); [now rewrite (proj1 (proj2 IO))|].
    eexists; split; [reflexivity|]; now apply instance_set_note.
  - intros (H & [s|] & ->); cbn [opt_str];
    (destruct (In_dkeys_get (o_notes o) n) as (m & ->); [now rewrite (proj1 (proj2 IO))|]);
    (eexists; split; [reflexivity|]; now apply instance_set_note).
Qed.
Lemma assign_all_good c l o : instance c o -> (forall kv, In kv l -> good c kv) ->
  exists o', assign_all c o l = Ok o' /\ instance c o'.
Proof.
  revert o. induction l as [|[k v] l IH]; intros o IO G; cbn [assign_all]; [now exists o|].
  destruct (assign_good c o k v IO) as (o1 & -> & I1); [apply G; now left|]. cbn [bindR].
  apply IH; [assumption|]. intros kv H. apply G. now right.
Qed.

(* ---------------------------------------------------------------- to_dict *)

Definition req_of (c : class) (n : string) : bool :=
  match sget n (c_fields c) with Some f => f_required f | None => false end.

Lemma emit_cases req n r v w : emit req n r v = Some w ->
  w = v \/ (v = VNone /\ coordinate_name n = true /\ w = VNum 0) \/ (v = VNone /\ none_to_empty_name n = true /\ w = VStr "").
Proof.
  unfold emit. destruct req; cbn [negb]; [|intros H; injection H as <-; now left].
  destruct v; try (destruct (negb _ || _ || _ || _); intros H; try discriminate; injection H as <-; auto).
  - destruct (coordinate_name n) eqn:E1; [auto|]. destruct (none_to_empty_name n) eqn:E2; auto.
  - destruct (smem n _); [intros H; injection H as <-; auto|]. destruct (forallb _ l); intros H; try discriminate.
    injection H as <-. auto.
Qed.
Lemma emit_nil req r v w : emit req "" r v = Some w -> w = v.
Proof.
  intros H. apply emit_cases in H as [H|[(_ & H & _)|(_ & H & _)]]; [assumption|discriminate|discriminate].
Qed.
Lemma emit_false n r v : emit false n r v = Some v. Proof. reflexivity. Qed.

Lemma good_to_dict c req y : class_ok c -> instance c y -> forall kv, In kv (to_dict c req y) -> good c kv.
Proof.
  intros (ND & NC & DF & CO & NE) (A & B & C) kv H. unfold to_dict in H. apply in_app_or in H as [H|H].
  - apply in_flat_map in H as ([n v] & H & E). cbn [fst snd] in E. unfold entry in E.
    destruct (emit req n _ v) as [w|] eqn:EM; [|destruct E]. destruct E as [<-|[]]. cbn [good].
    assert (IN : In n (dkeys (c_fields c))).
    { rewrite <- A. unfold dkeys. apply in_map_iff. now exists (n, v). }
    destruct (In_dkeys_get _ _ IN) as (f & F). exists f.
    assert (GV : sget n (o_attrs y) = Some v) by (apply (In_dget string_dec); [now rewrite A|assumption]).
    pose proof (C _ _ _ F GV) as FV. apply emit_cases in EM as [->|[(-> & K & ->)|(-> & K & ->)]].
    + exists v. split; [assumption|now apply fits_coerce].
    + exists (VNum 0). split; [assumption|]. destruct (CO _ _ F K) as [->| ->]; reflexivity.
    + exists (VStr ""). split; [assumption|]. destruct (NE _ _ F K) as [->| ->]; reflexivity.
  - apply in_flat_map in H as ([n m] & H & E). cbn [fst snd] in E.
    assert (IN : In n (c_comments c)).
    { rewrite <- B. unfold dkeys. apply in_map_iff. now exists (n, m). }
    unfold comment_entries in E.
    assert (P1 : forall kv, In kv (entry (KAuthor n) (emit req "" false (opt_str (c_author m)))) -> good c kv).
    { intros p. unfold entry. destruct (emit req "" false _) as [w|] eqn:EM; [|intros []]. intros [<-|[]].
      apply emit_nil in EM. subst w. cbn. split; [assumption|]. now exists (c_author m). }
    assert (P2 : forall kv, In kv (entry (KStamp n) (emit req "" false (VTime (c_stamp m)))) -> good c kv).
    { intros p. unfold entry. set (z := VTime (c_stamp m)). destruct (emit req "" false z) as [w|] eqn:EM; [|intros []]. intros [<-|[]].
      apply emit_nil in EM. subst w. cbn. split; [assumption|]. now exists (c_stamp m). }
    assert (P3 : forall kv, In kv (entry (KValue n) (emit req "" false (opt_str (c_value m)))) -> good c kv).
    { intros p. unfold entry. set (z := opt_str (c_value m)). destruct (emit req "" false z) as [w|] eqn:EM; [|intros []]. intros [<-|[]].
      apply emit_nil in EM. subst w. cbn. split; [assumption|]. now exists (c_value m). }
    destruct (simple_comment m) eqn:S.
    + rewrite !in_app_iff in E. destruct E as [E|[E|E]]; auto.
      destruct (req && _); [destruct E|]. destruct E as [<-|[]]. cbn. split; [assumption|].
      unfold simple_comment in S. destruct (c_value m) as [s|]; [now exists s|discriminate].
    + rewrite !in_app_iff in E. destruct E as [[E|E]|E]; auto.
Qed.

Lemma filter_app' {A} (f : A -> bool) l m : filter f (l ++ m)%list = (filter f l ++ filter f m)%list.
Proof. induction l as [|a l IH]; cbn; [reflexivity|]. destruct (f a); cbn; now rewrite IH. Qed.
Lemma filter_none {A} (f : A -> bool) l : (forall x, In x l -> f x = false) -> filter f l = [].
Proof.
  induction l as [|a l IH]; intros H; cbn; [reflexivity|]. rewrite (H a) by now left. apply IH. intros; apply H; now right.
Qed.
Lemma filter_all {A} (f : A -> bool) l : (forall x, In x l -> f x = true) -> filter f l = l.
Proof.
  induction l as [|a l IH]; intros H; cbn; [reflexivity|]. rewrite (H a) by now left. f_equal. apply IH. intros; apply H; now right.
Qed.
Lemma filter_comm {A} (f g : A -> bool) l : filter f (filter g l) = filter g (filter f l).
Proof.
  induction l as [|a l IH]; cbn; [reflexivity|].
  destruct (g a) eqn:G, (f a) eqn:F; cbn; rewrite ?F, ?G, ?IH; reflexivity.
Qed.
(** The part of a list built slot by slot that belongs to one slot. *)
Lemma filter_slot {V} (f : key * value -> bool) (g : string * V -> list (key * value)) (d : dict V) n :
  NoDup (dkeys d) ->
  (forall m x kv, In kv (g (m, x)) -> f kv = String.eqb n m) ->
  filter f (flat_map g d) = match sget n d with Some x => g (n, x) | None => [] end.
Proof.
  intros ND H. induction d as [|[m x] d IH]; cbn; [reflexivity|].
  cbn in ND. inversion ND as [|? ? N ND']; subst. rewrite filter_app', IH by assumption.
  destruct (string_dec n m) as [->|E].
  - rewrite (filter_all f (g (m, x))).
    + rewrite (proj2 (dget_None string_dec _ _)) by assumption. now rewrite app_nil_r.
    + intros kv K. rewrite (H _ _ _ K). apply String.eqb_refl.
  - rewrite (filter_none f (g (m, x))); [reflexivity|].
    intros kv K. rewrite (H _ _ _ K). now apply String.eqb_neq.
Qed.
Lemma comment_entries_note req m x n kv : In kv (comment_entries req m x) -> is_note n kv = String.eqb n m.
Proof.
  unfold comment_entries, entry. intros H.
  assert (K : fst kv = KComment m \/ fst kv = KAuthor m \/ fst kv = KStamp m \/ fst kv = KValue m).
  { destruct (simple_comment x); rewrite !in_app_iff in H.
    - destruct H as [H|[H|H]].
      + destruct (req && _); [destruct H|destruct H as [<-|[]]; auto].
      + destruct (emit _ _ _ _); [destruct H as [<-|[]]; auto|destruct H].
      + destruct (emit _ _ _ _); [destruct H as [<-|[]]; auto|destruct H].
    - destruct H as [[H|H]|H]; (destruct (emit _ _ _ _); [destruct H as [<-|[]]; auto|destruct H]). }
  unfold is_note. destruct K as [->|[->|[->| ->]]]; reflexivity.
Qed.
Lemma is_note_not_attr n m kv : is_note n kv = String.eqb n m -> is_note m kv = true -> is_attr n kv = false.
Proof. unfold is_note, is_attr. destruct (fst kv); auto; discriminate. Qed.

Lemma attr_part c req y n : class_ok c -> instance c y ->
  filter (is_attr n) (to_dict c req y)
  = match attr y n with Some v => entry (KAttr n) (emit req n (req_of c n) v) | None => [] end.
Proof.
  intros (ND & _) (A & B & C). unfold to_dict. rewrite filter_app'.
  rewrite (filter_slot (is_attr n) _ (o_attrs y) n).
  - rewrite (filter_none (is_attr n) (flat_map _ (o_notes y))).
    + rewrite app_nil_r. reflexivity.
    + intros kv H. apply in_flat_map in H as ([m x] & _ & H). cbn [fst snd] in H.
      pose proof (comment_entries_note _ _ _ m _ H) as K. rewrite String.eqb_refl in K.
      unfold is_note in K. unfold is_attr. now destruct (fst kv).
  - now rewrite A.
  - intros m x kv. cbn [fst snd]. unfold entry. destruct (emit _ _ _ _); [|intros []]. intros [<-|[]]. reflexivity.
Qed.
Lemma note_part c req y n : class_ok c -> instance c y ->
  filter (is_note n) (to_dict c req y) = match note y n with Some m => comment_entries req n m | None => [] end.
Proof.
  intros (_ & NC & _) (A & B & C). unfold to_dict. rewrite filter_app'.
  rewrite (filter_none (is_note n) (flat_map _ (o_attrs y))).
  - cbn [app]. rewrite (filter_slot (is_note n) _ (o_notes y) n); [reflexivity|now rewrite B|].
    intros m x kv. cbn [fst snd]. apply comment_entries_note.
  - intros kv H. apply in_flat_map in H as ([m x] & _ & H). cbn [fst snd] in H. unfold entry in H.
    destruct (emit _ _ _ _); [|destruct H]. destruct H as [<-|[]]. reflexivity.
Qed.

(** What [update] leaves in an attribute and in a comment. *)
Definition copied_value (kv : key * value) : bool := negb (not_copied (snd kv)).
Lemma update_spec c x y : class_ok c -> instance c x -> instance c y ->
  exists x', update c x c y = Ok x' /\ instance c x'
  /\ (forall n, attr x' n = fold_left (step_attr c n)
        (filter copied_value (match attr y n with Some v => entry (KAttr n) (emit true n (req_of c n) v) | None => [] end)) (attr x n))
  /\ (forall n, note x' n = fold_left step_note
        (filter copied_value (match note y n with Some m => comment_entries true n m | None => [] end)) (note x n)).
Proof.
  intros CK IX IY. unfold update. rewrite String.eqb_refl.
  destruct (assign_all_good c (filter copied_value (to_dict c true y)) x IX) as (x' & E & IX').
  { intros kv H. apply filter_In in H as (H & _). exact (good_to_dict c true y CK IY kv H). }
  exists x'. split; [exact E|]. split; [exact IX'|]. split; intros n.
  - rewrite (assign_all_attr _ _ _ _ n E). f_equal. rewrite filter_comm. f_equal. now apply attr_part.
  - rewrite (assign_all_note _ _ _ _ n E). f_equal. rewrite filter_comm. f_equal. now apply note_part.
Qed.

Lemma smem_false k l : smem k l = false <-> ~ In k l.
Proof. unfold smem. split; intros H; [now apply memb_false in H|now apply memb_false]. Qed.
Lemma null_text_iff s : smem s null_words = true <-> null_text s.
Proof. rewrite smem_In. reflexivity. Qed.
Lemma is_null_iff v : is_null v = true <-> null_value v.
Proof.
  destruct v; cbn; try (split; [discriminate|intros []]).
  - split; auto.
  - apply null_text_iff.
  - apply is_default_iff.
Qed.
Lemma is_default_false t : t <> default_time -> is_default t = false.
Proof. intros N. destruct (is_default t) eqn:E; [apply is_default_iff in E; congruence|reflexivity]. Qed.
Lemma Qeq_bool_false q p : ~ (q == p)%Q -> Qeq_bool q p = false.
Proof. intros N. destruct (Qeq_bool q p) eqn:E; [apply Qeq_bool_iff in E; tauto|reflexivity]. Qed.
Lemma nonzero_all l : (forall q, In q l -> ~ (q == 0)%Q) <-> forallb (fun q => negb (Qeq_bool q 0)) l = true.
Proof.
  rewrite forallb_forall. split; intros H q Hq; specialize (H q Hq).
  - now rewrite Qeq_bool_false.
  - intros E. apply Qeq_bool_iff in E. rewrite E in H. discriminate.
Qed.
Lemma dropped_text s : dropped (VStr s) = false <-> kept_text s.
Proof.
  cbn [dropped]. rewrite smem_false. unfold kept_text, default_text. cbn. intuition.
Qed.
Lemma ordinary_kept s : ordinary_text s -> kept_text s.
Proof.
  intros (N & M). unfold kept_text. split; [|split; [assumption|]]; intros ->; apply N; cbn; tauto.
Qed.

(** An ordinary value is emitted and copied, whatever the name. *)
Lemma ordinary_emitted n r v : ordinary v -> emit true n r v = Some v /\ not_copied v = false.
Proof.
  unfold emit. cbn [negb]. destruct v as [|s|q|b|t|l|l]; cbn [ordinary]; intros H.
  - destruct H.
  - rewrite (proj2 (dropped_text s)) by now apply ordinary_kept. cbn [negb orb].
    split; [reflexivity|]. cbn. destruct (smem s null_words) eqn:E; [apply null_text_iff in E; now destruct H|reflexivity].
  - cbn. split; [reflexivity|now apply Qeq_bool_false].
  - subst b. cbn. auto.
  - cbn [dropped]. rewrite is_default_false by assumption. cbn [negb orb]. split; [reflexivity|].
    cbn. now apply is_default_false.
  - destruct l; [congruence|]. cbn. auto.
  - destruct H as (H & K). apply nonzero_all in K. rewrite K. destruct l; [congruence|].
    split; [now destruct (smem n _)|reflexivity].
Qed.
(** A value that is not ordinary is not copied, except an array with a zero under one of two names. *)
Lemma not_ordinary n r v : ~ ordinary v -> v <> VStr "1980" -> (n = "zeros" \/ n = "poles" -> forall l, v <> VArr l) ->
  filter copied_value (entry (KAttr n) (emit true n r v)) = [].
Proof.
  intros O Y Z. unfold emit, entry. cbn [negb]. destruct v as [|s|q|b|t|l|l]; cbn [ordinary] in O.
  - cbn [dropped negb orb]. destruct (_ || _ || _); [|reflexivity]. unfold copied_value. cbn [filter snd].
    destruct (coordinate_name n); [reflexivity|]. now destruct (none_to_empty_name n).
  - destruct (dropped (VStr s)) eqn:D.
    + destruct (negb true || r || _ || _); [|reflexivity]. unfold copied_value. cbn [filter snd not_copied is_null].
      cbn [dropped] in D. apply smem_In in D.
      destruct D as [<-|[<-|[<-|[]]]]; [reflexivity| |reflexivity].
      exfalso. now apply Y.
    + cbn [negb orb]. unfold copied_value. cbn [filter snd not_copied is_null].
      destruct (smem s null_words) eqn:E; [reflexivity|]. exfalso. apply O. split.
      * intros N. apply null_text_iff in N. congruence.
      * intros ->. cbn in D. discriminate.
  - cbn [dropped negb orb]. unfold copied_value. cbn [filter snd not_copied].
    destruct (Qeq_bool q 0) eqn:E; [reflexivity|]. exfalso. apply O. intros C. apply Qeq_bool_iff in C. congruence.
  - cbn [dropped negb orb]. unfold copied_value. cbn [filter snd not_copied]. destruct b; [congruence|reflexivity].
  - cbn [dropped]. destruct (is_default t) eqn:E.
    + destruct (_ || _ || _ || _); [|reflexivity]. unfold copied_value. cbn [filter snd not_copied is_null]. now rewrite E.
    + exfalso. apply O. intros ->. discriminate.
  - destruct l; [|exfalso; apply O; discriminate]. cbn [dropped]. destruct (_ || _ || _ || _); reflexivity.
  - destruct (smem n ["zeros"; "poles"]) eqn:E.
    + apply smem_In in E. exfalso. apply (Z ltac:(cbn in E; intuition) l). reflexivity.
    + destruct (forallb _ l) eqn:F; [|reflexivity]. unfold copied_value. cbn [filter snd not_copied].
      destruct l; [reflexivity|]. exfalso. apply O. split; [discriminate|]. now apply nonzero_all.
Qed.

(** One ordinary or one other attribute through [update]. *)
Lemma update_attr_ordinary c n acc v : sget n (c_fields c) <> None ->
  (forall f, sget n (c_fields c) = Some f -> fits (f_type f) v) -> ordinary v ->
  fold_left (step_attr c n) (filter copied_value (entry (KAttr n) (emit true n (req_of c n) v))) acc = Some v.
Proof.
  intros NN F O. destruct (ordinary_emitted n (req_of c n) v O) as (E & K). rewrite E. cbn [entry filter].
  unfold copied_value. cbn [snd]. rewrite K. cbn [negb fold_left]. unfold step_attr.
  destruct (sget n (c_fields c)) as [f|]; [|congruence]. cbn [snd]. now rewrite (fits_coerce _ _ (F f eq_refl)).
Qed.

(* ---------------------------------------------------------------- from_dict *)

Lemma filter_true {A} (l : list A) (f : A -> bool) : (forall x, f x = true) -> filter f l = l.
Proof. intros H. apply filter_all. auto. Qed.
Lemma from_dict_spec c req x z : class_ok c -> instance c x -> instance c z ->
  exists x', from_dict c z false (to_dict c req x) = Ok x' /\ instance c x'
  /\ (forall n, attr x' n = fold_left (step_attr c n)
        (match attr x n with Some v => entry (KAttr n) (emit req n (req_of c n) v) | None => [] end) (attr z n))
  /\ (forall n, note x' n = fold_left step_note
        (match note x n with Some m => comment_entries req n m | None => [] end) (note z n)).
Proof.
  intros CK IX IZ. unfold from_dict. rewrite filter_true by reflexivity.
  destruct (assign_all_good c (to_dict c req x) z IZ) as (x' & E & IX').
  { exact (good_to_dict c req x CK IX). }
  exists x'. split; [exact E|]. split; [exact IX'|]. split; intros n.
  - rewrite (assign_all_attr _ _ _ _ n E). f_equal. now apply attr_part.
  - rewrite (assign_all_note _ _ _ _ n E). f_equal. now apply note_part.
Qed.

Lemma attr_of_instance c x n : instance c x -> In n (dkeys (c_fields c)) -> exists v, attr x n = Some v.
Proof. intros (A & _) H. apply In_dkeys_get. now rewrite A. Qed.
Lemma note_of_instance c x n : instance c x -> In n (c_comments c) -> exists m, note x n = Some m.
Proof. intros (_ & B & _) H. apply In_dkeys_get. now rewrite B. Qed.
Lemma attr_field c x n v : instance c x -> attr x n = Some v ->
  exists f, sget n (c_fields c) = Some f /\ fits (f_type f) v.
Proof.
  intros (A & _ & C) H. pose proof (get_In_dkeys _ _ _ H) as I. rewrite A in I.
  destruct (In_dkeys_get _ _ I) as (f & F). exists f. split; [assumption|]. exact (C _ _ _ F H).
Qed.
Lemma instance_ext c x y : class_ok c -> instance c x -> instance c y ->
  (forall n, attr x n = attr y n) -> (forall n, note x n = note y n) -> x = y.
Proof.
  intros (ND & NC & _) (A & B & _) (A' & B' & _) EA EN. destruct x as [xa xn], y as [ya yn].
  cbn [o_attrs o_notes] in A, B, A', B'. f_equal.
  - apply (dget_ext_NoDup string_dec); [now rewrite A|congruence|exact EA].
  - apply (dget_ext_NoDup string_dec); [now rewrite B|congruence|exact EN].
Qed.

Lemma comment_back n m z : fold_left step_note (comment_entries false n m) (Some z) = Some m.
Proof.
  unfold comment_entries. rewrite !emit_false. cbn [entry]. cbv zeta.
  destruct m as [a t v]. cbn [c_author c_stamp c_value]. unfold simple_comment. cbn [c_author c_stamp c_value].
  destruct v as [s|]; cbn [opt_str].
  - destruct ((_ && _)%bool); cbn [andb].
    + destruct a; reflexivity.
    + destruct a; reflexivity.
  - destruct a; reflexivity.
Qed.
Lemma attr_back c n f v z : sget n (c_fields c) = Some f -> fits (f_type f) v ->
  fold_left (step_attr c n) (entry (KAttr n) (Some v)) z = Some v.
Proof. intros F V. cbn. unfold step_attr. rewrite F. cbn [snd]. now rewrite fits_coerce. Qed.

Lemma kept_emitted n r v : kept v -> emit true n r v = Some v.
Proof.
  unfold emit. cbn [negb]. destruct v as [|s|q|b|t|l|l]; cbn [kept]; intros H.
  - destruct H.
  - now rewrite (proj2 (dropped_text s)).
  - reflexivity.
  - reflexivity.
  - cbn [dropped]. now rewrite is_default_false.
  - destruct l; [congruence|]. reflexivity.
  - apply nonzero_all in H. rewrite H. now destruct (smem n _).
Qed.
Lemma comment_back_required n m :
  (forall a, c_author m = Some a -> kept_text a) -> (forall s, c_value m = Some s -> kept_text s) ->
  fold_left step_note (comment_entries true n m) (Some new_comment) = Some m.
Proof.
  destruct m as [a t v]. cbn [c_author c_stamp c_value]. intros HA HV. unfold comment_entries.
  cbn [c_author c_stamp c_value]. cbv zeta.
  assert (TS : emit true "" false (VTime t) = if is_default t then None else Some (VTime t)).
  { unfold emit. cbn [negb dropped]. now destruct (is_default t). }
  rewrite TS.
  assert (TD : is_default t = true -> t = default_time) by apply is_default_iff.
  assert (EA : emit true "" false (opt_str a) = match a with None => None | Some s => Some (VStr s) end).
  { destruct a as [s|]; [|reflexivity]. now rewrite kept_emitted by (cbn; auto). }
  assert (EV : emit true "" false (opt_str v) = match v with None => None | Some s => Some (VStr s) end).
  { destruct v as [s|]; [|reflexivity]. now rewrite kept_emitted by (cbn; auto). }
  rewrite EA, EV. unfold simple_comment. cbn [c_author c_stamp c_value].
  destruct v as [s|].
  - assert (DV : dropped (opt_str (Some s)) = false) by (apply dropped_text; auto). rewrite DV.
    destruct (is_default t) eqn:T.
    + rewrite (TD eq_refl). destruct a as [b|].
      * destruct (String.eqb b "") eqn:B; eqs; [subst b; destruct (HA "" eq_refl); congruence|]. reflexivity.
      * reflexivity.
    + rewrite andb_false_r. destruct a; reflexivity.
  - destruct (is_default t) eqn:T; [rewrite (TD eq_refl)|]; destruct a; reflexivity.
Qed.

(* ---------------------------------------------------------------- equality *)

Lemma simple_text_only m : simple_comment m = true <-> text_only m.
Proof.
  unfold simple_comment, text_only. destruct (c_value m) as [v|]; [|split; [discriminate|intros (H & _); congruence]].
  rewrite andb_true_iff, is_default_iff. destruct (c_author m) as [a|].
  - rewrite String.eqb_eq. split; [intros (-> & H)|intros (_ & [H|H] & K)]; try discriminate; auto.
    + split; [discriminate|auto].
    + injection H as ->. auto.
  - split; [intros (_ & H); split; [discriminate|auto]|intros (_ & _ & H); auto].
Qed.
Lemma holds_iff w n : w <> "" -> holds w n = true <-> has_part w n.
Proof.
  intros NE. unfold holds, has_part. destruct (String.index 0 w n) as [k|] eqn:E.
  - split; [intros _; exists k; exact (index_correct1 _ _ _ _ E)|reflexivity].
  - split; [discriminate|]. intros (k & K). exfalso. exact (index_correct3 0 k w n E NE (Nat.le_0_l k) K).
Qed.
Lemma skipped_false n : skipped n = false <-> compared n.
Proof.
  unfold skipped, compared. rewrite orb_false_iff, <- !holds_iff by discriminate.
  split; intros (A & B); split; try congruence.
  - destruct (holds "processed_date" n); congruence.
  - destruct (holds "creation_time" n); congruence.
Qed.
Lemma substring_all s k : String.substring 0 (String.length s + k) s = s.
Proof. induction s as [|c s IH]; cbn; [now destruct k|]. now rewrite IH. Qed.
Lemma substring_tail b x : String.substring (String.length b) (String.length x) (b ++ x) = x.
Proof. induction b as [|c b IH]; cbn; [|assumption]. rewrite <- (Nat.add_0_r (String.length x)). apply substring_all. Qed.
Lemma length_app_string a b : String.length (a ++ b) = (String.length a + String.length b)%nat.
Proof. induction a as [|c a IH]; cbn; [reflexivity|]. now rewrite IH. Qed.
Lemma substring_head s k n : exists b, (k <= String.length s)%nat -> s = (b ++ String.substring k (String.length s - k + n) s)%string.
Proof.
  revert k. induction s as [|c s IH]; intros k.
  - exists "". intros H. destruct k; [|cbn in H; lia]. cbn. now destruct n.
  - destruct k as [|k].
    + exists "". intros _. rewrite Nat.sub_0_r, substring_all. reflexivity.
    + destruct (IH k) as (b & B). exists (String c b). intros H. cbn in H |- *. f_equal. apply B. lia.
Qed.
Lemma substring_length s k n : (String.length (String.substring k n s) <= String.length s - k)%nat.
Proof.
  revert k n. induction s as [|c s IH]; intros [|k] [|n]; cbn; try lia.
  - pose proof (IH 0%nat n). lia.
  - pose proof (IH k 0%nat). lia.
  - pose proof (IH k (S n)). lia.
Qed.
Lemma ends_with_iff x n : ends_with x n = true <-> exists b, n = (b ++ x)%string.
Proof.
  unfold ends_with. rewrite String.eqb_eq. split.
  - intros H. pose proof (substring_length n (String.length n - String.length x) (String.length x)) as L. rewrite H in L.
    destruct (substring_head n (String.length n - String.length x) 0) as (b & B). exists b.
    rewrite Nat.add_0_r in B.
    replace (String.length n - (String.length n - String.length x))%nat with (String.length x) in B by lia.
    rewrite H in B. apply B. lia.
  - intros (b & ->). rewrite length_app_string, Nat.add_sub. apply substring_tail.
Qed.
Lemma ends_in_coordinate_iff n : ends_in_coordinate n = true <-> names_coordinate n.
Proof.
  unfold ends_in_coordinate, names_coordinate. rewrite existsb_exists. split.
  - intros (x & I & E). apply ends_with_iff in E as (b & ->). exists b, x. auto.
  - intros (b & x & I & ->). exists x. split; [assumption|]. apply ends_with_iff. now exists b.
Qed.

Lemma dget_filter (f : key * value -> bool) k l : (forall v, f (k, v) = true) ->
  dget key_dec k (filter f l) = dget key_dec k l.
Proof.
  intros H. induction l as [|[a v] l IH]; cbn; [reflexivity|].
  destruct (key_dec k a) as [<-|N].
  - rewrite H. cbn. destruct (key_dec k k); [reflexivity|congruence].
  - destruct (f (a, v)); cbn; [|assumption]. destruct (key_dec k a); [congruence|assumption].
Qed.
Lemma key_refl k : exists p, key_dec k k = left p.
Proof. destruct (key_dec k k) as [p|n]; [now exists p|congruence]. Qed.
Lemma dget_attr c y n : class_ok c -> instance c y -> dget key_dec (KAttr n) (to_dict c false y) = attr y n.
Proof.
  intros CK IY. rewrite <- (dget_filter (is_attr n)) by (intros v; unfold is_attr; cbn; apply String.eqb_refl).
  rewrite attr_part by assumption. destruct (attr y n) as [v|]; [|reflexivity]. cbn [entry emit negb dget].
  destruct (key_refl (KAttr n)) as (p & ->). reflexivity.
Qed.
Lemma dget_note c y n k : class_ok c -> instance c y -> is_note n (k, VNone) = true ->
  dget key_dec k (to_dict c false y)
  = match note y n with Some m => dget key_dec k (comment_entries false n m) | None => None end.
Proof.
  intros CK IY K. rewrite <- (dget_filter (is_note n)) by (intros v; exact K).
  rewrite note_part by assumption. destruct (note y n) as [m|]; reflexivity.
Qed.
Lemma entries_false n m : comment_entries false n m =
  if simple_comment m
  then [(KComment n, opt_str (c_value m)); (KAuthor n, opt_str (c_author m)); (KStamp n, VTime (c_stamp m))]
  else [(KAuthor n, opt_str (c_author m)); (KStamp n, VTime (c_stamp m)); (KValue n, opt_str (c_value m))].
Proof. reflexivity. Qed.
Ltac key_cases := repeat match goal with
  | |- context [key_dec ?a ?a] => let p := fresh in destruct (key_refl a) as (p & ->)
  | |- context [key_dec ?a ?b] => destruct (key_dec a b) as [?e|_]; [discriminate|] end.
Lemma get_author n m : dget key_dec (KAuthor n) (comment_entries false n m) = Some (opt_str (c_author m)).
Proof. rewrite entries_false. destruct (simple_comment m); cbn [dget]; key_cases; reflexivity. Qed.
Lemma get_stamp n m : dget key_dec (KStamp n) (comment_entries false n m) = Some (VTime (c_stamp m)).
Proof. rewrite entries_false. destruct (simple_comment m); cbn [dget]; key_cases; reflexivity. Qed.
Lemma get_text n m : dget key_dec (KComment n) (comment_entries false n m)
  = if simple_comment m then Some (opt_str (c_value m)) else None.
Proof. rewrite entries_false. destruct (simple_comment m); cbn [dget]; key_cases; reflexivity. Qed.
Lemma get_value n m : dget key_dec (KValue n) (comment_entries false n m)
  = if simple_comment m then None else Some (opt_str (c_value m)).
Proof. rewrite entries_false. destruct (simple_comment m); cbn [dget]; key_cases; reflexivity. Qed.

Lemma compare_spec home other :
  (forall k v w, In (k, v) home -> dget key_dec k other = Some w -> exists b, same_entry (tail_of k) v w = Ok b) ->
  exists b, compare_entries home other = Ok b
  /\ (b = true <-> forall k v w, In (k, v) home -> skipped (name_of k) = false -> dget key_dec k other = Some w ->
                   same_entry (tail_of k) v w = Ok true).
Proof.
  induction home as [|[k v] r IH]; intros H; cbn [compare_entries].
  - exists true. split; [reflexivity|]. split; [intros _ k v w []|reflexivity].
  - destruct IH as (b & E & B). { intros k' v' w I. apply H. now right. }
    destruct (skipped (name_of k)) eqn:S.
    + exists b. split; [assumption|]. rewrite B. split.
      * intros K k' v' w [I|I] N; [injection I as <- <-; congruence|]. now apply K.
      * intros K k' v' w I. apply K. now right.
    + destruct (dget key_dec k other) as [w|] eqn:D.
      * destruct (H k v w) as (b1 & E1); [now left|assumption|]. rewrite E1, E. cbn [bindR].
        exists (b1 && b)%bool. split; [reflexivity|]. rewrite andb_true_iff, B. split.
        -- intros (-> & K) k' v' w' [I|I] N D'.
           ++ injection I as <- <-. rewrite D in D'. injection D' as <-. assumption.
           ++ exact (K k' v' w' I N D').
        -- intros K. split.
           ++ specialize (K k v w (or_introl eq_refl) S D). congruence.
           ++ intros k' v' w' I. apply K. now right.
      * exists b. split; [assumption|]. rewrite B. split.
        -- intros K k' v' w [I|I] N D'; [injection I as <- <-; congruence|]. exact (K k' v' w I N D').
        -- intros K k' v' w I. apply K. now right.
Qed.

Lemma isclose_iff a b : isclose a b = true <-> close a b.
Proof. unfold isclose, close. apply Qle_bool_iff. Qed.
Lemma same_list_iff a b : same_list a b = true <-> Forall2 Qeq a b.
Proof.
  revert b. induction a as [|x a IH]; intros [|y b]; cbn.
  - split; [constructor|reflexivity].
  - split; [discriminate|intros H; inversion H].
  - split; [discriminate|intros H; inversion H].
  - rewrite andb_true_iff, IH, Qeq_bool_iff. split.
    + intros (A & B). now constructor.
    + intros H. inversion H; subst. auto.
Qed.
Lemma list_dec_true (a b : list string) : (if list_eq_dec string_dec a b then true else false) = true <-> a = b.
Proof. destruct (list_eq_dec string_dec a b); split; congruence. Qed.

(** Two values of the same field. *)
Lemma same_entry_fits n t v w : fits t v -> fits t w ->
  exists b, same_entry n v w = Ok b /\ (b = true <-> agree n v w).
Proof.
  intros FV FW.
  assert (BOTH : forall v w, (is_null v && is_null w = true) <-> (null_value v /\ null_value w)).
  { intros v' w'. rewrite andb_true_iff, !is_null_iff. reflexivity. }
  destruct t, v, w; cbn in FV, FW; try (now destruct FV); try (now destruct FW);
  cbn [same_entry agree].
  - eexists. split; [reflexivity|]. rewrite orb_true_iff, BOTH. cbn [value_eqb]. rewrite String.eqb_eq.
    split; intros [H|H]; auto; [subst; auto|]. injection H as ->. auto.
  - exists true. split; [reflexivity|]. split; auto.
  - eexists. split; [reflexivity|]. rewrite orb_true_iff, BOTH. cbn [value_eqb]. split; intros [H|H]; auto; discriminate.
  - eexists. split; [reflexivity|]. rewrite orb_true_iff, BOTH. cbn [value_eqb]. split; intros [H|H]; auto; discriminate.
  - eexists. split; [reflexivity|]. rewrite orb_true_iff, BOTH. cbn [value_eqb]. rewrite String.eqb_eq.
    split; intros [H|H]; auto; [subst; auto|]. injection H as ->. auto.
  - eexists. split; [reflexivity|]. apply isclose_iff.
  - exists true. split; [reflexivity|]. split; auto.
  - eexists. split; [reflexivity|]. rewrite orb_true_iff, BOTH. cbn [value_eqb]. split; intros [H|H]; auto; discriminate.
  - eexists. split; [reflexivity|]. rewrite andb_true_iff, Qeq_bool_iff, ends_in_coordinate_iff. reflexivity.
  - eexists. split; [reflexivity|]. apply isclose_iff.
  - eexists. split; [reflexivity|]. destruct b, b0; cbn; split; intros H; auto; try discriminate;
    destruct H as [H|(H & _)]; try discriminate; destruct H.
  - eexists. split; [reflexivity|]. rewrite orb_true_iff, BOTH. cbn [value_eqb]. rewrite Z.eqb_eq.
    split; intros [H|H]; auto; [subst; auto|]. injection H as ->. auto.
  - eexists. split; [reflexivity|]. rewrite orb_true_iff, BOTH. cbn [value_eqb]. rewrite list_dec_true.
    split; intros [H|H]; auto; [subst; auto|]. injection H as ->. auto.
  - eexists. split; [reflexivity|]. apply same_list_iff.
Qed.
Lemma same_entry_opt a b : exists r, same_entry "" (opt_str a) (opt_str b) = Ok r /\ (r = true <-> same_text a b).
Proof.
  unfold same_text.
  assert (BOTH : forall v w, (is_null v && is_null w = true) <-> (null_value v /\ null_value w)).
  { intros v' w'. rewrite andb_true_iff, !is_null_iff. reflexivity. }
  destruct a as [a|], b as [b|]; cbn [opt_str same_entry]; eexists; (split; [reflexivity|]);
  rewrite orb_true_iff, BOTH; cbn [value_eqb]; rewrite ?String.eqb_eq; split; intros [H|H]; auto; try discriminate.
  - subst. auto.
  - injection H as ->. auto.
Qed.
Lemma same_entry_time a b : exists r, same_entry "" (VTime a) (VTime b) = Ok r /\ (r = true <-> a = b).
Proof.
  cbn [same_entry]. eexists. split; [reflexivity|]. rewrite orb_true_iff, andb_true_iff, !is_null_iff. cbn [null_value value_eqb].
  rewrite Z.eqb_eq. split; [intros [(-> & ->)|H]; auto|auto].
Qed.

Lemma In_to_dict_false c x k v : class_ok c -> instance c x -> In (k, v) (to_dict c false x) ->
  (exists n, k = KAttr n /\ attr x n = Some v)
  \/ (exists n m, note x n = Some m /\ name_of k = n /\ In (k, v) (comment_entries false n m)).
Proof.
  intros (ND & NC & _) (A & B & _) H. unfold to_dict in H. apply in_app_or in H as [H|H].
  - left. apply in_flat_map in H as ([n w] & H & E). cbn in E. destruct E as [E|[]]. injection E as <- <-.
    exists n. split; [reflexivity|]. apply (In_dget string_dec); [now rewrite A|assumption].
  - right. apply in_flat_map in H as ([n m] & H & E). cbn [fst snd] in E. exists n, m.
    split; [apply (In_dget string_dec); [now rewrite B|assumption]|]. split; [|assumption].
    rewrite entries_false in E. destruct (simple_comment m);
    repeat (destruct E as [E|E]; [injection E as <- _; reflexivity|]); destruct E.
Qed.

Lemma eq_obj_spec c x y : class_ok c -> instance c x -> instance c y ->
  exists b, eq_obj c x c y = Ok b
  /\ (b = true <->
      (forall n v w, compared n -> attr x n = Some v -> attr y n = Some w -> agree n v w)
      /\ (forall n m m', compared n -> note x n = Some m -> note y n = Some m' -> comments_agree m m')).
Proof.
  intros CK IX IY. unfold eq_obj.
  assert (TOT : forall k v w, In (k, v) (to_dict c false x) -> dget key_dec k (to_dict c false y) = Some w ->
                exists b, same_entry (tail_of k) v w = Ok b).
  { intros k v w H D. apply In_to_dict_false in H as [(n & -> & V)|(n & m & M & NK & H)]; try assumption.
    - rewrite dget_attr in D by assumption.
      destruct (attr_field c x n v IX V) as (f & F & FV). destruct (attr_field c y n w IY D) as (f' & F' & FW).
      rewrite F in F'. injection F' as <-. destruct (same_entry_fits n (f_type f) v w FV FW) as (b & E & _). now exists b.
    - rewrite entries_false in H.
      destruct k as [a|a|a|a|a]; cbn [name_of] in NK; subst a; cbn [tail_of];
      try (rewrite (dget_note c y n) in D by (try assumption; apply String.eqb_refl);
           destruct (note y n) as [m'|]; [|discriminate]).
      + destruct (simple_comment m); repeat (destruct H as [H|H]; [discriminate|]); destruct H.
      + rewrite get_text in D. destruct (simple_comment m'); [|discriminate]. injection D as <-.
        assert (V : v = opt_str (c_value m)).
        { destruct (simple_comment m); repeat (destruct H as [H|H]; [first [discriminate|injection H as <-; reflexivity]|]); destruct H. }
        subst v. destruct (same_entry_opt (c_value m) (c_value m')) as (b & E & _). now exists b.
      + rewrite get_author in D. injection D as <-.
        assert (V : v = opt_str (c_author m)).
        { destruct (simple_comment m); repeat (destruct H as [H|H]; [first [discriminate|injection H as <-; reflexivity]|]); destruct H. }
        subst v. destruct (same_entry_opt (c_author m) (c_author m')) as (b & E & _). now exists b.
      + rewrite get_stamp in D. injection D as <-.
        assert (V : v = VTime (c_stamp m)).
        { destruct (simple_comment m); repeat (destruct H as [H|H]; [first [discriminate|injection H as <-; reflexivity]|]); destruct H. }
        subst v. destruct (same_entry_time (c_stamp m) (c_stamp m')) as (b & E & _). now exists b.
      + rewrite get_value in D. destruct (simple_comment m'); [discriminate|]. injection D as <-.
        assert (V : v = opt_str (c_value m)).
        { destruct (simple_comment m); repeat (destruct H as [H|H]; [first [discriminate|injection H as <-; reflexivity]|]); destruct H. }
        subst v. destruct (same_entry_opt (c_value m) (c_value m')) as (b & E & _). now exists b. }
  destruct (compare_spec _ _ TOT) as (b & E & B). exists b. split; [assumption|]. rewrite B. clear B E b TOT. split.
  - intros H. split.
    + intros n v w C V W.
      assert (IN : In (KAttr n, v) (to_dict c false x)).
      { apply (dget_In key_dec). now rewrite dget_attr. }
      specialize (H (KAttr n) v w IN (proj2 (skipped_false n) C)). rewrite dget_attr in H by assumption. specialize (H W). cbn [tail_of] in H.
      destruct (attr_field c x n v IX V) as (f & F & FV). destruct (attr_field c y n w IY W) as (f' & F' & FW).
      rewrite F in F'. injection F' as <-.
      destruct (same_entry_fits n (f_type f) v w FV FW) as (b & E & K). apply K. congruence.
    + intros n m m' C M M'. apply skipped_false in C.
      assert (KEY : forall k v, is_note n (k, VNone) = true -> tail_of k = "" -> name_of k = n ->
                    dget key_dec k (comment_entries false n m) = Some v ->
                    forall w, dget key_dec k (comment_entries false n m') = Some w -> same_entry "" v w = Ok true).
      { intros k v N T NN D w D'. specialize (H k v w). rewrite T, NN in H. apply H; try assumption.
        - apply (dget_In key_dec). rewrite (dget_note c x n) by assumption. now rewrite M.
        - rewrite (dget_note c y n) by assumption. now rewrite M'. }
      split; [|split].
      * destruct (same_entry_opt (c_author m) (c_author m')) as (b & E & K). apply K.
        pose proof (KEY (KAuthor n) _ (String.eqb_refl n) eq_refl eq_refl (get_author n m) _ (get_author n m')). congruence.
      * destruct (same_entry_time (c_stamp m) (c_stamp m')) as (b & E & K). apply K.
        pose proof (KEY (KStamp n) _ (String.eqb_refl n) eq_refl eq_refl (get_stamp n m) _ (get_stamp n m')). congruence.
      * destruct (same_entry_opt (c_value m) (c_value m')) as (b & E & K).
        pose proof (get_text n m) as T. pose proof (get_text n m') as T'.
        pose proof (get_value n m) as V. pose proof (get_value n m') as V'.
        destruct (simple_comment m) eqn:SM, (simple_comment m') eqn:SM';
        try (right; rewrite <- !simple_text_only, SM, SM'; intuition discriminate); left; apply K.
        -- pose proof (KEY (KComment n) _ (String.eqb_refl n) eq_refl eq_refl T _ T'). congruence.
        -- pose proof (KEY (KValue n) _ (String.eqb_refl n) eq_refl eq_refl V _ V'). congruence.
  - intros (HA & HN) k v w IN C D. apply In_to_dict_false in IN as [(n & -> & V)|(n & m & M & NK & H)]; try assumption.
    + rewrite dget_attr in D by assumption. cbn [tail_of].
      destruct (attr_field c x n v IX V) as (f & F & FV). destruct (attr_field c y n w IY D) as (f' & F' & FW).
      rewrite F in F'. injection F' as <-.
      destruct (same_entry_fits n (f_type f) v w FV FW) as (b & E & K). rewrite E. f_equal. apply K. apply HA; try assumption. now apply skipped_false.
    + rewrite entries_false in H. rewrite NK in C. apply skipped_false in C.
      destruct k as [a|a|a|a|a]; cbn [name_of] in NK; subst a; cbn [tail_of];
      try (rewrite (dget_note c y n) in D by (try assumption; apply String.eqb_refl);
           destruct (note y n) as [m'|] eqn:M'; [|discriminate]; pose proof (HN n m m' C M M') as (HA1 & HS & HV)).
      * destruct (simple_comment m); repeat (destruct H as [H|H]; [discriminate|]); destruct H.
      * rewrite get_text in D. destruct (simple_comment m') eqn:S'; [|discriminate]. injection D as <-.
        destruct (simple_comment m) eqn:S; repeat (destruct H as [H|H]; [first [discriminate|injection H as <-]|]); try destruct H.
        destruct HV as [HV|HV]; [|rewrite <- !simple_text_only, S, S' in HV; intuition discriminate].
        destruct (same_entry_opt (c_value m) (c_value m')) as (b & E & K). rewrite E. f_equal. now apply K.
      * rewrite get_author in D. injection D as <-.
        assert (V : v = opt_str (c_author m)).
        { destruct (simple_comment m); repeat (destruct H as [H|H]; [first [discriminate|injection H as <-; reflexivity]|]); destruct H. }
        subst v. destruct (same_entry_opt (c_author m) (c_author m')) as (b & E & K). rewrite E. f_equal. now apply K.
      * rewrite get_stamp in D. injection D as <-.
        assert (V : v = VTime (c_stamp m)).
        { destruct (simple_comment m); repeat (destruct H as [H|H]; [first [discriminate|injection H as <-; reflexivity]|]); destruct H. }
        subst v. destruct (same_entry_time (c_stamp m) (c_stamp m')) as (b & E & K). rewrite E. f_equal. now apply K.
      * rewrite get_value in D. destruct (simple_comment m') eqn:S'; [discriminate|]. injection D as <-.
        destruct (simple_comment m) eqn:S; repeat (destruct H as [H|H]; [first [discriminate|injection H as <-]|]); try destruct H.
        destruct HV as [HV|HV]; [|rewrite <- !simple_text_only, S, S' in HV; intuition discriminate].
        destruct (same_entry_opt (c_value m) (c_value m')) as (b & E & K). rewrite E. f_equal. now apply K.
Qed.

(* ---------------------------------------------------------------- comments through update *)

Lemma ordinary_text_dec s : {ordinary_text s} + {~ ordinary_text s}.
Proof.
  unfold ordinary_text, null_text.
  destruct (in_dec string_dec s [""; "null"; "None"; "NONE"; "NULL"; "Null"; "none"; "1980-01-01T00:00:00"; "1980-01-01T00:00:00+00:00"]) as [H|H].
  - right. tauto.
  - destruct (string_dec s "1980"); [right|left]; tauto.
Qed.
Lemma part_cases k o :
  (exists s, o = Some s /\ ordinary_text s
             /\ filter copied_value (entry k (emit true "" false (opt_str o))) = [(k, VStr s)])
  \/ ((forall s, o = Some s -> ~ ordinary_text s)
      /\ filter copied_value (entry k (emit true "" false (opt_str o))) = []).
Proof.
  destruct o as [s|].
  - destruct (ordinary_text_dec s) as [O|O].
    + left. exists s. split; [reflexivity|]. split; [assumption|]. cbn [opt_str].
      destruct (ordinary_emitted "" false (VStr s) O) as (E & K). rewrite E. cbn [entry filter]. unfold copied_value.
      cbn [snd]. now rewrite K.
    + right. split; [intros t E; now injection E as <-|]. cbn [opt_str].
      destruct (string_dec s "1980") as [->|N]; [reflexivity|].
      assert (Z : filter copied_value (entry (KAttr "") (emit true "" false (VStr s))) = []).
      { apply not_ordinary; [exact O|congruence|intros [H|H]; discriminate]. }
      destruct (emit true "" false (VStr s)) as [w|]; [|reflexivity]. cbn in *. unfold copied_value in *. cbn in *.
      now destruct (negb (not_copied w)).
  - right. split; [discriminate|reflexivity].
Qed.
Lemma stamp_part k t : filter copied_value (entry k (emit true "" false (VTime t)))
  = if is_default t then [] else [(k, VTime t)].
Proof.
  unfold emit. cbn [negb dropped]. destruct (is_default t) eqn:T; [reflexivity|]. cbn [negb orb entry filter].
  unfold copied_value. cbn. now rewrite T.
Qed.

(** A comment of [y] that is more than a text. *)
Lemma comment_update n m m' : simple_comment m' = false ->
  exists r, fold_left step_note (filter copied_value (comment_entries true n m')) (Some m) = Some r
  /\ (forall a, c_author m' = Some a -> ordinary_text a -> c_author r = Some a)
  /\ (c_author r = c_author m' \/ c_author r = c_author m)
  /\ ((forall a, c_author m' = Some a -> ~ ordinary_text a) -> c_author r = c_author m)
  /\ (c_stamp m' <> default_time -> c_stamp r = c_stamp m')
  /\ (c_stamp m' = default_time -> c_stamp r = c_stamp m)
  /\ (forall s, c_value m' = Some s -> ordinary_text s -> c_value r = Some s)
  /\ ((forall s, c_value m' = Some s -> ~ ordinary_text s) -> c_value r = c_value m)
  /\ (c_value r = c_value m' \/ c_value r = c_value m).
Proof.
  intros S. unfold comment_entries. rewrite S. rewrite !filter_app, stamp_part.
  set (d := is_default (c_stamp m')).
  assert (D : if d then c_stamp m' = default_time else c_stamp m' <> default_time).
  { subst d. destruct (is_default (c_stamp m')) eqn:E; [now apply is_default_iff|].
    intros H. apply is_default_iff in H. congruence. }
  destruct (part_cases (KAuthor n) (c_author m')) as [(a & EA & OA & FA)|(NA & FA)];
  destruct (part_cases (KValue n) (c_value m')) as [(s & EV & OV & FV)|(NV & FV)];
  rewrite FA, FV; destruct d; cbn [app fold_left step_note]; (eexists; split; [reflexivity|]); cbn [c_author c_stamp c_value];
  (split; [|split; [|split; [|split; [|split; [|split; [|split]]]]]]);
  try (now auto); try congruence; intros;
  try (match goal with H : c_author m' = Some _, K : ordinary_text _ |- _ => exfalso; now apply (NA _ H) end);
  try (match goal with H : c_value m' = Some _, K : ordinary_text _ |- _ => exfalso; now apply (NV _ H) end);
  try (exfalso; match goal with H : forall a, c_author m' = Some a -> _ |- _ => now apply (H _ EA) end);
  try (exfalso; match goal with H : forall a, c_value m' = Some a -> _ |- _ => now apply (H _ EV) end).
Qed.
Lemma text_update n m s : forall m', simple_comment m' = true -> c_value m' = Some s -> ordinary_text s ->
  fold_left step_note (filter copied_value (comment_entries true n m')) (Some m)
  = Some (mkComment None default_time (Some s)).
Proof.
  intros m' S V O. unfold comment_entries. rewrite S. rewrite !filter_app, stamp_part.
  unfold simple_comment in S. rewrite V in *. apply andb_true_iff in S as (A & T). rewrite T.
  assert (DV : dropped (opt_str (Some s)) = false) by (apply dropped_text; now apply ordinary_kept).
  rewrite DV. cbn [andb app]. cbn [filter opt_str]. unfold copied_value at 1. cbn [snd].
  destruct (ordinary_emitted "" false (VStr s) O) as (_ & K). rewrite K. cbn [negb].
  destruct (part_cases (KAuthor n) (c_author m')) as [(a & EA & OA & FA)|(NA & FA)].
  - rewrite EA in A. eqs. subst a. destruct OA as (OA & _). exfalso. apply OA. now left.
  - rewrite FA. reflexivity.
Qed.
Lemma null_update n m m' : (forall a, c_author m' = Some a -> ~ ordinary_text a) -> c_stamp m' = default_time ->
  (forall s, c_value m' = Some s -> ~ ordinary_text s) ->
  fold_left step_note (filter copied_value (comment_entries true n m')) (Some m) = Some m.
Proof.
  intros A T V. destruct (simple_comment m') eqn:S.
  - destruct (c_value m') as [s|] eqn:E; [|unfold simple_comment in S; rewrite E in S; discriminate].
    unfold comment_entries. rewrite S. rewrite !filter_app, stamp_part.
    replace (is_default (c_stamp m')) with true by (symmetry; now apply is_default_iff). rewrite app_nil_r.
    destruct (part_cases (KAuthor n) (c_author m')) as [(a & EA & OA & FA)|(NA & FA)]; [exfalso; now apply (A a)|].
    rewrite FA, app_nil_r. rewrite E. cbn [opt_str andb].
    destruct (dropped (VStr s)) eqn:D; [reflexivity|]. cbn [filter]. unfold copied_value. cbn [snd not_copied is_null].
    destruct (smem s null_words) eqn:N; [reflexivity|]. exfalso. apply (V s eq_refl). split.
    + intros H. apply null_text_iff in H. congruence.
    + intros ->. discriminate.
  - destruct (comment_update n m m' S) as (r & E & _ & _ & KA & _ & KT & _ & KV & _). rewrite E. f_equal.
    destruct r as [ra rt rv], m as [ma mt mv]. cbn in *. now rewrite KA, KT, KV by assumption.
Qed.

Lemma one_or_other_attr c n v acc : (forall f, sget n (c_fields c) = Some f -> fits (f_type f) v) ->
  let r := fold_left (step_attr c n) (filter copied_value (entry (KAttr n) (emit true n (req_of c n) v))) acc in
  r = Some v \/ r = acc.
Proof.
  intros F r. subst r. destruct (emit true n (req_of c n) v) as [w|] eqn:E; [|now right].
  apply emit_cases in E as [->|[(-> & _ & ->)|(-> & _ & ->)]]; try (right; reflexivity).
  cbn [entry filter]. destruct (copied_value (KAttr n, v)); [|now right]. cbn [fold_left]. unfold step_attr.
  destruct (sget n (c_fields c)) as [f|]; [|now right]. cbn [snd]. rewrite (fits_coerce _ _ (F f eq_refl)). now left.
Qed.
