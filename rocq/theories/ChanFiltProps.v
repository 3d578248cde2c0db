(** Theorems about the applied filters of a channel (C21). *)
From Coq Require Import Permutation Sorted.
From Verif Require Import PyBase PyText TextFacts PySort Cplx FilterModel FilterSpec FilterProofs
  ChanFiltModel ChanFiltSpec ChanFiltProofs.

(** Filters added by name, removed or assigned, in any sequence, stay in stage order. *)
Theorem C21_stage_order_partial : forall ops l,
  in_stage_order l -> (forall o, In o ops -> by_name o) -> in_stage_order (run l ops).
Proof.
  induction ops as [|o ops IH]; intros l Hl Ho; [exact Hl|]. cbn [run fold_left]. apply IH.
  - apply step_sorted; [apply Ho; now left|exact Hl].
  - intros o' H. apply Ho. now right.
Qed.
Example C21_stage_order_hyp :
  in_stage_order [] /\
  map (fun f => (a_name f, a_stage f))
    (run [] [AddName (txt "b") true (Some 5%Z); AddName (txt "a") false None; AddName (txt "b") true None; Remove (txt "q") false])
  = [(txt "a", Some 2%Z); (txt "b", Some 5%Z)].
Proof. split; [|reflexivity]. intros i j f g _ H. destruct i; discriminate. Qed.
(** Not so when a filter is added as an object: it is appended unsorted. *)
Theorem C21_stage_order_refuted :
  ~ in_stage_order (run [] [AddName (txt "a") true (Some 5%Z); AddObject (txt "b") true (Some 1%Z)]).
Proof.
  intros H. specialize (H 0 1 _ _ (Nat.le_succ_diag_r 0) eq_refl eq_refl). cbv in H. now apply H.
Qed.

(** Removing a filter, with the default renumbering, leaves exactly the other filters, in
    their order, numbered 1, 2, 3, ... (also when no filter has that name). *)
Theorem C21_remove : forall l n,
  Forall2 same_but_stage (remove_filter l n true) (without n l) /\ numbered (remove_filter l n true).
Proof.
  intros l n. rewrite remove_reset. destruct (drop_name_spec n true 0 l) as (H1 & H2 & H3 & _).
  split; [exact H2|]. unfold numbered. rewrite H3 by reflexivity. do 2 f_equal.
  symmetry. clear -H2. induction H2; cbn [length]; congruence.
Qed.
Example C21_remove_hyp :
  remove_filter [mkA (txt "a") true (Some 3%Z); mkA (txt "b") false (Some 4%Z); mkA (txt "c") true None] (txt "b") true
  = [mkA (txt "a") true (Some 1%Z); mkA (txt "c") true (Some 2%Z)].
Proof. reflexivity. Qed.
(** Without renumbering the other filters keep their stages and are put into stage order,
    equal stages keeping their order. *)
Theorem C21_remove_keeping_stages : forall l n,
  Permutation (without n l) (remove_filter l n false) /\ in_stage_order (remove_filter l n false) /\
  forall s, filter (fun f => (stage_number f =? s)%Z) (remove_filter l n false)
          = filter (fun f => (stage_number f =? s)%Z) (without n l).
Proof.
  intros l n. unfold remove_filter. destruct (drop_name_spec n false 0 l) as (_ & _ & _ & H).
  rewrite H by reflexivity. split; [apply sort_key_perm|]. split; [apply sort_filters_order|].
  intros s. apply (sort_key_stable stage_key).
Qed.

(** With plain names, no sequence of operations produces two filters of the same name. *)
Theorem C21_no_duplicates_partial : forall ops l,
  NoDup (filter_names l) -> (forall o, In o ops -> tidy o) -> NoDup (filter_names (run l ops)).
Proof.
  unfold filter_names. induction ops as [|o ops IH]; intros l Hl Ho; [exact Hl|]. cbn [run fold_left]. apply IH.
  - apply step_NoDup; [apply Ho; now left|exact Hl].
  - intros o' H. apply Ho. now right.
Qed.
Example C21_no_duplicates_hyp : tidy (AddName (txt "low pass") true None) /\ tidy (AddObject (txt "Low") true None).
Proof.
  split; [|exact I]. split; [exists "l"%char; split; [now left|reflexivity]|]. split.
  - cbn. intuition discriminate.
  - intros c H. cbn in H. repeat destruct H as [<-|H]; try reflexivity. destruct H.
Qed.
(** A name with capitals or a slash is compared before it is normalised: adding it twice
    stores the filter twice. *)
Theorem C21_no_duplicates_refuted :
  filter_names (run [] [AddName (txt "mV/km") true None; AddName (txt "mV/km") true None])
  = [txt "mv per km"; txt "mv per km"].
Proof. reflexivity. Qed.

(** Adding a new plain name: the filter is there with its stage (one more than the number of
    filters by default), and nothing else changes but the order. *)
Theorem C21_add_name : forall l n a st, plain_name n ->
  exists l', add_name l n a st = Ok l' /\
    if in_dec text_dec n (filter_names l) then l' = l
    else Permutation (mkA n a (Some (match st with Some s => s | None => Z.of_nat (length l) + 1 end)%Z) :: l) l'
         /\ in_stage_order l'.
Proof.
  intros l n a st H. unfold add_name.
  destruct (in_dec text_dec n (filter_names l)) as [I|I].
  - rewrite (proj2 (has_name_iff n l) I). eexists. split; reflexivity.
  - rewrite (proj2 (has_name_false n l) I). unfold make_applied. rewrite (plain_validate n H). cbn [bindR].
    eexists. split; [reflexivity|]. split; [|apply sort_filters_order].
    eapply Permutation_trans; [|apply sort_key_perm].
    replace (match st with Some z => Some z | None => Some (next_stage l) end)
      with (Some (match st with Some s => s | None => Z.of_nat (length l) + 1 end)%Z)
      by (destruct st; reflexivity).
    apply Permutation_cons_append.
Qed.
(** A blank name is refused. *)
Theorem C21_blank_refused : forall l n a st,
  ~ In n (filter_names l) -> (forall c, In c n -> is_space c = true) -> add_name l n a st = Err ValueError.
Proof.
  intros l n a st I H. unfold add_name. rewrite (proj2 (has_name_false n l) I).
  unfold make_applied, validate_name, is_blank. rewrite (proj2 (forallb_forall is_space n) H). reflexivity.
Qed.
Example C21_blank_refused_hyp : forall c, In c (txt "  ") -> is_space c = true.
Proof. intros c H. cbn in H. repeat destruct H as [<-|H]; try reflexivity. destruct H. Qed.

(** [get_filter] finds a filter exactly when the name is in [filter_names], and returns one
    with that name. *)
Theorem C21_get_filter : forall l n,
  (forall f, get_filter l n = Some f -> In f l /\ a_name f = n) /\
  (get_filter l n = None <-> ~ In n (filter_names l)).
Proof.
  intros l n. unfold get_filter. split.
  - intros f H. apply find_some in H. destruct H as [H1 H2]. apply text_eqb_eq in H2. auto.
  - split.
    + intros H K. apply in_map_iff in K. destruct K as (f & E & K).
      pose proof (find_none _ _ H f K) as N. cbn in N. apply text_eqb_eq in E. congruence.
    + intros H. destruct (List.find _ l) as [f|] eqn:E; [|reflexivity]. exfalso. apply H.
      apply find_some in E. destruct E as [E1 E2]. apply text_eqb_eq in E2. rewrite <- E2.
      now apply in_map.
Qed.

(** [channel_response] chains the filters found under the channel's filter names, in order,
    and only if their units chain up. *)
Theorem C21_channel_response : forall l lookup c,
  channel_response l lookup = Ok c ->
  c_filters c = flat_map (fun n => match lookup n with Some g => [g] | None => [] end) (filter_names l)
  /\ coherent c.
Proof.
  intros l lookup c H. unfold channel_response in H.
  set (its := flat_map _ l) in H.
  assert (E : its = map IFilter (flat_map (fun n => match lookup n with Some g => [g] | None => [] end) (filter_names l))).
  { unfold its, filter_names. clear. induction l as [|f l IH]; [reflexivity|]. cbn [flat_map map].
    rewrite map_app, <- IH. destruct (lookup (a_name f)); reflexivity. }
  unfold construct in H. destruct (validate_filters its) as [fs|e] eqn:V; [|discriminate].
  apply validate_filters_iff in V. destruct V as [V1 V2]. injection H as <-.
  split; [|now apply update_units_coherent].
  assert (Ef : forall a b, map IFilter a = map IFilter b -> a = b).
  { induction a as [|x a IH]; intros [|y b] K; try discriminate; [reflexivity|]. cbn [map] in K.
    injection K as -> K. f_equal. now apply IH. }
  rewrite E in V1. apply Ef in V1. unfold update_units. rewrite V1. cbn [c_filters].
  destruct fs; reflexivity.
Qed.
Example C21_channel_response_hyp : exists c,
  channel_response [mkA (txt "a") true (Some 1%Z); mkA (txt "missing") true (Some 2%Z)]
    (fun n => if text_dec n (txt "a") then Some (mkF "a" [] [] 1%R Coefficient) else None) = Ok c
  /\ length (c_filters c) = 1.
Proof. eexists. split; reflexivity. Qed.

Print Assumptions C21_stage_order_partial.
Print Assumptions C21_remove.
Print Assumptions C21_no_duplicates_partial.
Print Assumptions C21_add_name.
Print Assumptions C21_get_filter.
Print Assumptions C21_channel_response.
