(** C06, C07, C61: nested dictionaries, dotted names and constructor keywords. *)
From Verif Require Import PyBase PyFacts PyText TextFacts DictFlatModel DictFlatSpec DictFlatProofs.

(** A metadata-like dictionary used by the examples. *)
Definition sample_dict : dict nat :=
  [(txt "id", Leaf 1);
   (txt "location", Node [(txt "latitude", Leaf 2);
                          (txt "declination", Node [(txt "value", Leaf 3); (txt "epoch", Leaf 4)])]);
   (txt "time_period", Node [(txt "start", Leaf 5)])].

Ltac tidy_tac :=
  repeat match goal with
  | |- tidy _ (Leaf _) => constructor
  | |- tidy _ (Node _) => apply tidy_node
  | |- NoDup _ => repeat constructor; simpl; intuition discriminate
  | |- _ <> [] => discriminate
  | |- forall k v, In (k, v) _ -> _ =>
      let k := fresh in let v := fresh in let H := fresh in
      intros k v H; simpl in H;
      repeat (destruct H as [H|H]; [injection H as <- <-; split; [discriminate|split; [vm_compute; intuition discriminate|]]|]);
      try contradiction
  end.

Example sample_tidy : tidy "." (Node sample_dict).
Proof. unfold sample_dict. tidy_tac. Qed.

(** *** C06 *)
Theorem C06_structure_inverts_flatten :
  forall (A : Type) (d : dict A),
    tidy_top "." d -> structure_dict "." (as_items (flatten_dict "." d)) = Ok d.
Proof. intros A d. apply structure_flatten. Qed.
Example C06_structure_case : tidy_top "." sample_dict /\ length (flatten_dict "." sample_dict) = 5.
Proof. split; [right; apply sample_tidy|reflexivity]. Qed.

(** The flat dictionary lists exactly the leaves under the dotted names of their paths,
    for any separator the keys do not contain, each name once. *)
Theorem C06_flatten_lists_every_leaf :
  forall (A : Type) (sep : ascii) (d : dict A) (n : text) (a : A),
    tidy_top sep d ->
    (In (n, a) (flatten_dict sep d) <-> exists p, n = dotted sep p /\ at_path (Node d) p (Leaf a)).
Proof. intros A sep d n a. apply flatten_spec. Qed.
Example C06_leaf_case :
  In (txt "location.declination.epoch", 4) (flatten_dict "." sample_dict).
Proof. vm_compute. tauto. Qed.

Theorem C06_flatten_names_distinct :
  forall (A : Type) (sep : ascii) (d : dict A), NoDup (map fst (flatten_dict sep d)).
Proof. intros A sep d. apply flatten_NoDup. Qed.

(** Two different paths never share a dotted name. *)
Theorem C06_dotted_names_unambiguous :
  forall (A : Type) (sep : ascii) (d : dict A) (p q : list text) (a b : A),
    tidy sep (Node d) -> at_path (Node d) p (Leaf a) -> at_path (Node d) q (Leaf b) ->
    dotted sep p = dotted sep q -> p = q.
Proof.
  intros A sep d p q a b T Hp Hq E. apply (join_inj sep); auto.
  - inversion Hp; discriminate.
  - inversion Hq; discriminate.
  - intros k Hk. eapply (tidy_path_ok sep (Node d)); [exact T|exact Hp|exact Hk].
  - intros k Hk. eapply (tidy_path_ok sep (Node d)); [exact T|exact Hq|exact Hk].
Qed.

(** Outside the tidy dictionaries the round trip fails: an empty sub-dictionary vanishes, *)
Theorem C06_empty_subdict_lost_refuted :
  exists d : dict nat,
    proper (Node d) /\ structure_dict "." (as_items (flatten_dict "." d)) <> Ok d.
Proof.
  exists [(txt "a", Leaf 1); (txt "b", Node [])]. split; [|vm_compute; discriminate].
  constructor.
  - repeat constructor; simpl; intuition discriminate.
  - simpl. intros k v [E|[E|[]]]; injection E as <- <-; repeat constructor. simpl; tauto.
Qed.

(** a key that contains the separator is split, *)
Theorem C06_separator_in_key_refuted :
  exists d : dict nat, structure_dict "." (as_items (flatten_dict "." d)) <> Ok d.
Proof. exists [(txt "a.b", Leaf 1)]. vm_compute. discriminate. Qed.

(** and with another separator nesting deeper than two levels is not restored. *)
Theorem C06_other_separator_refuted :
  exists d : dict nat,
    tidy "/" (Node d) /\ structure_dict "/" (as_items (flatten_dict "/" d)) <> Ok d.
Proof.
  exists [(txt "a", Node [(txt "b", Node [(txt "c", Leaf 1)])])].
  split; [tidy_tac|]. vm_compute. discriminate.
Qed.

(** *** C07 *)
(** [coerce] is whatever the validators of the attributes do. *)
Theorem C07_get_returns_what_set_stored :
  forall (A : Type) (coerce : list text -> val A -> result (val A)) (name : text) (v o o' : val A),
    set_attr_from_name coerce name v o = Ok o' ->
    exists v', coerce (split_on "." name) v = Ok v' /\ get_attr_from_name name o' = Ok (Some v').
Proof.
  intros A coerce name v o o' H. unfold set_attr_from_name in H.
  destruct (set_then_get coerce _ _ _ _ _ (split_on_nonnil "." name) H) as (v' & H1 & H2).
  exists v'. split; assumption.
Qed.

Theorem C07_set_disturbs_nothing_else :
  forall (A : Type) (coerce : list text -> val A -> result (val A)) (name other : text) (v o o' : val A),
    unrelated (split_on "." name) (split_on "." other) ->
    set_attr_from_name coerce name v o = Ok o' ->
    get_attr_from_name other o' = get_attr_from_name other o.
Proof.
  intros A coerce name other v o o' U H.
  apply (set_frame coerce (split_on "." name) [] v o o'); auto; apply split_on_nonnil.
Qed.
Example C07_set_case :
  set_attr_from_name (fun _ v => Ok v) (txt "location.declination.value") (Leaf 9) (Node sample_dict)
  = Ok (Node [(txt "id", Leaf 1);
   (txt "location", Node [(txt "latitude", Leaf 2);
                          (txt "declination", Node [(txt "value", Leaf 9); (txt "epoch", Leaf 4)])]);
   (txt "time_period", Node [(txt "start", Leaf 5)])]) /\
  unrelated (split_on "." (txt "location.declination.value")) (split_on "." (txt "location.latitude")).
Proof.
  split; [vm_compute; reflexivity|]. split; intros [r E]; vm_compute in E; discriminate.
Qed.

(** [update_attribute] (which assigns twice) is the same operation. *)
Theorem C07_update_attribute_agrees :
  forall (A : Type) (coerce : list text -> val A -> result (val A)) (name : text) (v o : val A),
    update_attribute coerce name v o = set_attr_from_name coerce name v o.
Proof. intros A coerce name v o. apply update_attribute_is_set. Qed.

(** A missing intermediate object raises, for reading and for writing. *)
Theorem C07_missing_level_raises :
  forall (A : Type) (coerce : list text -> val A -> result (val A)) (k rest : text) (v : val A) (d : dict A),
    ~ In "."%char k -> ~ In k (map fst d) ->
    get_attr_from_name (k ++ "."%char :: rest) (Node d) = Err AttributeError /\
    set_attr_from_name coerce (k ++ "."%char :: rest) v (Node d) = Err AttributeError.
Proof.
  intros A coerce k rest v d HK HD. unfold get_attr_from_name, set_attr_from_name.
  rewrite split_on_app by assumption.
  apply (dget_None text_dec) in HD.
  rewrite getattr_parts_cons, setattr_parts_cons by apply split_on_nonnil.
  simpl attr. rewrite HD. auto.
Qed.

(** Building nested data from a dotted key: readable afterwards, levels created as needed,
    everything not on the same path kept. *)
Theorem C07_nested_set_get :
  forall (A : Type) (parts : list text) (v : val A) (d : dict A),
    parts <> [] -> getattr_parts parts (Node (set_nested parts v d)) = Ok (Some v).
Proof. intros A parts v d. apply nested_get. Qed.

Theorem C07_nested_set_frame :
  forall (A : Type) (p q : list text) (v : val A) (d : dict A),
    p <> [] -> q <> [] -> unrelated p q ->
    found q (set_nested p v d) = found q d.
Proof. intros A p q v d. apply nested_frame. Qed.

(** *** C61 *)
(** As stated the property fails: a dotted keyword throws away the sibling dictionary keyword. *)
Theorem C61_keywords_all_reach_object_refuted :
  exists (kw : dict nat) (cls : text),
    NoDup (map fst kw) /\ no_class_key cls kw /\
    at_path (Node kw) [txt "location"; txt "latitude"] (Leaf 1) /\
    found [txt "location"; txt "latitude"] (init_data cls kw) = None.
Proof.
  exists [(txt "location", Node [(txt "latitude", Leaf 1)]); (txt "location.longitude", Leaf 2)], (txt "station").
  split; [repeat constructor; simpl; intuition discriminate|].
  split; [intros kv [<-|[<-|[]]]; discriminate|].
  split; [|reflexivity]. econstructor; [now left|]. econstructor; [now left|]. constructor.
Qed.

(** It holds for a plain keyword that no dotted keyword starts with, *)
Theorem C61_plain_keyword_reaches_object_partial :
  forall (A : Type) (cls : text) (kw : dict A) (k : text) (v : val A),
    no_class_key cls kw -> NoDup (map fst kw) -> In (k, v) kw -> ~ In "."%char k ->
    (forall x w r, In (x, w) kw -> In "."%char x -> split_on "." x <> k :: r) ->
    found [k] (init_data cls kw) = Some v.
Proof.
  intros A cls kw k v NC ND HI HK HT. unfold found. cbn [getattr_parts attr].
  rewrite init_data_get by assumption. apply has_char_notIn in HK.
  rewrite init_nested_top.
  - simpl. apply init_flat_get; assumption.
  - assumption.
  - intros x w Hx Hd r. apply (HT x w r Hx). now apply has_char_In.
Qed.

(** and for a dotted keyword when no other dotted keyword is on the same path. *)
Theorem C61_dotted_keyword_reaches_object_partial :
  forall (A : Type) (cls : text) (kw : dict A) (k : text) (v : val A),
    no_class_key cls kw -> NoDup (map fst kw) -> In (k, v) kw -> In "."%char k ->
    (forall x w, In (x, w) kw -> In "."%char x -> x <> k -> unrelated (split_on "." x) (split_on "." k)) ->
    found (split_on "." k) (init_data cls kw) = Some v.
Proof.
  intros A cls kw k v NC ND HI HK HU. apply has_char_In in HK.
  assert (F : found (split_on "." k) (snd (fold_left (init_entry cls) kw ([], []))) = Some v).
  { apply init_nested_get; auto. intros x w Hx Hd. apply (HU x w Hx). now apply has_char_In. }
  pose proof (split_on_nonnil "." k) as NN.
  destruct (split_on "." k) as [|h r]; [now destruct NN|].
  assert (G : dget text_dec h (init_data cls kw) =
              dget text_dec h (snd (fold_left (init_entry cls) kw ([], [])))).
  { rewrite init_data_get by assumption.
    destruct (dget text_dec h (snd (fold_left (init_entry cls) kw ([], [])))) eqn:E; [reflexivity|].
    exfalso. destruct r as [|h2 r].
    - unfold found in F. cbn [getattr_parts attr] in F. congruence.
    - rewrite found_cons in F by discriminate. rewrite E in F. discriminate. }
  destruct r as [|h2 r].
  - unfold found in *. cbn [getattr_parts attr] in *. now rewrite G.
  - rewrite found_cons in * by discriminate. now rewrite G.
Qed.
Example C61_case :
  found (split_on "." (txt "location.latitude"))
    (init_data (txt "station") [(txt "id", Leaf 1); (txt "location.latitude", Leaf 2); (txt "location.longitude", Leaf 3)])
  = Some (Leaf 2).
Proof. reflexivity. Qed.

(** A keyword equal to the class name is unpacked: its plain entries become keywords. *)
Theorem C61_class_key_unpacked :
  forall (A : Type) (cls k : text) (a : A) (items : list (text * A)),
    ~ In "."%char cls -> NoDup (map fst items) -> In (k, a) items ->
    found [k] (init_data cls [(cls, Node (as_items items))]) = Some (Leaf a).
Proof.
  intros A cls k a items HC ND HI. unfold found. cbn [getattr_parts attr]. unfold init_data.
  cbn [fold_left init_entry]. apply has_char_notIn in HC. rewrite HC.
  destruct (text_dec cls cls); [|congruence].
  assert (G : forall flat, fold_left (fun (st' : dict A * dict A) kv' =>
      match snd kv' with
      | Node _ => (fst st', set_nested (split_on "." (fst kv')) (snd kv') (snd st'))
      | Leaf _ => (dset text_dec (fst kv') (snd kv') (fst st'), snd st')
      end) (as_items items) (flat, []) = (dupdate text_dec flat (as_items items), [])).
  { clear. induction items as [|[x b] items IH]; intros flat; [reflexivity|].
    cbn [as_items map fold_left snd fst]. unfold as_items in IH. rewrite IH. reflexivity. }
  rewrite G. cbn [dupdate fold_left].
  assert (NDi : NoDup (dkeys (as_items items))).
  { unfold dkeys, as_items. rewrite map_map. exact ND. }
  rewrite dupdate_nil by assumption.
  rewrite (In_dget text_dec k (Leaf a)); [reflexivity|assumption|].
  unfold as_items. apply in_map_iff. exists (k, a). auto.
Qed.

Print Assumptions C06_structure_inverts_flatten.
Print Assumptions C06_flatten_lists_every_leaf.
Print Assumptions C07_get_returns_what_set_stored.
Print Assumptions C07_set_disturbs_nothing_else.
Print Assumptions C61_plain_keyword_reaches_object_partial.
Print Assumptions C61_dotted_keyword_reaches_object_partial.
Print Assumptions C61_class_key_unpacked.
