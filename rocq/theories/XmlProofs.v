From Verif Require Import PyBase PyFacts PyText TextFacts XmlModel XmlSpec.
Local Open Scope list_scope.

Fixpoint xval_size (v : xval) : nat :=
  match v with
  | XNone | XText _ | XNum _ => 1
  | XList l => S (list_sum (map xval_size l))
  | XDict d => S (list_sum (map (fun kv => xval_size (snd kv)) d))
  end.
Lemma size_in v l : In v l -> (xval_size v <= list_sum (map xval_size l))%nat.
Proof. induction l as [|x l IH]; [intros []|]. cbn [map list_sum fold_right]. intros [->|I]; [lia|]. specialize (IH I). unfold list_sum in IH. lia. Qed.
Lemma xval_induct (P : xval -> Prop) : P XNone -> (forall s, P (XText s)) -> (forall s, P (XNum s)) -> (forall l, Forall P l -> P (XList l)) -> (forall d, Forall P (map snd d) -> P (XDict d)) -> forall v, P v.
Proof.
  intros A B C D E v. remember (xval_size v) as n eqn:N. revert v N. induction n as [n IH] using lt_wf_ind. intros v ->. destruct v as [|s|s|l|d]; [exact A|apply B|apply C| |].
  - apply D. apply Forall_forall. intros v I. apply (IH (xval_size v)); [|reflexivity]. cbn [xval_size]. pose proof (size_in v l I). lia.
  - apply E. apply Forall_forall. intros v I. apply (IH (xval_size v)); [|reflexivity]. cbn [xval_size]. pose proof (size_in v (map snd d) I) as L. rewrite map_map in L. lia.
Qed.

(** ** Grouping *)
Fixpoint read_each (cs : list xml) : result (list (text * xval)) :=
  match cs with
  | [] => Ok []
  | c :: r => bindR (read c) (fun v => bindR (read_each r) (fun kvs => Ok ((tag_of c, v) :: kvs)))
  end.
Lemma read_eq tag a t cs : read (Elem tag a t cs) =
  bindR (read_each cs) (fun kvs => let x := match cs with [] => (if nonempty a then XDict [] else XNone) | _ => child_value kvs end in
    bindR (set_attribs (List.length a) a x) (set_text t (nonempty cs) (kept_attribs a))).
Proof. reflexivity. Qed.
Lemma read_each_ok cs vs : Forall2 (fun c v => read c = Ok v) cs vs -> read_each cs = Ok (combine (map tag_of cs) vs).
Proof. induction 1 as [|c v cs vs R F IH]; [reflexivity|]. cbn [read_each map combine]. rewrite R. cbn [bindR]. rewrite IH. reflexivity. Qed.
Definition add_group (d : list (text * list xval)) (kv : text * xval) : list (text * list xval) :=
  dset text_dec (fst kv) (match dget text_dec (fst kv) d with Some l => l ++ [snd kv] | None => [snd kv] end) d.
Lemma group_items vs : forall acc, fold_left add_group (map (fun v => (txt "item", v)) vs) [(txt "item", acc)] = [(txt "item", acc ++ vs)].
Proof.
  induction vs as [|v vs IH]; intros acc; [rewrite app_nil_r; reflexivity|]. cbn [map fold_left]. unfold add_group at 2. cbn [fst snd dget dset]. destruct (text_dec (txt "item") (txt "item")) as [_|N]; [|congruence]. rewrite IH, <- app_assoc. reflexivity.
Qed.
Lemma child_value_items v vs : child_value (map (fun v => (txt "item", v)) (v :: vs)) = one_or_list (v :: vs).
Proof.
  unfold child_value, group. change (fun d kv => dset text_dec (fst kv) _ d) with add_group. cbn [map fold_left]. unfold add_group at 2. cbn [fst snd dget dset]. rewrite group_items. cbn [map fst snd app dget].
  destruct (text_dec (txt "item") (txt "item")) as [_|N]; [reflexivity|congruence].
Qed.
Lemma dset_fresh {V} k (v : V) d : ~ In k (map fst d) -> dset text_dec k v d = d ++ [(k, v)].
Proof. induction d as [|[k' v'] d IH]; intros N; [reflexivity|]. cbn [dset map fst app] in *. destruct (text_dec k k') as [->|NE]; [exfalso; apply N; left; reflexivity|]. rewrite IH; [reflexivity|]. intros I. apply N. right. exact I. Qed.
Lemma dget_fresh {V} k (d : list (text * V)) : ~ In k (map fst d) -> dget text_dec k d = None.
Proof. induction d as [|[k' v'] d IH]; intros N; [reflexivity|]. cbn [dget map fst] in *. destruct (text_dec k k') as [->|NE]; [exfalso; apply N; left; reflexivity|]. apply IH. intros I. apply N. right. exact I. Qed.
Lemma group_new kvs : forall acc, NoDup (map fst acc ++ map fst kvs) -> fold_left add_group kvs acc = acc ++ map (fun kv => (fst kv, [snd kv])) kvs.
Proof.
  induction kvs as [|[k v] kvs IH]; intros acc N; [rewrite app_nil_r; reflexivity|]. cbn [fold_left map fst snd] in *.
  assert (NI : ~ In k (map fst acc)) by (apply NoDup_remove_2 in N; intros I; apply N; apply in_or_app; left; exact I).
  unfold add_group at 2. cbn [fst snd]. rewrite (dget_fresh k acc NI), (dset_fresh k [v] acc NI). rewrite IH; [rewrite <- app_assoc; reflexivity|]. rewrite map_app, <- app_assoc. exact N.
Qed.
Lemma child_value_dict kvs : NoDup (map fst kvs) -> child_value kvs = match dget text_dec (txt "item") kvs with Some v => v | None => XDict kvs end.
Proof.
  intros N. unfold child_value, group. change (fun d kv => dset text_dec (fst kv) _ d) with add_group. rewrite (group_new kvs [] N). cbn [app]. rewrite map_map. cbn [fst snd one_or_list].
  assert (E : map (fun x : text * xval => (fst x, snd x)) kvs = kvs) by (rewrite <- (map_id kvs) at 2; apply map_ext; intros [k v]; reflexivity). rewrite E. reflexivity.
Qed.

(** ** Reading what was written *)
Lemma set_text_space t x : (forall s, t = Some s -> strip s = []) -> set_text t true [] x = Ok x.
Proof. intros H. destruct t as [[|c s]|]; [reflexivity| |reflexivity]. cbn [set_text orb]. rewrite (H _ eq_refl). reflexivity. Qed.
Lemma read_node tag t cs vs : cs <> [] -> Forall2 (fun c v => read c = Ok v) cs vs -> (forall s, t = Some s -> strip s = []) -> read (Elem tag [] t cs) = Ok (child_value (combine (map tag_of cs) vs)).
Proof.
  intros NE F T. rewrite read_eq, (read_each_ok cs vs F). cbn [bindR List.length set_attribs]. destruct cs as [|c cs]; [congruence|]. cbn [nonempty]. change (kept_attribs []) with (@nil (text * text)). apply set_text_space. exact T.
Qed.
Lemma read_leaf_text tag a c s : a = [] \/ (exists u, a = [(txt "units", u)]) -> read (Elem tag a (Some (c :: s)) []) = Ok (XText (strip (c :: s))).
Proof. intros [->|(u & ->)]; reflexivity. Qed.
Lemma read_leaf_none tag : read (Elem tag [] None []) = Ok XNone.
Proof. reflexivity. Qed.
Lemma printed_tag e e' : printed e e' -> tag_of e = tag_of e'.
Proof. destruct 1; reflexivity. Qed.
Lemma Forall2_tags cs cs' : Forall2 printed cs cs' -> map tag_of cs = map tag_of cs'.
Proof. induction 1 as [|c c' cs cs' P F IH]; [reflexivity|]. cbn [map]. rewrite IH, (printed_tag _ _ P). reflexivity. Qed.
Lemma Forall2_reads (w : xval -> xml) l : Forall (fun v => forall v' e, back v v' -> printed (w v) e -> read e = Ok v') l ->
  forall l' cs, Forall2 back l l' -> Forall2 printed (map w l) cs -> Forall2 (fun c v => read c = Ok v) cs l'.
Proof.
  induction 1 as [|v l H F IH]; intros l' cs B P; inversion B; subst; cbn [map] in P; inversion P; subst; constructor; [apply H; assumption|apply IH; assumption].
Qed.
Lemma Forall2_reads_dict (w : text -> xval -> xml) d : Forall (fun v => forall tag v' e, back v v' -> printed (w tag v) e -> read e = Ok v') (map snd d) ->
  forall l' cs, Forall2 back (map snd d) l' -> Forall2 printed (map (fun kv => w (fst kv) (snd kv)) d) cs -> Forall2 (fun c v => read c = Ok v) cs l'.
Proof.
  induction d as [|[k v] d IH]; intros F l' cs B P; cbn [map snd fst] in *; (inversion B as [|? y ? l2 B1 B2]; subst); (inversion P as [|? c ? cs2 P1 P2]; subst); [constructor|]. inversion F as [|? ? F1 F2]; subst. constructor; [exact (F1 _ _ _ B1 P1)|exact (IH F2 _ _ B2 P2)].
Qed.
Lemma tag_write ad tag v : tag_of (write ad tag v) = tag.
Proof. destruct v; reflexivity. Qed.
Lemma combine_tags (l : list text) (vs : list xval) tag : Forall (fun t => t = tag) l -> List.length l = List.length vs -> combine l vs = map (fun v => (tag, v)) vs.
Proof. revert vs. induction l as [|t l IH]; intros [|v vs] F L; try discriminate L; [reflexivity|]. inversion F; subst. cbn [combine map]. rewrite IH; [reflexivity|assumption|]. injection L as L. exact L. Qed.
Lemma combine_split (d : list (text * xval)) : combine (map fst d) (map snd d) = d.
Proof. induction d as [|[k v] d IH]; [reflexivity|]. cbn [map fst snd combine]. rewrite IH. reflexivity. Qed.
Lemma printed_leaf_inv tag t e : printed (Elem tag [] t []) e -> exists a, e = Elem tag a t [] /\ (a = [] \/ (exists u c s, a = [(txt "units", u)] /\ t = Some (c :: s))).
Proof. intros P. inversion P as [? ? a A|]; subst; [exists a; split; [reflexivity|exact A]|congruence]. Qed.
Lemma printed_node_inv tag cs e : cs <> [] -> printed (Elem tag [] None cs) e -> exists t cs', e = Elem tag [] t cs' /\ Forall2 printed cs cs' /\ (forall s, t = Some s -> strip s = []).
Proof. intros NE P. inversion P; subst; [congruence|]. eexists _, _. split; [reflexivity|]. split; assumption. Qed.
Lemma read_none_printed tag e : printed (Elem tag [] None []) e -> read e = Ok XNone.
Proof. intros P. apply printed_leaf_inv in P as (a & -> & [->|(u & c & s & _ & X)]); [reflexivity|discriminate X]. Qed.
Lemma read_text_printed tag c s e : printed (Elem tag [] (Some (c :: s)) []) e -> read e = Ok (XText (strip (c :: s))).
Proof. intros P. apply printed_leaf_inv in P as (a & -> & A). apply read_leaf_text. destruct A as [->|(u & c' & s' & -> & _)]; [left; reflexivity|right; exists u; reflexivity]. Qed.
Lemma read_printed ad : get_units ad = None -> forall v tag v' e, back v v' -> printed (write ad tag v) e -> read e = Ok v'.
Proof.
  intros GU. assert (UA : unit_attrib ad = []) by (unfold unit_attrib; rewrite GU; reflexivity).
  induction v as [|s|s|l IH|d IH] using xval_induct; intros tag v' e B P; cbn [write] in P; rewrite UA in P.
  - inversion B; subst. exact (read_none_printed tag e P).
  - destruct s as [|c s].
    + inversion B; subst; [|congruence]. apply printed_leaf_inv in P as (a & -> & [->|(u & c & s & _ & X)]); [reflexivity|discriminate X].
    + inversion B; subst. exact (read_text_printed tag c s e P).
  - inversion B; subst. destruct s as [|c s]; [congruence|]. exact (read_text_printed tag c s e P).
  - destruct l as [|x l].
    + inversion B as [| | | | | |? ? ? L| |]; subst; [|cbn [List.length] in L; lia]. exact (read_none_printed tag e P).
    + assert (BL : exists l', Forall2 back (x :: l) l' /\ v' = one_or_list l').
      { inversion B as [| | | | |? ? BX|? l' FB L| |]; subst; [exists [v']; split; [constructor; [exact BX|constructor]|reflexivity]|]. exists l'. split; [exact FB|]. inversion FB as [|? y ? l2 _ F2]; subst. cbn [List.length] in L. inversion F2; subst; [cbn [List.length] in L; lia|]. reflexivity. }
      destruct BL as (l' & FB & ->). apply printed_node_inv in P as (t & cs' & -> & FP & T); [|discriminate].
      assert (FR : Forall2 (fun c v => read c = Ok v) cs' l').
      { apply (Forall2_reads (write ad (txt "item")) (x :: l)); [|exact FB|exact FP]. eapply Forall_impl; [|exact IH]. cbn beta. intros v H v2 e BB PP. exact (H _ _ _ BB PP). }
      rewrite (read_node tag t cs' l'); [| |exact FR|exact T].
      * f_equal. destruct l' as [|y l']; [inversion FB|]. rewrite <- (child_value_items y l'). f_equal. apply combine_tags.
        -- rewrite <- (Forall2_tags _ _ FP), map_map. apply Forall_forall. intros tg I. apply in_map_iff in I as (v & <- & _). apply tag_write.
        -- rewrite map_length. clear - FR. induction FR as [|? ? ? ? ? ? IHF]; [reflexivity|]. cbn [List.length]. rewrite IHF. reflexivity.
      * intros ->. inversion FP.
  - destruct d as [|kv d].
    + inversion B; subst; [|congruence]. exact (read_none_printed tag e P).
    + inversion B as [| | | | | | | |dd d' NE ND NI KE FB EQ1 EQ2]; subst. apply printed_node_inv in P as (t & cs' & -> & FP & T); [|discriminate]. set (dd := kv :: d) in *.
      assert (FR : Forall2 (fun c v => read c = Ok v) cs' (map snd d')) by (apply (Forall2_reads_dict (write ad) dd IH (map snd d') cs' FB FP)).
      rewrite (read_node tag t cs' (map snd d')); [| |exact FR|exact T].
      * f_equal. rewrite <- (Forall2_tags _ _ FP), map_map. rewrite (map_ext _ fst) by (intros; apply tag_write). rewrite KE, combine_split, child_value_dict by (rewrite <- KE; exact ND). rewrite dget_fresh by (rewrite <- KE; exact NI). reflexivity.
      * intros ->. inversion FP.
Qed.
