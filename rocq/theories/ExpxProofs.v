(** Proofs for C114. *)
From Verif Require Import PyBase PyFacts PyText TextFacts ValidatorsModel XmlModel XmlSpec XmlProofs XmlProps ExpxModel ExpxSpec.
From Coq Require Import Lia.
Local Open Scope list_scope.

(** ** Grouping *)
Definition vals {V} (k : text) (kvs : list (text * V)) : list V := map snd (filter (fun kv => text_eqb (fst kv) k) kvs).
Lemma In_first_seen {A} (dec : forall a b : A, {a = b} + {a <> b}) l x : In x (first_seen dec l) <-> In x l.
Proof.
  induction l as [|y l IH]; [tauto|]. cbn [first_seen In]. split.
  - intros [->|H]; [left; reflexivity|]. apply filter_In in H as [H _]. right. apply IH. exact H.
  - intros [->|H]; [left; reflexivity|]. destruct (dec x y) as [->|N]; [left; reflexivity|]. right. apply filter_In. split; [apply IH; exact H|]. destruct (dec x y); [contradiction|reflexivity].
Qed.
Lemma NoDup_first_seen {A} (dec : forall a b : A, {a = b} + {a <> b}) l : NoDup (first_seen dec l).
Proof.
  induction l as [|y l IH]; [constructor|]. cbn [first_seen]. constructor; [|apply NoDup_filter; exact IH].
  intros H. apply filter_In in H as [_ H]. destruct (dec y y); [discriminate H|congruence].
Qed.
Lemma filter_id {A} (f : A -> bool) l : (forall x, In x l -> f x = true) -> filter f l = l.
Proof. induction l as [|x l IH]; intros H; [reflexivity|]. cbn [filter]. rewrite (H x (or_introl eq_refl)), IH; [reflexivity|]. intros y Y. apply H. right. exact Y. Qed.
Lemma filter_nil {A} (f : A -> bool) l : (forall x, In x l -> f x = false) -> filter f l = [].
Proof. induction l as [|x l IH]; intros H; [reflexivity|]. cbn [filter]. rewrite (H x (or_introl eq_refl)), IH; [reflexivity|]. intros y Y. apply H. right. exact Y. Qed.
Lemma first_seen_app {A} (dec : forall a b : A, {a = b} + {a <> b}) a b : NoDup a -> (forall x, In x a -> ~ In x b) -> first_seen dec (a ++ b) = a ++ first_seen dec b.
Proof.
  induction a as [|x a IH]; intros ND D; [reflexivity|]. inversion ND as [|? ? NI ND']; subst. cbn [app first_seen]. rewrite IH; [|exact ND'|intros y Y; apply D; right; exact Y].
  f_equal. apply filter_id. intros y Y. destruct (dec y x) as [->|_]; [|reflexivity]. exfalso. apply in_app_or in Y. destruct Y as [Y|Y]; [exact (NI Y)|]. apply In_first_seen in Y. apply (D x (or_introl eq_refl) Y).
Qed.
Lemma first_seen_snoc {A} (dec : forall a b : A, {a = b} + {a <> b}) l x :
  first_seen dec (l ++ [x]) = if in_dec dec x l then first_seen dec l else first_seen dec l ++ [x].
Proof.
  induction l as [|y l IH]; [reflexivity|]. cbn [app first_seen]. rewrite IH. destruct (in_dec dec x l) as [I|N]; destruct (in_dec dec x (y :: l)) as [I'|N'].
  - reflexivity.
  - exfalso. apply N'. right. exact I.
  - destruct I' as [<-|I']; [|contradiction]. rewrite filter_app. cbn [filter]. destruct (dec y y); [|congruence]. rewrite app_nil_r. reflexivity.
  - rewrite filter_app. cbn [filter]. destruct (dec x y) as [->|_]; [exfalso; apply N'; left; reflexivity|]. reflexivity.
Qed.
Lemma first_seen_map {A B} (da : forall a b : A, {a = b} + {a <> b}) (db : forall a b : B, {a = b} + {a <> b}) (f : A -> B) l :
  (forall x y, f x = f y -> x = y) -> first_seen db (map f l) = map f (first_seen da l).
Proof.
  intros I. induction l as [|x l IH]; [reflexivity|]. cbn [map first_seen]. rewrite IH. f_equal. clear IH. induction (first_seen da l) as [|y r IH]; [reflexivity|].
  cbn [map filter]. destruct (db (f y) (f x)) as [E|E]; destruct (da y x) as [D|D]; [exact IH|exfalso; apply D; apply I; exact E|subst; congruence|cbn [map]; rewrite IH; reflexivity].
Qed.
Lemma dset_map {V} (g : text -> V) k w ks : NoDup ks ->
  dset text_dec k w (map (fun x => (x, g x)) ks) = if in_dec text_dec k ks then map (fun x => (x, if text_dec x k then w else g x)) ks else map (fun x => (x, g x)) ks ++ [(k, w)].
Proof.
  induction ks as [|x ks IH]; intros ND; [reflexivity|]. inversion ND as [|? ? NI ND']; subst. cbn [map dset]. destruct (text_dec k x) as [->|N].
  - destruct (in_dec text_dec x (x :: ks)) as [_|X]; [|exfalso; apply X; left; reflexivity]. destruct (text_dec x x) as [_|X]; [|congruence]. f_equal.
    apply map_ext_in. intros y Y. destruct (text_dec y x) as [->|_]; [contradiction|reflexivity].
  - rewrite (IH ND'). destruct (in_dec text_dec k ks) as [I|NI']; destruct (in_dec text_dec k (x :: ks)) as [J|NJ].
    + destruct (text_dec x k) as [->|_]; [congruence|]. reflexivity.
    + exfalso. apply NJ. right. exact I.
    + exfalso. destruct J as [->|J]; congruence.
    + reflexivity.
Qed.
Lemma dget_map {V} (g : text -> V) k ks : dget text_dec k (map (fun x => (x, g x)) ks) = if in_dec text_dec k ks then Some (g k) else None.
Proof.
  induction ks as [|x ks IH]; [reflexivity|]. cbn [map dget]. destruct (text_dec k x) as [->|N].
  - destruct (in_dec text_dec x (x :: ks)) as [_|X]; [reflexivity|exfalso; apply X; left; reflexivity].
  - rewrite IH. destruct (in_dec text_dec k ks) as [I|NI]; destruct (in_dec text_dec k (x :: ks)) as [J|NJ]; [reflexivity|exfalso; apply NJ; right; exact I|exfalso; destruct J as [->|J]; congruence|reflexivity].
Qed.
Lemma ddel_map {V} (g : text -> V) k ks : NoDup ks -> ddel text_dec k (map (fun x => (x, g x)) ks) = map (fun x => (x, g x)) (filter (fun y => if text_dec y k then false else true) ks).
Proof.
  induction ks as [|x ks IH]; intros ND; [reflexivity|]. inversion ND as [|? ? NI ND']; subst. cbn [map ddel filter]. destruct (text_dec k x) as [->|N].
  - destruct (text_dec x x) as [_|X]; [|congruence]. rewrite filter_id; [reflexivity|]. intros y Y. destruct (text_dec y x) as [->|_]; [contradiction|reflexivity].
  - destruct (text_dec x k) as [->|_]; [congruence|]. cbn [map]. rewrite (IH ND'). reflexivity.
Qed.
Lemma vals_snoc {V} k (kvs : list (text * V)) x v : vals k (kvs ++ [(x, v)]) = vals k kvs ++ (if text_dec k x then [v] else []).
Proof.
  unfold vals. rewrite filter_app, map_app. f_equal. cbn [filter fst]. destruct (text_dec k x) as [->|N]; [rewrite text_eqb_refl; reflexivity|].
  destruct (text_eqb x k) eqn:E; [apply text_eqb_eq in E; congruence|reflexivity].
Qed.
Lemma vals_none {V} k (kvs : list (text * V)) : ~ In k (map fst kvs) -> vals k kvs = [].
Proof.
  intros N. unfold vals. rewrite filter_nil; [reflexivity|]. intros [x v] I. cbn [fst]. destruct (text_eqb x k) eqn:E; [|reflexivity]. apply text_eqb_eq in E. subst x. exfalso. apply N. apply (in_map fst) in I. exact I.
Qed.
Lemma group_form kvs : group kvs = map (fun k => (k, vals k kvs)) (first_seen text_dec (map fst kvs)).
Proof.
  induction kvs as [|[k v] kvs IH] using rev_ind; [reflexivity|]. unfold group in *. rewrite fold_left_app. cbn [fold_left fst snd]. rewrite IH, dget_map. rewrite dset_map by apply NoDup_first_seen.
  rewrite map_app. cbn [map fst]. rewrite first_seen_snoc. destruct (in_dec text_dec k (first_seen text_dec (map fst kvs))) as [I|N]; destruct (in_dec text_dec k (map fst kvs)) as [J|NJ].
  - apply map_ext. intros x. rewrite vals_snoc. destruct (text_dec x k) as [->|_]; [reflexivity|]. rewrite app_nil_r. reflexivity.
  - exfalso. apply NJ. apply (In_first_seen text_dec). exact I.
  - exfalso. apply N. apply In_first_seen. exact J.
  - rewrite map_app. cbn [map]. f_equal.
    + apply map_ext_in. intros x X. rewrite vals_snoc. destruct (text_dec x k) as [->|_]; [contradiction|]. rewrite app_nil_r. reflexivity.
    + rewrite vals_snoc, vals_none by exact NJ. destruct (text_dec k k); [reflexivity|congruence].
Qed.
Definition grouped (kvs : list (text * xval)) : fields := map (fun k => (k, one_or_list (vals k kvs))) (first_seen text_dec (map fst kvs)).
Lemma child_value_grouped kvs : ~ In (txt "item") (map fst kvs) -> child_value kvs = XDict (grouped kvs).
Proof.
  intros N. unfold child_value. cbv zeta. rewrite group_form, map_map. cbn [fst snd]. fold (grouped kvs). unfold grouped at 1. rewrite (dget_map (fun k => one_or_list (vals k kvs))).
  destruct (in_dec text_dec (txt "item") (first_seen text_dec (map fst kvs))) as [I|_]; [|reflexivity]. exfalso. apply N. apply (In_first_seen text_dec). exact I.
Qed.
Lemma vals_app {V} k (a b : list (text * V)) : vals k (a ++ b) = vals k a ++ vals k b.
Proof. unfold vals. rewrite filter_app, map_app. reflexivity. Qed.
Lemma vals_self {V} (d : list (text * V)) : NoDup (map fst d) -> forall k v, In (k, v) d -> vals k d = [v].
Proof.
  induction d as [|[x w] d IH]; intros ND k v I; [destruct I|]. inversion ND as [|? ? NI ND']; subst. change ((x, w) :: d) with ([(x, w)] ++ d). rewrite vals_app.
  destruct I as [E|I].
  - injection E as <- <-. rewrite (vals_none x d NI). cbn. rewrite text_eqb_refl. reflexivity.
  - rewrite (IH ND' _ _ I). cbn. destruct (text_eqb x k) eqn:E; [|reflexivity]. apply text_eqb_eq in E. subst. exfalso. apply NI. apply (in_map fst) in I. exact I.
Qed.
Lemma grouped_app d kvs : NoDup (map fst d) -> (forall k, In k (map fst d) -> ~ In k (map fst kvs)) -> grouped (d ++ kvs) = d ++ grouped kvs.
Proof.
  intros ND D. unfold grouped. rewrite map_app, first_seen_app by assumption. rewrite map_app. f_equal.
  - rewrite map_map. transitivity (map (fun kv : text * xval => kv) d); [|apply map_id]. apply map_ext_in. intros [k v] I. cbn [fst]. rewrite vals_app, (vals_self d ND k v I), vals_none; [reflexivity|]. apply D. apply (in_map fst) in I. exact I.
  - apply map_ext_in. intros k K. apply (proj1 (In_first_seen text_dec _ _)) in K. rewrite vals_app, (vals_none k d); [reflexivity|]. intros X. exact (D k X K).
Qed.

(** ** Reading an element *)
Lemma F2_length {A B} (R : A -> B -> Prop) l l' : Forall2 R l l' -> List.length l = List.length l'.
Proof. induction 1; cbn; congruence. Qed.
Lemma own_inv d d' : own d d' -> d <> [] /\ NoDup (map fst d) /\ ~ In (txt "item") (map fst d) /\ map fst d = map fst d' /\ Forall2 back (map snd d) (map snd d').
Proof. intros H. inversion H; subst; auto. Qed.
Lemma read_write k v v' : back v v' -> read (write [] k v) = Ok v'.
Proof. intros B. apply (read_printed [] eq_refl v k v' _ B). apply printed_write. reflexivity. Qed.
Lemma element_child tag d d' more vs : own d d' -> Forall2 (fun c v => read c = Ok v) more vs -> ~ In (txt "item") (map tag_of more) ->
  read (element tag d more) = Ok (XDict (grouped (d' ++ combine (map tag_of more) vs))) /\ map fst (combine (map tag_of more) vs) = map tag_of more.
Proof.
  intros O F NI. destruct (own_inv _ _ O) as (NE & ND & ID & K & B). unfold element.
  assert (L : List.length (map tag_of more) = List.length vs) by (rewrite map_length; apply (F2_length _ _ _ F)).
  assert (KM : map fst (combine (map tag_of more) vs) = map tag_of more).
  { clear - L. revert vs L. induction (map tag_of more) as [|t ts IH]; intros [|v vs] L; try discriminate L; [reflexivity|]. cbn. f_equal. apply IH. cbn in L. lia. }
  split; [|exact KM]. rewrite (read_node tag None _ (map snd d' ++ vs)).
  - assert (X : combine (map tag_of (map (fun kv => write [] (fst kv) (snd kv)) d ++ more)) (map snd d' ++ vs) = d' ++ combine (map tag_of more) vs).
    { rewrite map_app, map_map. rewrite (map_ext _ fst) by (intros [a b]; apply tag_write). rewrite K. clear. induction d' as [|[a b] d' IH]; [reflexivity|]. cbn [map app combine fst snd]. rewrite IH. reflexivity. }
    rewrite X. rewrite child_value_grouped; [reflexivity|]. rewrite map_app, KM, <- K. intros I. apply in_app_or in I. destruct I as [I|I]; [exact (ID I)|exact (NI I)].
  - destruct d; [congruence|discriminate].
  - apply Forall2_app; [|exact F]. clear - B K. revert d' K B. induction d as [|[k v] d IH]; intros [|[k' v'] d'] K B; try discriminate K; [constructor|]. cbn [map snd fst] in *. inversion B; subst. injection K as -> K. constructor; [|apply IH; assumption].
    apply read_write. assumption.
  - intros s X. discriminate X.
Qed.
Lemma element_read tag d d' more vs : own d d' -> Forall2 (fun c v => read c = Ok v) more vs -> (forall k, In k (keys d) -> ~ In k (map tag_of more)) -> ~ In (txt "item") (map tag_of more) ->
  read (element tag d more) = Ok (XDict (d' ++ grouped (combine (map tag_of more) vs))).
Proof.
  intros O F D NI. destruct (own_inv _ _ O) as (NE & ND & ID & K & B). destruct (element_child tag d d' more vs O F NI) as [-> KM].
  rewrite grouped_app; [reflexivity|rewrite <- K; exact ND|]. intros k I. rewrite KM. apply D. unfold keys. rewrite K. exact I.
Qed.
Lemma bindR_ok {A B} (x : result A) (f : A -> result B) b : bindR x f = Ok b -> exists a, x = Ok a /\ f a = Ok b.
Proof. destruct x as [a|e]; cbn; intros H; [eauto|discriminate H]. Qed.
