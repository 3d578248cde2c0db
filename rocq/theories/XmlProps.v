(** C60: metadata dictionaries through XML. *)
From Verif Require Import PyBase PyFacts PyText TextFacts XmlModel XmlSpec XmlProofs.
Local Open Scope list_scope.

Lemma root_write ad class_ d : get_units ad = None -> dict_to_xml ad class_ d = write ad class_ (XDict d).
Proof. intros GU. cbn [write]. unfold unit_attrib. rewrite GU. reflexivity. Qed.
(** Every dictionary is read back as [back] says, from the element itself or from a printed copy of it. *)
Theorem C60_values ad class_ d v e : get_units ad = None -> back (XDict d) v -> printed (dict_to_xml ad class_ d) e -> read e = Ok v.
Proof. intros GU B P. rewrite (root_write ad class_ d GU) in P. exact (read_printed ad GU _ _ _ _ B P). Qed.
Lemma plain_back v : plain v -> back v v.
Proof.
  induction v as [|s|s|l IH|d IH] using xval_induct; intros P; inversion P as [|? NE ST|? FP L|? NE ND NI FP]; subst.
  - constructor.
  - rewrite <- ST at 2. constructor. exact NE.
  - constructor; [|exact L]. clear P L. induction l as [|x l IHl]; [constructor|]. inversion IH; subst. inversion FP; subst. constructor; auto.
  - constructor; try assumption; [reflexivity|]. clear P NE ND NI. induction d as [|[k x] d IHd]; cbn [map snd] in *; [constructor|]. inversion IH; subst. inversion FP; subst. constructor; auto.
Qed.
Lemma printed_write ad : get_units ad = None -> forall v tag, printed (write ad tag v) (write ad tag v).
Proof.
  intros GU. assert (UA : unit_attrib ad = []) by (unfold unit_attrib; rewrite GU; reflexivity).
  induction v as [|s|s|l IH|d IH] using xval_induct; intros tag; cbn [write]; rewrite UA; try (constructor; left; reflexivity).
  - destruct l as [|x l]; [cbn [map]; constructor; left; reflexivity|]. constructor; [discriminate| |intros s X; discriminate X]. induction IH as [|y l' P F IHF]; cbn [map]; constructor; [apply P|exact IHF].
  - destruct d as [|x d]; [cbn [map]; constructor; left; reflexivity|]. constructor; [discriminate| |intros s X; discriminate X].
    induction (x :: d) as [|[k y] d' IHd]; cbn [map fst snd] in *; constructor; inversion IH; subst; auto.
Qed.
(** Dictionaries of texts, dictionaries and lists come back exactly: texts without white space around them, nothing empty, no list of one
    value, no key "item". *)
Theorem C60_exact ad class_ d : get_units ad = None -> plain (XDict d) -> read (dict_to_xml ad class_ d) = Ok (XDict d).
Proof. intros GU P. apply (C60_values ad class_ d); [exact GU|exact (plain_back _ P)|]. rewrite (root_write ad class_ d GU). apply printed_write. exact GU. Qed.
Theorem C60_exact_printed ad class_ d e : get_units ad = None -> plain (XDict d) -> printed (dict_to_xml ad class_ d) e -> read e = Ok (XDict d).
Proof. intros GU P. apply (C60_values ad class_ d); [exact GU|exact (plain_back _ P)]. Qed.
Example C60_hyp :
  let d := [(txt "id", XText (txt "mt01")); (txt "location", XDict [(txt "latitude", XNum (txt "40.5")); (txt "datum", XNone)]); (txt "runs", XList [XText (txt "a"); XText (txt "b")])] in
  let d' := [(txt "id", XText (txt "mt01")); (txt "location", XDict [(txt "latitude", XText (txt "40.5")); (txt "datum", XNone)]); (txt "runs", XList [XText (txt "a"); XText (txt "b")])] in
  back (XDict d) (XDict d') /\ plain (XDict d') /\ read (dict_to_xml [(txt "location.latitude", [(txt "units", Some (txt "degrees"))])] (txt "station") d) = Ok (XDict d').
Proof.
  cbn zeta.
  assert (ND : forall a b c : text, text_eqb a b = false -> text_eqb a c = false -> text_eqb b c = false -> NoDup [a; b; c]).
  { intros a b c A B C. repeat constructor; cbn [In]; intros H; repeat (destruct H as [H|H]; [subst; rewrite text_eqb_refl in *; discriminate|]); exact H. }
  assert (ND2 : NoDup [txt "latitude"; txt "datum"]) by (repeat constructor; cbn [In]; intros H; repeat (destruct H as [H|H]; [discriminate H|]); exact H).
  assert (NI : forall l : list text, forallb (fun k => negb (text_eqb k (txt "item"))) l = true -> ~ In (txt "item") l).
  { intros l H I. rewrite forallb_forall in H. specialize (H _ I). rewrite text_eqb_refl in H. discriminate H. }
  split; [|split; [|reflexivity]].
  - constructor; [discriminate|apply ND; reflexivity|apply NI; reflexivity|reflexivity|]. cbn [map snd]. repeat apply Forall2_cons; [change (txt "mt01") with (strip (txt "mt01")) at 2; constructor; discriminate| |apply (plain_back (XList [XText (txt "a"); XText (txt "b")])); constructor; [repeat constructor; discriminate|cbn; lia]|constructor].
    constructor; [discriminate|exact ND2|apply NI; reflexivity|reflexivity|]. cbn [map snd]. apply Forall2_cons; [change (txt "40.5") with (strip (txt "40.5")) at 2; constructor; discriminate|]. apply Forall2_cons; constructor.
  - constructor; [discriminate|apply ND; reflexivity|apply NI; reflexivity|]. cbn [map snd]. repeat apply Forall_cons; [constructor; [discriminate|reflexivity]| |constructor; [repeat constructor; discriminate|cbn; lia]|constructor].
    constructor; [discriminate|exact ND2|apply NI; reflexivity|]. cbn [map snd]. apply Forall_cons; [constructor; [discriminate|reflexivity]|]. apply Forall_cons; constructor.
Qed.
(** A list of one value comes back as that value, and an empty list or dictionary as None. *)
Theorem C60_single_refuted ad tag x y : get_units ad = None -> back x y -> read (write ad tag (XList [x])) = Ok y.
Proof. intros GU B. apply (read_printed ad GU (XList [x]) tag y); [constructor; exact B|apply printed_write; exact GU]. Qed.
Theorem C60_empty_refuted ad tag v : get_units ad = None -> In v [XText []; XList []; XDict []] -> read (write ad tag v) = Ok XNone.
Proof. intros GU I. apply (read_printed ad GU v tag XNone); [|apply printed_write; exact GU]. cbn [In] in I. destruct I as [<-|[<-|[<-|[]]]]; constructor. Qed.
(** A dictionary with the key "item" comes back as the value under it; its other entries are lost. *)
Lemma dget_combine (ks : list text) : forall (vs ws : list xval) k x, dget text_dec k (combine ks vs) = Some x -> Forall2 back vs ws -> exists y, back x y /\ dget text_dec k (combine ks ws) = Some y.
Proof.
  induction ks as [|k' ks IH]; intros vs ws k x G F; [discriminate G|]. destruct F as [|v w vs ws B F]; [discriminate G|]. cbn [combine dget] in *. destruct (text_dec k k'); [injection G as <-; exists w; split; [exact B|reflexivity]|]. exact (IH _ _ _ _ G F).
Qed.
Theorem C60_item_refuted ad tag d vs x : get_units ad = None -> NoDup (map fst d) -> In (txt "item", x) d -> Forall2 back (map snd d) vs -> exists y, back x y /\ read (write ad tag (XDict d)) = Ok y.
Proof.
  intros GU ND I F. assert (UA : unit_attrib ad = []) by (unfold unit_attrib; rewrite GU; reflexivity).
  assert (FR : Forall2 (fun c v => read c = Ok v) (map (fun kv => write ad (fst kv) (snd kv)) d) vs).
  { clear ND I. revert vs F. induction d as [|[k v] d IH]; intros vs F; cbn [map snd fst] in *; inversion F as [|? w ? ws B F2]; subst; [constructor|]. constructor; [apply (read_printed ad GU v k w _ B); apply printed_write; exact GU|apply IH; exact F2]. }
  cbn [write]. rewrite UA. rewrite (read_node tag None _ vs); [| |exact FR|intros s X; discriminate X].
  - rewrite map_map, (map_ext _ fst) by (intros; apply tag_write). rewrite child_value_dict.
    + assert (G : dget text_dec (txt "item") (combine (map fst d) (map snd d)) = Some x) by (rewrite combine_split; apply In_dget; assumption).
      destruct (dget_combine _ _ _ _ _ G F) as (y & B & E). exists y. split; [exact B|]. rewrite E. reflexivity.
    + assert (E : map fst (combine (map fst d) vs) = map fst d). { clear - F. revert vs F. induction d as [|[k v] d IH]; intros vs F; cbn [map snd fst] in *; inversion F as [|? w ? ws B F2]; subst; [reflexivity|]. cbn [combine map fst]. rewrite (IH _ F2). reflexivity. } rewrite E. exact ND.
  - destruct d; [destruct I|discriminate].
Qed.
Example C60_refuted_hyp : read (write [] (txt "channels") (XList [XText (txt "ex")])) = Ok (XText (txt "ex")) /\ read (write [] (txt "x") (XDict [(txt "a", XText (txt "1")); (txt "item", XText (txt "2"))])) = Ok (XText (txt "2")).
Proof. split; reflexivity. Qed.
(** Units are never written: the table of the fields of an object has no field "json_schema_extra". *)
Theorem C60_units_refuted ad class_ d : dget text_dec (txt "json_schema_extra") ad = None -> no_attribs (dict_to_xml ad class_ d).
Proof.
  intros G. assert (GU : get_units ad = None) by (unfold get_units; rewrite G; reflexivity). rewrite (root_write ad class_ d GU). assert (UA : unit_attrib ad = []) by (unfold unit_attrib; rewrite GU; reflexivity).
  generalize (XDict d) as v. intros v. revert class_. induction v as [|s|s|l IH|d' IH] using xval_induct; intros class_; cbn [write]; rewrite UA; constructor; try constructor.
  - apply Forall_map. eapply Forall_impl; [|exact IH]. intros v H. apply H.
  - apply Forall_map. apply Forall_forall. intros [k v] I. cbn [fst snd]. rewrite Forall_forall in IH. apply IH. apply in_map_iff. exists (k, v). split; [reflexivity|exact I].
Qed.
(** Units of an element in a file do not change what is read from its children and its text, and an element that has only units is an empty dictionary. *)
Theorem C60_units_read tag u t cs : cs <> [] \/ (exists c s, t = Some (c :: s)) -> read (Elem tag [(txt "units", u)] t cs) = read (Elem tag [] t cs).
Proof.
  intros H. rewrite !read_eq. destruct (read_each cs) as [kvs|e]; [|reflexivity]. cbn [bindR]. destruct cs as [|c0 cs]; [|reflexivity]. destruct H as [H|(c & s & ->)]; [contradiction|reflexivity].
Qed.
Theorem C60_units_only tag u : read (Elem tag [(txt "units", u)] None []) = Ok (XDict []).
Proof. reflexivity. Qed.
(** Units beside one other attribute are left out, and the other attribute stays. *)
Theorem C60_units_other tag u k v t cs : ~ In k [txt "units"; txt "type"] ->
  read (Elem tag [(txt "units", u); (k, v)] t cs) = read (Elem tag [(k, v)] t cs) /\ read (Elem tag [(k, v); (txt "units", u)] t cs) = read (Elem tag [(k, v)] t cs).
Proof.
  intros K. assert (EU : text_eqb k (txt "units") = false) by (destruct (text_eqb k (txt "units")) eqn:U; [apply text_eqb_eq in U; exfalso; apply K; left; symmetry; exact U|reflexivity]).
  assert (ET : text_eqb k (txt "type") = false) by (destruct (text_eqb k (txt "type")) eqn:U; [apply text_eqb_eq in U; exfalso; apply K; right; left; symmetry; exact U|reflexivity]).
  rewrite !read_eq. destruct (read_each cs) as [kvs|e]; [|split; reflexivity]. cbn [bindR nonempty]. set (x := match cs with [] => XDict [] | _ => child_value kvs end).
  assert (K1 : kept_attribs [(k, v)] = [(k, v)]) by (unfold kept_attribs; cbn [List.length existsb filter fst snd]; rewrite EU, ET; reflexivity).
  assert (K2 : kept_attribs [(txt "units", u); (k, v)] = [(k, v)]) by (unfold kept_attribs; cbn [List.length existsb filter fst snd]; rewrite EU, ET; reflexivity).
  assert (K3 : kept_attribs [(k, v); (txt "units", u)] = [(k, v)]) by (unfold kept_attribs; cbn [List.length existsb filter fst snd]; rewrite EU, ET; reflexivity).
  rewrite K1, K2, K3. cbn [set_attribs List.length]. rewrite EU, ET. cbn [andb]. change (text_eqb (txt "units") (txt "units") && (2 <=? 2)%nat)%bool with true. cbv iota. split; destruct (set_in k v x); reflexivity.
Qed.
Example C60_units_other_hyp : ~ In (txt "name") [txt "units"; txt "type"] /\ read (Elem (txt "declination") [(txt "units", txt "degrees"); (txt "epoch", txt "2020")] (Some (txt "12.5")) []) = Ok (XDict [(txt "epoch", XText (txt "2020")); (txt "value", XText (txt "12.5"))]).
Proof. split; [|reflexivity]. intros [H|[H|[]]]; discriminate H. Qed.

(** Children: one entry for each tag, with the value or the list of the values of the children with that tag. *)
Lemma group_spec kvs : forall acc, NoDup (map fst acc) -> (forall k l, In (k, l) acc -> l <> []) -> let d := fold_left add_group kvs acc in NoDup (map fst d) /\
  (forall k, dget text_dec k d = match (match dget text_dec k acc with Some l => l | None => [] end) ++ map snd (filter (fun kv => text_eqb (fst kv) k) kvs) with [] => None | l => Some l end).
Proof.
  induction kvs as [|[k v] kvs IH]; intros acc ND NE; cbn [fold_left].
  - split; [exact ND|]. intros k. cbn [filter map]. rewrite app_nil_r. destruct (dget text_dec k acc) as [l|] eqn:E; [|reflexivity]. apply dget_In in E. specialize (NE _ _ E). destruct l; [contradiction|reflexivity].
  - destruct (IH (add_group acc (k, v))) as [ND' G].
    + apply NoDup_dset. exact ND.
    + intros k' l I. unfold add_group in I. cbn [fst snd] in I. apply (In_dget text_dec) in I; [|apply NoDup_dset; exact ND]. destruct (text_dec k' k) as [->|D].
      * rewrite dget_dset_eq in I. injection I as <-. destruct (dget text_dec k acc) as [l|]; [destruct l|]; discriminate.
      * rewrite dget_dset_neq in I by exact D. apply dget_In in I. exact (NE _ _ I).
    + split; [exact ND'|]. intros k'. rewrite G. unfold add_group at 1. cbn [fst snd filter]. destruct (text_dec k' k) as [->|D].
      * rewrite dget_dset_eq, text_eqb_refl. cbn [map snd]. destruct (dget text_dec k acc) as [l|]; [rewrite <- app_assoc; reflexivity|reflexivity].
      * rewrite dget_dset_neq by exact D. destruct (text_eqb k k') eqn:E; [apply text_eqb_eq in E; congruence|reflexivity].
Qed.
Lemma values_combine k cs : forall vs, map snd (filter (fun kv => text_eqb (fst kv) k) (combine (map tag_of cs) vs)) = values_of k cs vs.
Proof.
  unfold values_of. induction cs as [|c cs IH]; intros vs; [reflexivity|]. destruct vs as [|v vs]; [reflexivity|]. cbn [map combine filter fst]. destruct (text_eqb (tag_of c) k); cbn [map snd]; rewrite IH; reflexivity.
Qed.
Theorem C60_children tag t cs vs : cs <> [] -> Forall2 (fun c v => read c = Ok v) cs vs -> (forall s, t = Some s -> strip s = []) -> ~ In (txt "item") (map tag_of cs) ->
  exists d, read (Elem tag [] t cs) = Ok (XDict d) /\ NoDup (map fst d) /\
    forall k, dget text_dec k d = match values_of k cs vs with [] => None | [v] => Some v | l => Some (XList l) end.
Proof.
  intros N F S NI. rewrite (read_node tag t cs vs N F S). unfold child_value. set (kvs := combine (map tag_of cs) vs). destruct (group_spec kvs [] (NoDup_nil _) ltac:(intros k l [])) as [ND G]. cbv zeta in ND, G. cbn [dget app] in G. fold (group kvs) in *.
  change (fold_left add_group kvs []) with (group kvs) in *.
  assert (DM : forall k, dget text_dec k (map (fun kl => (fst kl, one_or_list (snd kl))) (group kvs)) = option_map one_or_list (dget text_dec k (group kvs))).
  { intros k. clear. induction (group kvs) as [|[k0 l] g IH]; [reflexivity|]. cbn [map dget fst snd]. destruct (text_dec k k0); [reflexivity|exact IH]. }
  assert (V : forall k, dget text_dec k (map (fun kl => (fst kl, one_or_list (snd kl))) (group kvs)) = match values_of k cs vs with [] => None | [v] => Some v | l => Some (XList l) end).
  { intros k. rewrite DM, G. unfold kvs. rewrite values_combine. destruct (values_of k cs vs) as [|x [|y l]]; reflexivity. }
  rewrite V. assert (EI : values_of (txt "item") cs vs = []).
  { unfold values_of. clear - NI. revert vs. induction cs as [|c cs IH]; intros vs; [reflexivity|]. destruct vs as [|v vs]; [reflexivity|]. cbn [combine filter fst]. destruct (text_eqb (tag_of c) (txt "item")) eqn:E; [apply text_eqb_eq in E; exfalso; apply NI; left; exact E|]. apply IH. intros I. apply NI. right. exact I. }
  rewrite EI. eexists. split; [reflexivity|]. split; [|exact V]. rewrite map_map. cbn [fst]. exact ND.
Qed.
(** Attributes are entries after those of the children, and the text of an element with attributes is the entry "value". *)
Lemma set_attribs_dict n a : forall d, ~ In (txt "units") (map fst a) -> ~ In (txt "type") (map fst a) -> NoDup (map fst d ++ map fst a) ->
  set_attribs n a (XDict d) = Ok (XDict (d ++ map (fun kv => (fst kv, XText (snd kv))) a)).
Proof.
  induction a as [|[k v] a IH]; intros d U T ND; [cbn; rewrite app_nil_r; reflexivity|]. cbn [set_attribs map fst] in *.
  destruct (text_eqb k (txt "units")) eqn:E; [apply text_eqb_eq in E; exfalso; apply U; left; exact E|]. destruct (text_eqb k (txt "type")) eqn:E2; [apply text_eqb_eq in E2; exfalso; apply T; left; exact E2|]. cbn [andb set_in bindR].
  rewrite dset_fresh by (intros I; apply NoDup_remove_2 in ND; apply ND; apply in_or_app; left; exact I). rewrite IH; [rewrite <- app_assoc; reflexivity|intros I; apply U; right; exact I|intros I; apply T; right; exact I|]. rewrite map_app. cbn [map fst]. rewrite <- app_assoc. exact ND.
Qed.
Lemma kept_all a : ~ In (txt "units") (map fst a) -> ~ In (txt "type") (map fst a) -> kept_attribs a = a.
Proof.
  intros U T. unfold kept_attribs. assert (X : forall b1 b2 (l : list (text * text)), ~ In (txt "units") (map fst l) -> ~ In (txt "type") (map fst l) -> filter (fun kv => negb ((b1 && text_eqb (fst kv) (txt "units")) || (b2 && text_eqb (fst kv) (txt "type"))))%bool l = l).
  { clear. intros b1 b2. induction l as [|[k v] l IH]; intros U T; [reflexivity|]. cbn [filter fst map In] in *. destruct (text_eqb k (txt "units")) eqn:E; [apply text_eqb_eq in E; exfalso; apply U; left; exact E|]. destruct (text_eqb k (txt "type")) eqn:E2; [apply text_eqb_eq in E2; exfalso; apply T; left; exact E2|].
    rewrite !andb_false_r. cbn [orb negb]. rewrite IH by tauto. reflexivity. }
  apply X; assumption.
Qed.
Theorem C60_attribs tag a t : a <> [] -> read_attribs a ->
  (forall s, t = Some s -> strip s = []) -> read (Elem tag a t []) = Ok (XDict (map (fun kv => (fst kv, XText (snd kv))) a)).
Proof.
  intros N (ND & U & T) S. rewrite read_eq. cbn [read_each bindR]. destruct a as [|kv a]; [contradiction|]. cbn [nonempty]. rewrite (set_attribs_dict _ (kv :: a) [] U T ND). cbn [bindR app]. rewrite (kept_all _ U T). unfold set_text. destruct t as [[|c s]|]; try reflexivity.
  rewrite (S _ eq_refl). reflexivity.
Qed.
Theorem C60_attribs_text tag a s : a <> [] -> read_attribs a -> ~ In (txt "value") (map fst a) -> strip s <> [] ->
  read (Elem tag a (Some s) []) = Ok (XDict (map (fun kv => (fst kv, XText (snd kv))) a ++ [(txt "value", XText (strip s))])).
Proof.
  intros N (ND & U & T) V S. rewrite read_eq. cbn [read_each bindR]. destruct a as [|kv a]; [contradiction|]. cbn [nonempty]. rewrite (set_attribs_dict _ (kv :: a) [] U T ND). cbn [bindR app]. rewrite (kept_all _ U T). unfold set_text. destruct s as [|c s]; [contradiction S; reflexivity|].
  cbn [nonempty orb]. destruct (strip (c :: s)) as [|x w] eqn:E; [contradiction|]. cbn [nonempty set_in]. rewrite dset_fresh; [reflexivity|]. rewrite map_map. cbn [fst]. exact V.
Qed.
Theorem C60_attribs_children tag a t cs d : cs <> [] -> read_attribs a -> (forall s, t = Some s -> strip s = []) ->
  read (Elem tag [] t cs) = Ok (XDict d) -> (forall k, In k (map fst d) -> ~ In k (map fst a)) -> NoDup (map fst d) ->
  read (Elem tag a t cs) = Ok (XDict (d ++ map (fun kv => (fst kv, XText (snd kv))) a)).
Proof.
  intros N (ND & U & T) S R DJ NDD. rewrite read_eq in *. destruct (read_each cs) as [kvs|e]; [|discriminate R]. cbn [bindR] in *. destruct cs as [|c0 cs]; [contradiction|]. cbn [set_attribs List.length bindR nonempty] in R. change (kept_attribs []) with (@nil (text * text)) in R. rewrite (set_text_space t _ S) in R. injection R as ->.
  rewrite (set_attribs_dict _ a d U T). { cbn [bindR]. rewrite (kept_all _ U T). unfold set_text. destruct t as [[|c s]|]; try reflexivity. rewrite (S _ eq_refl). cbn [nonempty orb]. reflexivity. }
  clear - ND DJ NDD. induction (map fst d) as [|k l IH]; [exact ND|]. cbn [app]. inversion NDD; subst. constructor; [|apply IH; [intros k' I; apply DJ; right; exact I|assumption]]. intros I. apply in_app_or in I as [I|I]; [contradiction|]. exact (DJ k (or_introl eq_refl) I).
Qed.
Example C60_attribs_hyp : read_attribs [(txt "name", txt "HX"); (txt "orientation", txt "9.1")] /\
  read (Elem (txt "Site") [(txt "name", txt "HX"); (txt "orientation", txt "9.1")] (Some (txt " deg ")) []) = Ok (XDict [(txt "name", XText (txt "HX")); (txt "orientation", XText (txt "9.1")); (txt "value", XText (txt "deg"))]) /\
  read (Elem (txt "Site") [] None [Elem (txt "run") [] (Some (txt "a")) []; Elem (txt "id") [] (Some (txt "1")) []; Elem (txt "run") [] (Some (txt "b")) []]) = Ok (XDict [(txt "run", XList [XText (txt "a"); XText (txt "b")]); (txt "id", XText (txt "1"))]).
Proof.
  split; [|split; reflexivity]. split; [|split; intros H; repeat (destruct H as [H|H]; [discriminate H|]); exact H]. constructor; [intros [X|[]]; discriminate X|constructor; [intros []|constructor]].
Qed.
(** The attributes of an element whose value is a list (children called item) cannot be read. *)
Theorem C60_attribs_item_refuted tag k v vs : ~ In k [txt "units"; txt "type"] -> (2 <= List.length vs)%nat ->
  read (Elem tag [(k, v)] None (map (fun s => Elem (txt "item") [] (Some s) []) vs)) = Err TypeError.
Proof.
  intros K L. rewrite read_eq. assert (E : read_each (map (fun s => Elem (txt "item") [] (Some s) []) vs) = Ok (map (fun v => (txt "item", v)) (map (fun s => match s with [] => XNone | _ => XText (strip s) end) vs))).
  { clear L. induction vs as [|s vs IH]; [reflexivity|]. cbn [map read_each]. rewrite IH. destruct s; reflexivity. }
  rewrite E. cbn [bindR]. destruct vs as [|s1 [|s2 vs]]; cbn [List.length] in L; [lia|lia|]. cbn [map]. set (x := match s1 with [] => _ | _ => _ end). set (y := match s2 with [] => _ | _ => _ end).
  pose proof (child_value_items x (y :: map (fun s => match s with [] => XNone | _ => XText (strip s) end) vs)) as C. cbn [map] in C. rewrite C. cbn [one_or_list set_attribs List.length].
  destruct (text_eqb k (txt "units")) eqn:U; [apply text_eqb_eq in U; exfalso; apply K; left; symmetry; exact U|]. destruct (text_eqb k (txt "type")) eqn:T; [apply text_eqb_eq in T; exfalso; apply K; right; left; symmetry; exact T|]. reflexivity.
Qed.

Print Assumptions C60_values. Print Assumptions C60_exact. Print Assumptions C60_item_refuted. Print Assumptions C60_units_refuted. Print Assumptions C60_units_read. Print Assumptions C60_units_other.
Print Assumptions C60_children. Print Assumptions C60_attribs. Print Assumptions C60_attribs_text. Print Assumptions C60_attribs_children. Print Assumptions C60_attribs_item_refuted.
