(** Proofs for C138. *)
From Verif Require Import PyBase PyText PyFacts TextFacts ValidatorsModel ValidatorsSpec ValidatorsProofs XmlModel XmlProofs XmlProps EmtfModel EmtfProofs LayModel LaySpec LayProofs EwsModel EwsSpec.
From Coq Require Import Lia.
Local Open Scope list_scope.

Definition tag_back (n : text) : Prop := validate_attribute (capwords n) = Ok n /\ capwords n <> txt "item".
Lemma field_tag n : field_name n -> tag_back n.
Proof.
  intros (ws & NE & F & ->). unfold tag_back. rewrite (capwords_snake ws NE F). split; [now apply validate_caps|].
  destruct ws as [|w ws]; [contradiction|]. inversion F as [|? ? W F']; subst. cbn [map concat].
  destruct (cap_shape w W) as (C & r & -> & U & _). cbn [app]. intros E. injection E as E _. subst C. discriminate U.
Qed.
Lemma read_single n s v : comes_back s v -> read (remove_null (single n s)) = Ok v.
Proof.
  intros [s' H|s' H]; unfold single.
  - apply null_in in H. rewrite H. reflexivity.
  - destruct (is_null s') eqn:E; [apply null_in in E; contradiction|]. rewrite remove_null_eq. cbn [map]. rewrite E.
    destruct s' as [|c s']; [exfalso; apply H; left; reflexivity|]. apply read_leaf_text. now left.
Qed.
(** The children of a section. *)
Lemma fields_children fs d : fields_back fs d -> Forall (fun f => tag_back (fst f)) fs ->
  let cs := map remove_null (flat_map (fun av => write_field (fst av) (snd av)) fs) in
  Forall2 (fun c v => read c = Ok v) cs (map snd d) /\ map tag_of cs = map (fun kv => capwords (fst kv)) d /\ Forall (fun kv => tag_back (fst kv)) d.
Proof.
  induction 1 as [|n r d F IH|n r d F IH|n s v r d C F IH|n l v r d NL C F IH]; intros T; cbv zeta in *.
  - split; [constructor|split; [reflexivity|constructor]].
  - inversion T; subst. cbn [flat_map fst snd write_field app]. now apply IH.
  - inversion T; subst. cbn [flat_map fst snd write_field app]. now apply IH.
  - inversion T as [|? ? T1 T2]; subst. cbn [flat_map fst snd write_field app map] in *. destruct (IH T2) as (A & B & D). split; [|split].
    + constructor; [now apply read_single|exact A].
    + f_equal; exact B.
    + constructor; [exact T1|exact D].
  - inversion T as [|? ? T1 T2]; subst. destruct l as [|x l]; [contradiction|]. cbn [flat_map fst snd write_field app map] in *. destruct (IH T2) as (A & B & D). split; [|split].
    + constructor; [now apply read_single|exact A].
    + f_equal; exact B.
    + constructor; [exact T1|exact D].
Qed.
Lemma back_keys fs d : fields_back fs d -> NoDup (map fst fs) -> NoDup (map fst d) /\ (forall k, In k (map fst d) -> In k (map fst fs)).
Proof.
  assert (L : fields_back fs d -> forall k, In k (map fst d) -> In k (map fst fs)).
  { induction 1; intros k I; cbn [map fst In] in *; intuition. }
  intros F N. split; [|exact (L F)]. clear L. revert N. induction F as [|n r d F IH|n r d F IH|n s v r d C F IH|n l v r d NL C F IH]; intros N; cbn [map fst] in *; inversion N as [|? ? N1 N2]; subst;
    [constructor|now apply IH|now apply IH| |]; (constructor; [|now apply IH]); intros I; apply N1; clear -I F; revert I; induction F; cbn [map fst In] in *; intuition.
Qed.
Lemma tags_nodup (d : list (text * xval)) : Forall (fun kv => tag_back (fst kv)) d -> NoDup (map fst d) -> NoDup (map (fun kv => capwords (fst kv)) d).
Proof.
  induction d as [|[k v] d IH]; intros F N; [constructor|]. inversion F as [|? ? F1 F2]; inversion N as [|? ? N1 N2]; subst. cbn [map fst] in *. constructor; [|now apply IH].
  intros I. apply N1. apply in_map_iff in I as ([k' v'] & E & I). cbn [fst] in E. rewrite Forall_forall in F2. destruct (F2 _ I) as [G _]. cbn [fst] in *. destruct F1 as [F1 _].
  assert (k' = k) by (rewrite E in G; congruence). subst. apply (in_map fst) in I. exact I.
Qed.
Definition flat_value (v : xval) : Prop := match v with XDict _ | XList _ => False | _ => True end.
Lemma back_flat fs d : fields_back fs d -> Forall (fun kv => flat_value (snd kv)) d.
Proof. induction 1 as [| | |? ? ? ? ? C|? ? ? ? ? ? C]; try assumption; constructor; try assumption; destruct C; exact I. Qed.
Lemma conv_tags (d : list (text * xval)) : forall acc, Forall (fun kv => tag_back (fst kv)) d -> Forall (fun kv => flat_value (snd kv)) d -> NoDup (map fst acc ++ map fst d) ->
  conv_each (map (fun kv => (capwords (fst kv), snd kv)) d) acc = Ok (acc ++ d).
Proof.
  induction d as [|[k v] d IH]; intros acc F G N; [cbn; now rewrite app_nil_r|]. inversion F as [|? ? [F1 _] F2]; inversion G as [|? ? G1 G2]; subst. cbn [map fst snd conv_each] in *.
  rewrite F1. cbn [bindR]. assert (E : match v with XDict _ | XList _ => conv v | _ => Ok v end = Ok v) by (destruct v; try reflexivity; contradiction). rewrite E. cbn [bindR].
  assert (NI : ~ In k (map fst acc)) by (apply NoDup_remove_2 in N; intros I; apply N; apply in_or_app; now left).
  rewrite (dset_fresh k v acc NI), IH; [now rewrite <- app_assoc|exact F2|exact G2|]. rewrite map_app, <- app_assoc. exact N.
Qed.
Lemma section_read_back class_ fs d : fields_back fs d -> Forall (fun f => tag_back (fst f)) fs -> NoDup (map fst fs) -> d <> [] ->
  exists x, read (remove_null (section_xml class_ fs)) = Ok (XDict x) /\ inner (XDict x) = Ok (XDict d).
Proof.
  intros F T N NE. destruct (fields_children fs d F T) as (A & B & D). cbv zeta in *. destruct (back_keys fs d F N) as [ND _].
  unfold section_xml. rewrite remove_null_eq. cbn [map]. set (cs := map remove_null _) in *.
  assert (NC : cs <> []). { intros E. rewrite E in B. destruct d; [contradiction|discriminate B]. }
  rewrite (read_node class_ None cs (map snd d) NC A ltac:(discriminate)), B.
  assert (E : combine (map (fun kv => capwords (fst kv)) d) (map snd d) = map (fun kv => (capwords (fst kv), snd kv)) d).
  { clear. induction d as [|[k v] d IH]; [reflexivity|]. cbn. now rewrite IH. }
  rewrite E. set (d2 := map (fun kv : text * xval => (capwords (fst kv), snd kv)) d).
  assert (E2 : map fst d2 = map (fun kv => capwords (fst kv)) d) by (unfold d2; now rewrite map_map).
  rewrite child_value_dict; [|rewrite E2; now apply tags_nodup].
  rewrite dget_fresh.
  2: { rewrite E2. intros I. apply in_map_iff in I as (kv & E3 & I). rewrite Forall_forall in D. now apply (D kv I). }
  exists d2. split; [reflexivity|]. cbn [inner]. rewrite conv_dict. unfold d2. rewrite (conv_tags d []); [reflexivity|exact D|exact (back_flat fs d F)|exact ND].
Qed.
Lemma back_total fs : Forall (fun f => match snd f with VNone | VShown _ | VTexts _ => True | _ => False end) fs -> exists d, fields_back fs d.
Proof.
  assert (X : forall s, exists v, comes_back s v).
  { intros s. destruct (is_null s) eqn:E; eexists; [apply back_none|apply back_text]; [now apply null_in|]. intros H. apply null_in in H. congruence. }
  induction fs as [|[n v] fs IH]; intros F; [eexists; constructor|]. inversion F as [|? ? F1 F2]; subst. destruct (IH F2) as (d & D). cbn [snd] in F1.
  destruct v as [|s|l|l|l|k]; try contradiction; [exists d; now constructor|destruct (X s) as (v & V); eexists; eapply fb_text; eassumption|].
  destruct l as [|x l]; [exists d; now constructor|]. destruct (X (join (txt " ") (x :: l))) as (v & V). eexists. eapply fb_texts; [discriminate|eassumption|eassumption].
Qed.

(** * Runs *)
Lemma run_char s c : run_name s -> In c s -> is_space c = false /\ c <> ","%char /\ c <> "["%char /\ c <> "]"%char.
Proof. intros [_ F] I. rewrite Forall_forall in F. destruct (F c I) as [A B]. cbn in B. split; [exact A|]. repeat split; intros ->; tauto. Qed.
Lemma joined_char l c : Forall run_name l -> In c (join (txt " ") l) -> c = " "%char \/ (is_space c = false /\ c <> ","%char /\ c <> "["%char /\ c <> "]"%char).
Proof.
  induction l as [|x l IH]; intros F I; [contradiction|]. inversion F as [|? ? F1 F2]; subst. destruct l as [|y l]; [right; exact (run_char x c F1 I)|].
  rewrite join_cons2 in I. apply in_app_or in I as [I|I]; [right; exact (run_char x c F1 I)|]. apply in_app_or in I as [[<-|[]]|I]; [now left|now apply IH].
Qed.
Lemma joined_not l c : Forall run_name l -> In c [","; "["; "]"]%char -> has_char c (join (txt " ") l) = false.
Proof.
  intros F H. apply has_char_notIn. intros I. destruct (joined_char l c F I) as [->|(_ & A & B & C)]; cbn in H; [intuition discriminate|intuition congruence].
Qed.
Lemma run_names_back l : Forall run_name l -> l <> [] -> run_list (XText (join (txt " ") l)) = Ok (Some l).
Proof.
  intros F N. unfold run_list. rewrite (joined_not l "[" F) by (cbn; tauto). cbn [andb]. cbv zeta. rewrite (joined_not l "," F) by (cbn; tauto).
  destruct l as [|x [|y l]]; [contradiction| |].
  - cbn [join]. inversion F as [|? ? F1 _]; subst. assert (E : has_char " " x = false).
    { apply has_char_notIn. intros I. destruct (run_char x _ F1 I) as [A _]. discriminate A. }
    rewrite E. destruct F1 as [F1 _]. now destruct x.
  - assert (E : has_char " " (join (txt " ") (x :: y :: l)) = true). { apply has_char_In. rewrite join_cons2. apply in_or_app. right. now left. }
    rewrite E. do 2 f_equal. apply (split_join " " (x :: y :: l)); [discriminate|]. rewrite Forall_forall in *. intros z I K. destruct (run_char z _ (F z I) K) as [A _]. discriminate A.
Qed.
Lemma joined_trimmed l : Forall run_name l -> l <> [] -> strip (join (txt " ") l) = join (txt " ") l.
Proof.
  intros F N. apply strip_trimmed.
  assert (A : exists c r, join (txt " ") l = c :: r /\ is_space c = false).
  { destruct l as [|x l]; [contradiction|]. inversion F as [|? ? F1 _]; subst. destruct x as [|c x]; [destruct F1; contradiction|]. assert (S : is_space c = false) by (apply (run_char (c :: x) c F1); now left).
    destruct l as [|y l]; [exists c, x; now split|]. rewrite join_cons2. now exists c, (x ++ txt " " ++ join (txt " ") (y :: l)). }
  assert (B : exists c r, join (txt " ") l = r ++ [c] /\ is_space c = false).
  { clear A. induction l as [|x l IH]; [contradiction|]. inversion F as [|? ? F1 F2]; subst. destruct l as [|y l].
    - cbn [join]. destruct (exists_last (proj1 F1)) as (r & c & E). exists c, r. split; [exact E|]. apply (run_char x c F1). rewrite E. apply in_or_app. right. now left.
    - destruct (IH F2 ltac:(discriminate)) as (c & r & E & S). exists c, (x ++ txt " " ++ r). split; [|exact S]. rewrite join_cons2, E. now rewrite <- !app_assoc. }
  destruct A as (c & r & E & S). destruct B as (c' & r' & E' & S'). split.
  - intros d u H. rewrite E in H. injection H as <- _. exact S.
  - intros d u H. rewrite E' in H. apply app_inj_tail in H as [_ <-]. exact S'.
Qed.

(** * Attachments *)
Lemma kept_total s : exists s', kept s s'.
Proof. destruct (is_null s) eqn:E; [exists []; left|exists (strip s); right]; split; try reflexivity; [now apply null_in|]. intros H. apply null_in in H. congruence. Qed.
Lemma kept_value s s' : kept s s' -> exists v, comes_back s v /\ att_text v = Ok s' /\ flat_value v.
Proof. intros [[H ->]|[H ->]]; eexists; (split; [constructor; exact H|]); (split; [reflexivity|exact I]). Qed.
Lemma att_read p q : kept_both p q -> exists x d, read (remove_null (att_xml p)) = Ok (XDict x) /\ inner (XDict x) = Ok (XDict d) /\
  forall a, set_att_all a d = Ok (mkAtt (fst q) (snd q) (a_more a)).
Proof.
  destruct p as [f s], q as [f' s']. intros [K1 K2]. cbn [fst snd] in *. destruct (kept_value f f' K1) as (v & V1 & V2 & _). destruct (kept_value s s' K2) as (w & W1 & W2 & _).
  set (fs := [(txt "filename", VShown f); (txt "description", VShown s)]).
  assert (FB : fields_back fs [(txt "filename", v); (txt "description", w)]) by (apply fb_text; [exact V1|]; apply fb_text; [exact W1|constructor]).
  assert (T : Forall (fun f => tag_back (fst f)) fs) by (constructor; [split; [vm_compute; reflexivity|discriminate]|constructor; [split; [vm_compute; reflexivity|discriminate]|constructor]]).
  assert (N : NoDup (map fst fs)) by (constructor; [intros [E|[]]; discriminate E|constructor; [intros []|constructor]]).
  destruct (section_read_back (txt "Attachment") fs _ FB T N ltac:(discriminate)) as (x & R & C). exists x. eexists. split; [exact R|]. split; [exact C|].
  intros a. cbn [set_att_all]. unfold set_att. rewrite text_eqb_refl, V2. cbn [bindR set_att_all].
  change (text_eqb (txt "description") (txt "filename")) with false. rewrite text_eqb_refl, W2. reflexivity.
Qed.
Lemma items_read ps qs : Forall2 kept_both ps qs -> exists vs ds, read_all (map att_xml ps) = Ok vs /\
  Forall2 (fun v d => (exists x, v = XDict x) /\ inner v = Ok d /\ exists e, d = XDict e) vs ds /\ List.length vs = List.length ps /\
  read_items ds = Ok qs.
Proof.
  induction 1 as [|p q ps qs K F (vs & ds & A & B & L & C)]; [exists [], []; repeat split; constructor|].
  destruct (att_read p q K) as (x & d & R & I & S). exists (XDict x :: vs), (XDict d :: ds). cbn [map read_all]. rewrite R. cbn [bindR]. rewrite A. cbn [bindR].
  split; [reflexivity|]. split; [constructor; [split; [eauto|split; [exact I|eauto]]|exact B]|]. split; [cbn [List.length]; now rewrite L|].
  cbn [read_items]. rewrite (S new_att). cbn [bindR]. rewrite C. cbn [bindR a_file a_desc]. now destruct q.
Qed.
Lemma several_read a ps qs p1 p2 : Forall2 kept_both (p1 :: p2 :: ps) qs ->
  read_elements a (map att_xml (p1 :: p2 :: ps)) = Ok (mkAtt (a_file a) (a_desc a) (a_more a ++ qs)).
Proof.
  intros F. destruct (items_read _ _ F) as (vs & ds & A & B & L & C). unfold read_elements. rewrite A. cbn [bindR].
  destruct vs as [|v [|w vs]]; cbn [List.length] in L; try discriminate L. cbn [one_or_list].
  rewrite conv_lst, (conv_list_ok _ ds).
  - cbn [bindR read_attachment]. now rewrite C.
  - clear -B. induction B as [|v0 d vs0 ds0 [(x & ->) [I _]] B IH]; constructor; [exact I|exact IH].
Qed.
Lemma one_read a p q : kept_both p q -> read_elements a [att_xml p] = Ok (mkAtt (fst q) (snd q) (a_more a)).
Proof.
  intros K. destruct (att_read p q K) as (x & d & R & I & S). unfold read_elements. cbn [read_all]. rewrite R. cbn [bindR one_or_list]. cbn [inner] in I. rewrite I. cbn [bindR read_attachment]. apply S.
Qed.

(** * Remote site *)
Lemma no_id_iff id : no_id id = true <-> unnamed id.
Proof.
  unfold unnamed. destruct id as [s|]; cbn [no_id]; [|split; [now left|reflexivity]].
  cbn [existsb In]. rewrite orb_false_r, !orb_true_iff, !text_eqb_eq. split; [intros [-> | [-> | -> ]]; tauto|].
  intros [E|[E|[E|[E|[]]]]]; [discriminate| | |]; injection E as <-; tauto.
Qed.
Lemma in_remove p q l : NoDup l -> (In q (remove_first p l) <-> In q l /\ q <> p).
Proof.
  induction l as [|x l IH]; intros N; [cbn; tauto|]. inversion N as [|? ? N1 N2]; subst. cbn [remove_first]. destruct (part_dec p x) as [<-|D].
  - split; [intros I; split; [now right|intros ->; contradiction]|]. intros [[-> | I] H]; [congruence|exact I].
  - cbn [In]. rewrite (IH N2). split; [intros [-> | [I H]]; [split; [now left|congruence]|split; [now right|exact H]]|]. intros [[-> | I] H]; [now left|right; now split].
Qed.
Lemma nodup_remove p l : NoDup l -> NoDup (remove_first p l).
Proof.
  induction l as [|x l IH]; intros N; [constructor|]. inversion N as [|? ? N1 N2]; subst. cbn [remove_first]. destruct (part_dec p x); [exact N2|]. constructor; [|now apply IH].
  intros I. apply N1. now apply (in_remove p x l N2).
Qed.
Lemma write_remote_in o skip id q : NoDup o -> NoDup (write_remote o skip id) /\
  (In q (write_remote o skip id) <-> In q o /\ (q = PNotes -> skip = false) /\ (q = PSite -> ~ unnamed id)).
Proof.
  intros N. unfold write_remote. destruct (no_id id) eqn:E; [|assert (U : ~ unnamed id) by (rewrite <- no_id_iff, E; discriminate)]; [assert (U : unnamed id) by (now apply no_id_iff)|]; destruct skip.
  - split; [now apply nodup_remove, nodup_remove|]. rewrite !in_remove by (try apply nodup_remove; exact N). destruct q; intuition congruence.
  - split; [now apply nodup_remove|]. rewrite !in_remove by exact N. destruct q; intuition congruence.
  - split; [now apply nodup_remove|]. rewrite !in_remove by exact N. destruct q; intuition congruence.
  - split; [exact N|]. destruct q; intuition congruence.
Qed.
Lemma write_again_last calls skip id : forall o, exists before last, write_again o (calls ++ [(skip, id)]) = before ++ [last] /\ List.length before = List.length calls /\
  (NoDup o -> NoDup last /\ forall q, In q last <-> In q o /\ (q = PNotes -> Forall (fun c => fst c = false) (calls ++ [(skip, id)])) /\ (q = PSite -> Forall (fun c => ~ unnamed (snd c)) (calls ++ [(skip, id)]))).
Proof.
  induction calls as [|[s i] calls IH]; intros o; cbn [app write_again].
  - exists [], (write_remote o skip id). split; [reflexivity|]. split; [reflexivity|]. intros N. split; [exact (proj1 (write_remote_in o skip id PSite N))|]. intros q. destruct (write_remote_in o skip id q N) as [_ W]. rewrite W. clear W.
    split; intros (A & B & C); (split; [exact A|]); split; intros E.
    + repeat constructor. now apply B.
    + repeat constructor. now apply C.
    + specialize (B E). now inversion B.
    + specialize (C E). now inversion C.
  - destruct (IH (write_remote o s i)) as (b & l & E & L & H). cbv zeta. rewrite E. exists (write_remote o s i :: b), l. split; [reflexivity|]. split; [cbn [List.length]; now rewrite L|].
    intros N. destruct (H (proj1 (write_remote_in o s i PSite N))) as [NL HL]. split; [exact NL|]. intros q. rewrite (HL q). destruct (write_remote_in o s i q N) as [_ W]. rewrite W. clear.
    split; [intros ((A & B & C) & D & G); split; [exact A|]; split; intros E; constructor; auto|].
    intros (A & B & C). split; [split; [exact A|]; split; intros E|split; intros E]; [specialize (B E)|specialize (C E)|specialize (B E)|specialize (C E)]; match goal with H : Forall _ (_ :: _) |- _ => inversion H; subst end; assumption.
Qed.
