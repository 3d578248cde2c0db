(** C54: comments of StationXML.  C55: flipped dictionaries.  C80: release status.  C81: run comments.  C82: electrodes, dipoles and
    equipment.  C83: run ids of channels. *)
From Verif Require Import PyBase PyFacts PyText TextFacts PyNum IsoModel IsoProofs PyFloat PyFloatFacts PyRepr PyReprFacts EdiProofs LicenseData EnumModel EnumSpec EnumProofs EnumProps ZmmModel ZmmProofs SxmlModel SxmlSpec SxmlProofs SxmlChars.
Local Open Scope list_scope.

(** ** C55 *)
(** The flipped dictionary gives for a name the key of the last entry with that name. *)
Theorem C55_last d v k : dget text_dec v (flip_dict d) = Some k <-> last_gives d v k.
Proof. apply flip_dict_get. Qed.
(** A name that only one key gives is turned back into that key. *)
Theorem C55_inverse d v k e : In e d -> gives e k v -> (forall e' k', In e' d -> gives e' k' v -> k' = k) -> dget text_dec v (flip_dict d) = Some k.
Proof.
  intros I G U. destruct (dget text_dec v (flip_dict d)) as [k'|] eqn:D.
  - apply flip_dict_get in D as (a & e' & b & -> & G' & _). rewrite (U e' k'); [reflexivity| |exact G']. apply in_or_app. right. left. reflexivity.
  - exfalso. assert (L : exists k', last_gives d v k').
    { clear U D. revert I. induction d as [|x d IH] using rev_ind; intros I; [destruct I|].
      destruct (flip_entry_get x [] v) as [(k' & GX & _)|(N & _)]; [exists k', d, x, []; split; [reflexivity|]; split; [exact GX|intros ? ? []]|].
      apply in_app_or in I as [I|[->|[]]]; [|destruct (N k G)]. destruct (IH I) as (k' & a & e' & b & -> & G' & L). exists k', a, e', (b ++ [x]). split; [rewrite <- app_assoc; reflexivity|]. split; [exact G'|]. intros e2 k2 I2. apply in_app_or in I2 as [I2|[<-|[]]]; [exact (L e2 k2 I2)|exact (N k2)]. }
    destruct L as (k' & L). apply flip_dict_get in L. congruence.
Qed.
(** Every entry of the flipped dictionary comes from one of the dictionary. *)
Theorem C55_sound d v k : dget text_dec v (flip_dict d) = Some k -> exists e, In e d /\ gives e k v.
Proof. intros D. apply flip_dict_get in D as (a & e & b & -> & G & _). exists e. split; [apply in_or_app; right; left; reflexivity|exact G]. Qed.
(** A name with several keys leads back to one of them only. *)
Theorem C55_duplicate : ~ (forall d v k e, In e d -> gives e k v -> dget text_dec v (flip_dict d) = Some k).
Proof.
  intros H. set (d := [(Some (txt "creation_date"), TName (txt "time_period.start")); (Some (txt "start_date"), TName (txt "time_period.start"))]).
  assert (G : gives (Some (txt "creation_date"), TName (txt "time_period.start")) (txt "creation_date") (txt "time_period.start")) by (constructor; discriminate).
  specialize (H d _ _ _ (or_introl eq_refl) G). vm_compute in H. discriminate H.
Qed.
Example C55_hyp : let d := [(Some (txt "code"), TName (txt "id")); (None, TName (txt "x")); (Some (txt "site"), TName (txt "special")); (Some (txt "dates"), TList [txt "start"; txt "end"])] in
  flip_dict d = [(txt "id", txt "code"); (txt "start", txt "dates"); (txt "end", txt "dates")] /\ gives (Some (txt "dates"), TList [txt "start"; txt "end"]) (txt "dates") (txt "end").
Proof. split; [reflexivity|]. constructor. right. left. reflexivity. Qed.

(** ** C80 *)
Definition no_status (ids : list text) : bool :=
  forallb (fun n => negb (existsb (text_eqb n) [txt "open"; txt "closed"; txt "partial"])) (map fst base_licenses ++ map license_name ids).
Definition listed (ids : list text) : list (text * text) := map (fun i => (license_name i, i)) ids.
Lemma release_dict_eq ids : distinct_spellings ids -> no_status ids = true -> release_dict ids =
  [(None, txt "open"); (Some (txt "open"), txt "open"); (Some (txt "closed"), txt "closed"); (Some (txt "partial"), txt "partial")] ++
  map (fun kv => (Some (fst kv), release_status (fst kv))) (base_licenses ++ listed ids).
Proof.
  intros D C. unfold release_dict, listed. rewrite (license_members_eq _ D). apply dupdate_fresh.
  - unfold dkeys. rewrite map_map. cbn [fst]. rewrite <- (map_map fst Some). apply FinFun.Injective_map_NoDup; [intros x y E; now injection E|].
    change (NoDup (dkeys (base_licenses ++ map (fun i => (license_name i, i)) ids))). rewrite <- (license_members_eq _ D). unfold license_members. now apply NoDup_dupdate, NoDup_dupdate; constructor.
  - intros k I J. unfold dkeys in *. rewrite map_map in I. cbn [fst] in I. apply in_map_iff in I as (kv & <- & I).
    unfold no_status in C. rewrite forallb_forall in C. assert (I2 : In (fst kv) (map fst base_licenses ++ map license_name ids)).
    { apply in_app_or in I as [I|I]; apply in_or_app; [left; apply in_map; exact I|right]. apply in_map_iff in I as (i & <- & I). cbn [fst]. apply in_map. exact I. }
    specialize (C _ I2). apply negb_true_iff in C. rewrite <- not_true_iff_false in C. apply C. apply existsb_exists.
    cbn [map fst In] in J. destruct J as [J|[J|[J|[J|[]]]]]; [discriminate J| | |]; injection J as J; rewrite <- J; eexists; (split; [|apply text_eqb_refl]); cbn [In]; tauto.
Qed.
Definition release_pairs (ids : list text) : list (option text * tval) := map (fun kv => (fst kv, TName (snd kv))) (release_dict ids).
Lemma release_pairs_eq ids : distinct_spellings ids -> no_status ids = true -> exists pre, release_pairs ids = pre ++ map (fun i => (Some (license_name i), TName (release_status (license_name i)))) ids.
Proof.
  intros D C. unfold release_pairs, listed. rewrite (release_dict_eq ids D C). unfold listed. rewrite (map_app _ base_licenses), !map_app, !map_map. eexists (_ ++ _). rewrite <- app_assoc. reflexivity.
Qed.
Lemma license_name_idem x : license_name (license_name x) = license_name x.
Proof. unfold license_name. rewrite map_map. apply map_ext. intros c. unfold under. destruct (existsb (Ascii.eqb c) _) eqn:X; [reflexivity|]. rewrite X. reflexivity. Qed.
Lemma release_last ids s x a b : distinct_spellings ids -> no_status ids = true -> ids = a ++ x :: b -> release_status (license_name x) = s -> s <> txt "special" ->
  forallb (fun i => negb (text_eqb (release_status (license_name i)) s)) b = true -> read_release ids s = Ok x.
Proof.
  intros D C E S0 NS F. unfold read_release. change (map _ (release_dict ids)) with (release_pairs ids).
  assert (L : dget text_dec s (flip_dict (release_pairs ids)) = Some (license_name x)).
  { apply flip_dict_get. destruct (release_pairs_eq ids D C) as (pre & ->). rewrite E, map_app. cbn [map]. rewrite S0, app_assoc.
    eexists _, (Some (license_name x), TName s), _. split; [reflexivity|]. split; [constructor; exact NS|].
    intros e' k' I G. apply in_map_iff in I as (i & <- & I). rewrite forallb_forall in F. specialize (F i I). inversion G; subst. rewrite H2, text_eqb_refl in F. discriminate F. }
  rewrite L. apply (license_of ids (license_name x) x D).
  - destruct x; [|discriminate]. exfalso. destruct D as (_ & _ & _ & D). apply D. rewrite E. apply in_or_app. right. left. reflexivity.
  - right. split; [rewrite E; apply in_or_app; right; left; reflexivity|]. apply same_spelling_name. apply license_name_idem.
Qed.
(** The last licence with the status. *)
Fixpoint from_last (f : text -> bool) (ids : list text) : option (list text * text * list text) :=
  match ids with
  | [] => None
  | i :: r => match from_last f r with
              | Some (a, x, b) => Some (i :: a, x, b)
              | None => if f i then Some ([], i, r) else None
              end
  end.
Lemma from_last_none f ids : from_last f ids = None -> forallb (fun i => negb (f i)) ids = true.
Proof. induction ids as [|i ids IH]; [reflexivity|]. cbn. destruct (from_last f ids) as [[[a x] b]|]; [discriminate|]. destruct (f i); [discriminate|]. intros _. exact (IH eq_refl). Qed.
Lemma from_last_some f ids : forall a x b, from_last f ids = Some (a, x, b) -> ids = a ++ x :: b /\ f x = true /\ forallb (fun i => negb (f i)) b = true.
Proof.
  induction ids as [|i ids IH]; [discriminate|]. intros a x b. cbn. destruct (from_last f ids) as [[[a' x'] b']|] eqn:E.
  - intros H. injection H as <- <- <-. destruct (IH _ _ _ eq_refl) as (-> & F & B). repeat split; assumption.
  - destruct (f i) eqn:F; [|discriminate]. intros H. injection H as <- <- <-. repeat split; [exact F|]. exact (from_last_none f _ E).
Qed.
Lemma release_found ids s x : distinct_spellings ids -> no_status ids = true -> s <> txt "special" ->
  match from_last (fun i => text_eqb (release_status (license_name i)) s) ids with Some (_, y, _) => text_eqb x y | None => false end = true -> read_release ids s = Ok x.
Proof.
  intros D C NS H. destruct (from_last _ ids) as [[[a y] b]|] eqn:E; [|discriminate H]. apply text_eqb_eq in H as <-. destruct (from_last_some _ _ _ _ _ E) as (E1 & F & B).
  apply (release_last ids s x a b D C E1); [apply text_eqb_eq; exact F|exact NS|exact B].
Qed.
(** The licence read for each status. *)
Theorem C80_read :
  read_release license_ids (txt "open") = Ok (txt "CC0-1.0") /\ read_release license_ids (txt "closed") = Ok (txt "CC-BY-ND-4.0")
  /\ read_release license_ids (txt "partial") = Ok (txt "ZPL-2.1").
Proof.
  assert (C : no_status license_ids = true) by (vm_compute; reflexivity).
  split; [|split]; (apply release_found; [exact license_ids_distinct|exact C|discriminate|vm_compute; reflexivity]).
Qed.
Lemma called_cases i : called_for i = txt "open" \/ called_for i = txt "closed" \/ called_for i = txt "partial".
Proof.
  unfold called_for. destruct (words i) as [|w l]; [right; right; reflexivity|]. destruct (text_eqb w _ || text_eqb w _)%bool; [|right; right; reflexivity].
  destruct (existsb (text_eqb (txt "ND")) (w :: l)); [right; left; reflexivity|]. destruct (existsb (text_eqb (txt "NC")) (w :: l) || _)%bool; [right; right; reflexivity|left; reflexivity].
Qed.
(** A survey's licence is written as a release status; the licence read back calls for the same status. *)
Theorem C80_status : forall i, In i license_ids -> exists s x, status_of license_ids i = Ok s /\ s = called_for i /\
  read_release license_ids s = Ok x /\ In x license_ids /\ status_of license_ids x = Ok s.
Proof.
  intros i I. exists (called_for i). rewrite (C73_release_status i I). destruct C80_read as (O & C & P).
  pose proof (called_cases i) as K.
  assert (M : forall x, existsb (text_eqb x) license_ids = true -> In x license_ids) by (intros x H; apply existsb_exists in H as (y & Y & E); apply text_eqb_eq in E as ->; exact Y).
  destruct K as [K|[K|K]]; rewrite K.
  - assert (IX : In (txt "CC0-1.0") license_ids) by (apply M; vm_compute; reflexivity). exists (txt "CC0-1.0"). refine (conj eq_refl (conj eq_refl (conj O (conj IX _)))). rewrite (C73_release_status _ IX). reflexivity.
  - assert (IX : In (txt "CC-BY-ND-4.0") license_ids) by (apply M; vm_compute; reflexivity). exists (txt "CC-BY-ND-4.0"). refine (conj eq_refl (conj eq_refl (conj C (conj IX _)))). rewrite (C73_release_status _ IX). reflexivity.
  - assert (IX : In (txt "ZPL-2.1") license_ids) by (apply M; vm_compute; reflexivity). exists (txt "ZPL-2.1"). refine (conj eq_refl (conj eq_refl (conj P (conj IX _)))). rewrite (C73_release_status _ IX). reflexivity.
Qed.
Lemma Ok_text (a b : text) : Ok a = Ok b -> a = b.
Proof. congruence. Qed.
(** The licence itself is kept for three licences only. *)
Theorem C80_licence_kept : forall i s, In i license_ids -> status_of license_ids i = Ok s ->
  read_release license_ids s = Ok i <-> (i = txt "CC0-1.0" \/ i = txt "CC-BY-ND-4.0" \/ i = txt "ZPL-2.1").
Proof.
  intros i s I S0. rewrite (C73_release_status i I) in S0. apply (f_equal (fun r => match r with Ok x => x | Err _ => [] end)) in S0. cbn in S0. subst s.
  destruct C80_read as (O & C & P).
  pose proof (called_cases i) as K.
  split.
  - intros R. destruct K as [K|[K|K]]; rewrite K in R; [rewrite O in R|rewrite C in R|rewrite P in R]; apply Ok_text in R; rewrite <- R; [left|right; left|right; right]; reflexivity.
  - intros [->|[->| ->]]; [exact O|exact C|exact P].
Qed.
Example C80_hyp : status_of license_ids (txt "CC-BY-4.0") = Ok (txt "open") /\ In (txt "CC-BY-4.0") license_ids /\ called_for (txt "MIT") = txt "partial".
Proof.
  assert (I : In (txt "CC-BY-4.0") license_ids).
  { assert (H : existsb (text_eqb (txt "CC-BY-4.0")) license_ids = true) by (vm_compute; reflexivity). apply existsb_exists in H as (y & Y & E). apply text_eqb_eq in E as ->. exact Y. }
  split; [rewrite (C73_release_status _ I); reflexivity|]. split; [exact I|reflexivity].
Qed.

(** ** C54 *)
Lemma pairs_text_colon kvs : kvs <> [] -> has_char ":" (pairs_text kvs) = true.
Proof.
  intros NE. apply has_char_In. destruct kvs as [|[k v] kvs]; [congruence|]. destruct kvs as [|kv2 kvs].
  - change (pairs_text [(k, v)]) with (pair_text (k, v)). rewrite pair_text_eq. apply in_or_app. right. left. reflexivity.
  - rewrite pairs_text_cons by discriminate. apply in_or_app. left. rewrite pair_text_eq. apply in_or_app. right. left. reflexivity.
Qed.
(** Up to 21 pairs of keys and values written as a comment are read back exactly, in order. *)
Theorem C54_pairs kvs : kvs <> [] -> (List.length kvs <= 21)%nat -> NoDup (map fst kvs) -> good_pairs kvs -> no_author kvs ->
  comment_value (pairs_text kvs) = Ok (CDict (as_comment kvs)).
Proof.
  intros NE L ND G NA. unfold comment_value. rewrite (pairs_text_colon kvs NE), (parse_pairs 21 kvs [] G NA NE), firstn_all2 by exact L. rewrite fold_dset_new by exact ND. reflexivity.
Qed.
(** The comment made from metadata has exactly the values that are set. *)
Theorem C54_written get parts : dict_comment get parts = pairs_text (set_values get parts).
Proof.
  unfold dict_comment. f_equal. induction parts as [|p parts IH]; [reflexivity|]. cbn [flat_map set_values]. destruct (get p) as [[|c v]|]; cbn [nonempty app]; rewrite IH; reflexivity.
Qed.
Lemma NoDup_front (a b : list text) : NoDup (a ++ b) -> NoDup a.
Proof. induction a as [|x a IH]; intros H; [constructor|]. cbn in H. inversion H; subst. constructor; [intros I; apply H2; apply in_or_app; left; exact I|exact (IH H3)]. Qed.
(** After 21 pairs the rest is lost. *)
Theorem C54_many_refuted kvs : (21 < List.length kvs)%nat -> NoDup (map fst kvs) -> good_pairs kvs -> no_author kvs ->
  comment_value (pairs_text kvs) = Ok (CDict (as_comment (firstn 21 kvs))).
Proof.
  intros L ND G NA. assert (NE : kvs <> []) by (destruct kvs; [cbn in L; lia|discriminate]). unfold comment_value. rewrite (pairs_text_colon kvs NE), (parse_pairs 21 kvs [] G NA NE). rewrite fold_dset_new; [reflexivity|].
  cbn [map app]. rewrite <- (firstn_skipn 21 kvs), map_app in ND. exact (NoDup_front _ _ ND).
Qed.
Definition word : text -> bool := fun s => (nonempty s && forallb (fun c => negb (is_space c) && negb (Ascii.eqb c ":") && negb (Ascii.eqb c ","))%bool s)%bool.
Lemma word_good s : word s = true -> good_key s.
Proof.
  unfold word. intros H. apply andb_prop in H as [N F]. rewrite forallb_forall in F. assert (G : forall c, In c s -> is_space c = false /\ c <> ":"%char /\ c <> ","%char).
  { intros c I. specialize (F c I). apply andb_prop in F as [F F3]. apply andb_prop in F as [F1 F2]. apply negb_true_iff in F1, F2, F3. apply Ascii.eqb_neq in F2, F3. tauto. }
  split; [split; [destruct s; discriminate|split]|split].
  - intros c r ->. exact (proj1 (G c (or_introl eq_refl))).
  - intros r c ->. apply G. apply in_or_app. right. left. reflexivity.
  - intros I. destruct (G _ I) as (_ & X & _). congruence.
  - intros I. destruct (G _ I) as (_ & _ & X). congruence.
Qed.
Lemma words_good kvs : forallb (fun kv => word (fst kv) && word (snd kv))%bool kvs = true -> good_pairs kvs.
Proof.
  induction kvs as [|[k v] kvs IH]; [split; constructor|]. intros H. cbn [forallb fst snd] in H. apply andb_prop in H as [H1 H]. apply andb_prop in H1 as [K V]. destruct (IH H) as [GK GV].
  apply word_good in K, V. split; cbn [map fst snd good_values]; [constructor; assumption|]. destruct V as (W & C & M). repeat split; try assumption; try (intros _; exact M); apply W.
Qed.
Definition numbered (n : nat) : list (text * text) := map (fun i => (txt "k" ++ show_nat (Z.of_nat i), txt "v" ++ show_nat (Z.of_nat i))) (seq 0 n).
Example C54_pairs_hyp :
  let kvs := [(txt "name", txt "Kelly, Sam"); (txt "x", txt "1")] in let ok := [(txt "id", txt "mt01"); (txt "author", txt "Sam K"); (txt "note", txt "a, b")] in
  comment_value (pairs_text ok) = Ok (CDict (as_comment ok)) /\ good_pairs ok /\ no_author ok /\ NoDup (map fst ok) /\ comment_value (pairs_text kvs) <> Ok (CDict (as_comment kvs)).
Proof.
  cbn zeta. split; [vm_compute; reflexivity|]. split; [|split; [right; repeat constructor|split; [repeat (constructor; [cbn; intros H; repeat (destruct H as [H|H]; [discriminate H|]); exact H|]); constructor|vm_compute; discriminate]]].
  pose proof (words_good [(txt "id", txt "mt01"); (txt "author", txt "x"); (txt "note", txt "x")] eq_refl) as [G _]. split; [exact G|].
  cbn [map snd good_values]. repeat split; try discriminate; try (intros I; cbn in I; repeat (destruct I as [I|I]; [discriminate I|]); exact I); try (intros _ I; cbn in I; repeat (destruct I as [I|I]; [discriminate I|]); exact I);
    try (intros c r E; apply (f_equal (fun l => hd "000"%char l)) in E; cbn in E; subst c; reflexivity); try (intros r c E; apply (f_equal (fun l => last l "000"%char)) in E; rewrite last_last in E; cbn in E; subst c; reflexivity); congruence.
Qed.
Example C54_many_hyp : let kvs := numbered 22 in good_pairs kvs /\ no_author kvs /\ (21 < List.length kvs)%nat.
Proof. cbn zeta. split; [apply words_good; vm_compute; reflexivity|]. split; [left; apply Forall_forall; intros kv I; revert kv I; apply Forall_forall; vm_compute; repeat constructor|apply Nat.leb_le; reflexivity]. Qed.
