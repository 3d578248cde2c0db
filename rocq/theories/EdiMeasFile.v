(** Reading back the DEFINEMEAS section. *)
From Coq Require Import Permutation.
From Verif Require Import PyBase PyFacts PyText TextFacts PyNum IsoModel IsoProofs PyFloat PyFloatFacts PyRepr PyReprFacts ValidatorsProofs EdiProofs ZmmModel ZmmProofs XmlProofs EdiMetaModel EdiMetaSpec EdiMetaProofs EdiMetaProps EdiMeasProofs.
Local Open Scope list_scope.

(** ** Lines *)
Lemma readlines_from_line x : forall cur r, ~ In nl x -> readlines_from cur (x ++ nl :: r) = (rev cur ++ x ++ [nl]) :: readlines_from [] r.
Proof.
  induction x as [|c x IH]; intros cur r N; [reflexivity|]. cbn [app readlines_from]. destruct (Ascii.eqb_spec c nl) as [->|D]; [contradiction N; left; reflexivity|].
  rewrite IH by (intros I; apply N; right; exact I). cbn [rev]. rewrite <- app_assoc. reflexivity.
Qed.
Definition is_line (l : text) : Prop := exists x, l = x ++ [nl] /\ ~ In nl x.
Lemma readlines_concat ls : Forall is_line ls -> readlines (concat ls) = ls.
Proof.
  induction 1 as [|l ls (x & -> & N) F IH]; [reflexivity|]. cbn [concat]. rewrite <- app_assoc. unfold readlines in *. cbn [app]. rewrite readlines_from_line by exact N. rewrite IH. reflexivity.
Qed.
Lemma edi_line_id s : (forall c, In c s -> ~ mark c) -> edi_line s = s.
Proof.
  intros H. assert (A : forall c, mark c -> replace_char c [] s = s) by (intros c M; apply replace_char_absent; intros I; exact (H c I M)).
  unfold edi_line. rewrite (A quote_char) by (right; right; right; left; reflexivity). rewrite (A "'"%char) by (right; right; left; reflexivity).
  rewrite (A "["%char) by (right; right; right; right; left; reflexivity). apply A. right; right; right; right; right; left; reflexivity.
Qed.
Lemma edi_line_id2 s : (forall c, In c s -> c = ">"%char \/ ~ mark c) -> edi_line s = s.
Proof.
  intros H. assert (A : forall c, mark c -> c <> ">"%char -> replace_char c [] s = s) by (intros c M N; apply replace_char_absent; intros I; destruct (H c I); contradiction).
  unfold edi_line. rewrite (A quote_char) by (discriminate || (right; right; right; left; reflexivity)). rewrite (A "'"%char) by (discriminate || (right; right; left; reflexivity)).
  rewrite (A "["%char) by (discriminate || (right; right; right; right; left; reflexivity)). apply A; [right; right; right; right; right; left; reflexivity|discriminate].
Qed.
Lemma field_chars kv c : good_field kv -> In c (field (fst kv) (snd kv)) -> ~ mark c /\ c <> nl.
Proof.
  intros [((_ & KS) & _ & KM) ((_ & VS) & VM & _)] I. unfold field in I. apply in_app_or in I as [I|[<-|I]].
  - split; [exact (KM c I)|]. intros ->. destruct (KS _ I) as [X _]. discriminate X.
  - split; [|discriminate]. intros M. repeat (destruct M as [M|M]; [discriminate M|]). contradiction M.
  - split; [exact (VM c I)|]. intros ->. destruct (VS _ I) as [X _]. discriminate X.
Qed.
Lemma meas_line_shape m : good_meas m -> exists k r, write_meas_line m = ">"%char :: k :: r ++ [nl] /\ k <> "="%char /\ (forall c, In c (k :: r) -> ~ mark c /\ c <> nl) /\ contains (txt "meas") (lower (write_meas_line m)) = true.
Proof.
  intros G. pose proof (good_fields m G) as F. rewrite meas_line_fields, tag_line by apply meas_fields_ne.
  assert (SP : forall c, In c (txt " ") -> ~ mark c /\ c <> nl) by (intros c [<-|[]]; split; [intros M; repeat (destruct M as [M|M]; [discriminate M|]); contradiction M|discriminate]).
  assert (J : forall c, In c (join (txt " ") (map (fun kv => field (fst kv) (snd kv)) (meas_fields m))) -> ~ mark c /\ c <> nl).
  { intros c I. apply join_In in I as [I|(w & I & IC)]; [exact (SP c I)|]. apply in_map_iff in I as (kv & <- & I). rewrite Forall_forall in F. exact (field_chars kv c (F kv I) IC). }
  set (j := join (txt " ") _) in *. clearbody j.
  exists (if m then "H" else "E")%char, (txt "MEAS " ++ j). split; [destruct m; reflexivity|split; [destruct m; discriminate|split]].
  - intros c [<-|I]; [|apply in_app_or in I as [I|I]; [|exact (J c I)]].
    + destruct m; split; try discriminate; intros M; repeat (destruct M as [M|M]; [discriminate M|]); contradiction M.
    + cbn in I. repeat (destruct I as [<-|I]; [split; [intros M; repeat (destruct M as [M|M]; [discriminate M|]); contradiction M|discriminate]|]). contradiction I.
  - apply contains_spec. exists (lower (firstn 2 (meas_tag m))), (lower (" "%char :: j ++ [nl])). rewrite lower_app. destruct m; reflexivity.
Qed.
Lemma meas_is_line m : good_meas m -> is_line (write_meas_line m).
Proof.
  intros G. destruct (meas_line_shape m G) as (k & r & E & _ & C & _). exists (">"%char :: k :: r). split; [exact E|]. intros [X|I]; [discriminate X|]. destruct (C _ I) as [_ N]. exact (N eq_refl).
Qed.
Lemma nl_not_mark : ~ mark nl.
Proof. intros M; repeat (destruct M as [M|M]; [discriminate M|]); contradiction M. Qed.
Lemma meas_edi_line m : good_meas m -> edi_line (write_meas_line m) = write_meas_line m.
Proof.
  intros G. destruct (meas_line_shape m G) as (k & r & E & _ & C & _). rewrite E. apply edi_line_id2. intros c [<-|I]; [left; reflexivity|]. right. change (k :: r ++ [nl]) with ((k :: r) ++ [nl]) in I. apply in_app_or in I as [I|[<-|[]]]; [exact (proj1 (C c I))|exact nl_not_mark].
Qed.
Lemma no_char_contains c p s : In c p -> ~ In c s -> contains p s = false.
Proof. intros P N. destruct (contains p s) eqn:E; [|reflexivity]. apply contains_spec in E as (a & b & E). exfalso. apply N. rewrite E. apply in_or_app. right. apply in_or_app. left. exact P. Qed.
(** The steps of get_measurement_lists. *)
Lemma meas_step m r count acc : good_meas m -> measurement_items (write_meas_line m :: r) true count acc = measurement_items r true true (IDict (map lower_key (meas_fields m)) :: acc).
Proof.
  intros G. destruct (meas_line_shape m G) as (k & t & E & K & C & M). cbn [measurement_items].
  assert (GT : ~ In ">"%char (k :: t ++ [nl])). { intros I. change (k :: t ++ [nl]) with ((k :: t) ++ [nl]) in I. apply in_app_or in I as [I|[X|[]]]; [|discriminate X]. destruct (C _ I) as [X _]. apply X. left. reflexivity. }
  assert (NE : contains (txt ">=") (write_meas_line m) = false).
  { rewrite E, contains_cons. apply orb_false_intro; [|apply (no_char_contains ">"%char); [left; reflexivity|exact GT]]. destruct (prefix_of _ _) eqn:P; [|reflexivity]. apply prefix_of_spec in P as [x P]. cbn [app txt list_ascii_of_string] in P. injection P as P _. contradiction. }
  assert (HG : has_char gt (write_meas_line m) = true) by (apply has_char_In; rewrite E; left; reflexivity).
  assert (NB : find (txt "!") (write_meas_line m) = None).
  { apply find_none. intros a b X. assert (I : In "!"%char (write_meas_line m)) by (rewrite X; apply in_or_app; right; left; reflexivity). rewrite E in I. destruct I as [I|I]; [discriminate I|]. change (k :: t ++ [nl]) with ((k :: t) ++ [nl]) in I. apply in_app_or in I as [I|[I|[]]]; [|discriminate I]. destruct (C _ I) as [Y _]. apply Y. right. left. reflexivity. }
  rewrite NE, HG, NB, M. cbn [andb negb]. rewrite (meas_dict m G). reflexivity.
Qed.
Lemma meas_steps ms : Forall good_meas ms -> forall r count acc, measurement_items (map write_meas_line ms ++ r) true count acc =
  measurement_items r true (count || nonempty ms)%bool (rev (map (fun m => IDict (map lower_key (meas_fields m))) ms) ++ acc).
Proof.
  induction 1 as [|m ms G F IH]; intros r count acc; [cbn; rewrite orb_false_r; reflexivity|]. cbn [map app]. rewrite (meas_step m _ _ _ G), IH. cbn [rev nonempty]. rewrite <- app_assoc, orb_true_r. reflexivity.
Qed.
Lemma blank_step l r count acc : blank l -> measurement_items (l :: r) true count acc = measurement_items r true count acc.
Proof.
  intros B. assert (N : forall c, In c l -> is_space c = true) by exact B. assert (NG : ~ In ">"%char l) by (intros I; specialize (N _ I); discriminate N). cbn [measurement_items].
  rewrite (no_char_contains ">"%char (txt ">=") l) by ((left; reflexivity) || exact NG). cbn [andb]. rewrite (proj2 (has_char_notIn gt l) NG). cbn [negb].
  assert (S0 : strip l = []) by (unfold strip; rewrite lstrip_all; [reflexivity|apply forallb_forall; exact N]). rewrite S0. reflexivity.
Qed.
Lemma after_steps ls : after_section ls -> forall count acc, measurement_items ls true count acc = Ok acc.
Proof.
  induction 1 as [|l ls B A IH|l ls G N]; intros count acc; [reflexivity|rewrite (blank_step l ls count acc B); apply IH|].
  cbn [measurement_items]. rewrite G. destruct (contains (txt "definemeas") (lower l)) eqn:D; [|reflexivity]. exfalso. apply N. split; assumption.
Qed.
Lemma before_steps ls : Forall (fun l => ~ starts_section l) ls -> forall r, measurement_items (ls ++ r) false false [] = measurement_items r false false [].
Proof.
  induction 1 as [|l ls N F IH]; intros r; [reflexivity|]. cbn [app measurement_items]. destruct (contains (txt ">=") l) eqn:G.
  - destruct (contains (txt "definemeas") (lower l)) eqn:D; [exfalso; apply N; split; assumption|]. cbn [andb]. apply IH.
  - cbn [andb]. apply IH.
Qed.

(** ** The lines before the measurements *)
Definition attr_line (k v : text) : text := txt "    " ++ field (upper k) v ++ [nl].
Definition attr_keys : list text := map txt ["maxchan"; "maxrun"; "maxmeas"; "reflong"; "refloc"; "reflat"; "reflon"; "refelev"; "reftype"; "units"]%string.
Lemma attr_key k v a : attr_of k v a -> In k attr_keys.
Proof. unfold attr_keys. cbn [map]. intros H. destruct H as [| | | |k v I]; cbn [In] in *; tauto. Qed.
Definition upper_word (k : text) : bool := (2 <? List.length k)%nat && forallb (fun c => is_upper c) (upper k) && text_eqb (lower (upper k)) k.
Lemma attr_key_ok k : In k attr_keys -> upper_word k = true.
Proof. unfold attr_keys. cbn [map]. intros I. repeat (destruct I as [<-|I]; [vm_compute; reflexivity|]). contradiction I. Qed.
Lemma upper_plain c : is_upper c = true -> is_space c = false /\ c <> "="%char /\ ~ mark c /\ c <> nl.
Proof.
  intros H. assert (G : implb (is_upper c) (id_char c && negb (Ascii.eqb c nl)) = true) by (clear; revert c; apply ascii_forall; vm_compute; reflexivity).
  rewrite H in G. cbn [implb] in G. apply andb_prop in G as [G1 G2]. destruct (id_plain c G1) as (A & B & C & _). apply negb_true_iff in G2. split; [exact A|split; [exact B|split; [exact C|]]]. intros ->. rewrite Ascii.eqb_refl in G2. discriminate G2.
Qed.
Lemma strip_rstrip v : strip (rstrip v) = strip v.
Proof.
  destruct (rstrip_decomp v) as (b & E & B). rewrite E at 2. unfold strip. destruct (lstrip (rstrip v)) as [|c r] eqn:L.
  - destruct (lstrip_decomp (rstrip v)) as (a & E2 & A). rewrite L, app_nil_r in E2. rewrite E2. rewrite (lstrip_all (a ++ b)) by (rewrite forallb_app, A, B; reflexivity). reflexivity.
  - rewrite lstrip_app_ne by (rewrite L; discriminate). rewrite L, (rstrip_spaces b _ B). reflexivity.
Qed.
Lemma rstrip_equals k v : forallb (fun c => is_upper c) k = true -> rstrip (k ++ "="%char :: v) = k ++ "="%char :: rstrip v.
Proof.
  intros K. destruct (rstrip v) as [|c r] eqn:R.
  - destruct (rstrip_decomp v) as (b & E & B). rewrite R in E. cbn [app] in E. subst b. change (k ++ "="%char :: v) with (k ++ ["="%char] ++ v). rewrite app_assoc, (rstrip_spaces v _ B). apply rstrip_snoc. reflexivity.
  - change (k ++ "="%char :: v) with (k ++ ["="%char] ++ v). rewrite app_assoc. rewrite rstrip_app_ne by (rewrite R; discriminate). rewrite R, <- app_assoc. reflexivity.
Qed.
Lemma attr_strip k v : forallb (fun c => is_upper c) (upper k) = true -> k <> [] -> strip (attr_line k v) = upper k ++ "="%char :: rstrip v.
Proof.
  intros U N. unfold strip, attr_line. rewrite lstrip_spaces by reflexivity. unfold field, equals. rewrite <- app_assoc. cbn [app]. rewrite lstrip_fixed.
  - rewrite (rstrip_equals (upper k) (v ++ [nl]) U). rewrite rstrip_spaces by reflexivity. reflexivity.
  - intros c r E. destruct k as [|x k]; [contradiction|]. cbn [upper map app forallb] in *. injection E as <- _. apply andb_prop in U as [U _]. exact (proj1 (upper_plain _ U)).
Qed.
Lemma attr_value k v a : attr_of k v a -> good_value v -> line_value (upper k ++ "="%char :: rstrip v) = Ok a.
Proof.
  intros A G. pose proof (attr_key_ok k (attr_key k v a A)) as KO. unfold upper_word in KO. apply andb_prop in KO as [KO LU]. apply andb_prop in KO as [_ U]. apply text_eqb_eq in LU.
  assert (NK : ~ In "="%char (upper k)). { intros I. rewrite forallb_forall in U. destruct (upper_plain _ (U _ I)) as (_ & N & _). exact (N eq_refl). }
  assert (NV : ~ In "="%char (rstrip v)). { intros I. destruct (rstrip_decomp v) as (b & E & _). assert (J : In "="%char v) by (rewrite E; apply in_or_app; left; exact I). destruct (G _ J) as [N _]. exact (N eq_refl). }
  unfold line_value, equals. rewrite split_on_app by exact NK. rewrite split_on_no by exact NV. cbv zeta. rewrite LU, strip_rstrip.
  destruct A as [n|n|n|v|k v I]; try (rewrite (strip_no_space _ (show_int_chars n)), read_int_show; reflexivity); [reflexivity|].
  repeat (destruct I as [<-|I]; [reflexivity|]). contradiction I.
Qed.
Lemma attr_step k v a r acc : attr_of k v a -> good_value v -> measurement_items (attr_line k v :: r) true false acc = measurement_items r true false (ILine (upper k ++ "="%char :: rstrip v) :: acc).
Proof.
  intros A G. pose proof (attr_key_ok k (attr_key k v a A)) as KO. unfold upper_word in KO. apply andb_prop in KO as [KO _]. apply andb_prop in KO as [LK U]. apply Nat.ltb_lt in LK.
  assert (NG : ~ In ">"%char (attr_line k v)).
  { unfold attr_line, field. intros I. apply in_app_or in I as [I|I]; [cbn in I; repeat (destruct I as [I|I]; [discriminate I|]); contradiction I|]. apply in_app_or in I as [I|[I|[]]]; [|discriminate I]. apply in_app_or in I as [I|[I|I]]; [|discriminate I|].
    - rewrite forallb_forall in U. destruct (upper_plain _ (U _ I)) as (_ & _ & M & _). apply M. left. reflexivity.
    - destruct (G _ I) as (_ & _ & M). apply M. left. reflexivity. }
  cbn [measurement_items]. rewrite (no_char_contains ">"%char (txt ">=") (attr_line k v)) by ((left; reflexivity) || exact NG). cbn [andb]. rewrite (proj2 (has_char_notIn gt _) NG). cbn [negb].
  rewrite attr_strip; [|exact U|destruct k; [cbn in LK; lia|discriminate]]. unfold add_line. assert (L2 : (2 <? List.length (upper k ++ "="%char :: rstrip v))%nat = true). { apply Nat.ltb_lt. rewrite app_length. unfold upper. rewrite map_length. lia. }
  rewrite L2. reflexivity.
Qed.
Definition key_lines (keys : list (text * option text)) : list text := flat_map (fun kv => match snd kv with Some v => [attr_line (fst kv) v] | None => [] end) keys.
Definition key_items (keys : list (text * option text)) : list mitem := flat_map (fun kv => match snd kv with Some v => [ILine (upper (fst kv) ++ "="%char :: rstrip v)] | None => [] end) keys.
Lemma key_steps keys l : attrs_of keys l -> forall r acc, measurement_items (key_lines keys ++ r) true false acc = measurement_items r true false (rev (key_items keys) ++ acc).
Proof.
  induction 1 as [|k ks l A IH|k v a ks l A G AS IH]; intros r acc; [reflexivity|exact (IH r acc)|].
  change (key_lines ((k, Some v) :: ks)) with (attr_line k v :: key_lines ks). change (key_items ((k, Some v) :: ks)) with (ILine (upper k ++ "="%char :: rstrip v) :: key_items ks).
  cbn [app]. rewrite (attr_step k v a _ _ A G), IH. cbn [rev]. rewrite <- app_assoc. reflexivity.
Qed.
Lemma attr_line_ok k v a : attr_of k v a -> good_value v -> is_line (attr_line k v) /\ edi_line (attr_line k v) = attr_line k v.
Proof.
  intros A G. pose proof (attr_key_ok k (attr_key k v a A)) as KO. unfold upper_word in KO. apply andb_prop in KO as [KO _]. apply andb_prop in KO as [_ U].
  assert (C : forall c, In c (txt "    " ++ field (upper k) v) -> ~ mark c /\ c <> nl).
  { intros c I. apply in_app_or in I as [I|I]; [cbn in I; repeat (destruct I as [<-|I]; [split; [intros M; repeat (destruct M as [M|M]; [discriminate M|]); contradiction M|discriminate]|]); contradiction I|].
    unfold field in I. apply in_app_or in I as [I|[<-|I]].
    - rewrite forallb_forall in U. destruct (upper_plain _ (U _ I)) as (_ & _ & M & N). split; assumption.
    - split; [intros M; repeat (destruct M as [M|M]; [discriminate M|]); contradiction M|discriminate].
    - destruct (G _ I) as (_ & N & M). split; assumption. }
  split.
  - exists (txt "    " ++ field (upper k) v). split; [unfold attr_line; rewrite app_assoc; reflexivity|]. intros I. destruct (C _ I) as [_ N]. exact (N eq_refl).
  - apply edi_line_id. intros c I. unfold attr_line in I. rewrite app_assoc in I. apply in_app_or in I as [I|[<-|[]]]; [exact (proj1 (C c I))|exact nl_not_mark].
Qed.
Lemma key_lines_ok keys l : attrs_of keys l -> Forall is_line (key_lines keys) /\ map edi_line (key_lines keys) = key_lines keys.
Proof.
  induction 1 as [|k ks l A IH|k v a ks l A G AS [IH1 IH2]]; [split; [constructor|reflexivity]|exact IH|].
  change (key_lines ((k, Some v) :: ks)) with (attr_line k v :: key_lines ks). destruct (attr_line_ok k v a A G) as [X Y]. split; [constructor; assumption|]. cbn [map]. rewrite Y, IH2. reflexivity.
Qed.
(** The lines of the written section. *)
Lemma section_lines keys attrs l : attrs_of keys attrs -> Forall good_meas (numbered l) ->
  map edi_line (readlines (concat (write_measurement keys l))) = [nl] :: (txt ">=DEFINEMEAS" ++ [nl]) :: key_lines keys ++ [[nl]] ++ map write_meas_line (numbered l).
Proof.
  intros A F. destruct (key_lines_ok keys attrs A) as [K1 K2].
  assert (E : concat (write_measurement keys l) = concat ([nl] :: (txt ">=DEFINEMEAS" ++ [nl]) :: key_lines keys ++ [[nl]] ++ map write_meas_line (numbered l))) by reflexivity.
  rewrite E, readlines_concat.
  - cbn [map]. rewrite !map_app. rewrite K2. cbn [map]. rewrite map_map. rewrite (map_ext_in (fun m => edi_line (write_meas_line m)) write_meas_line) by (intros m I; rewrite Forall_forall in F; apply meas_edi_line, F, I).
    reflexivity.
  - constructor; [exists []; split; [reflexivity|intros []]|]. constructor; [exists (txt ">=DEFINEMEAS"); split; [reflexivity|cbn; intros I; repeat (destruct I as [I|I]; [discriminate I|]); contradiction I]|].
    apply Forall_app. split; [exact K1|]. constructor; [exists []; split; [reflexivity|intros []]|]. apply Forall_forall. intros x I. apply in_map_iff in I as (m & <- & I). apply meas_is_line. rewrite Forall_forall in F. exact (F m I).
Qed.
Lemma section_items pre post keys attrs l : Forall (fun s => ~ starts_section s) pre -> after_section post -> attrs_of keys attrs -> Forall good_meas (numbered l) ->
  get_measurement_lists (pre ++ map edi_line (readlines (concat (write_measurement keys l))) ++ post) = Ok (key_items keys ++ map (fun m => IDict (map lower_key (meas_fields m))) (numbered l)).
Proof.
  intros P Q A F. unfold get_measurement_lists. rewrite (before_steps pre P). rewrite (section_lines keys attrs l A F).
  change (([nl] :: (txt ">=DEFINEMEAS" ++ [nl]) :: key_lines keys ++ [[nl]] ++ map write_meas_line (numbered l)) ++ post) with ([nl] :: (txt ">=DEFINEMEAS" ++ [nl]) :: (key_lines keys ++ [[nl]] ++ map write_meas_line (numbered l)) ++ post).
  cbn [measurement_items]. change (contains (txt ">=") [nl]) with false. change (contains (txt ">=") (txt ">=DEFINEMEAS" ++ [nl])) with true. change (contains (txt "definemeas") (lower (txt ">=DEFINEMEAS" ++ [nl]))) with true. cbn [andb].
  repeat rewrite <- app_assoc. rewrite (key_steps keys attrs A). cbn [app]. rewrite blank_step by (intros c [<-|[]]; reflexivity).
  rewrite (meas_steps _ F), (after_steps post Q). cbn [bindR]. rewrite app_nil_r, rev_app_distr, !rev_involutive. reflexivity.
Qed.

(** ** Numbering *)
Lemma insert_by_perm kv l : Permutation (kv :: l) (insert_by kv l).
Proof.
  induction l as [|kv' l IH]; [constructor; constructor|]. cbn [insert_by]. destruct (Qle_bool _ _); [|apply Permutation_refl]. eapply perm_trans; [apply perm_swap|]. constructor. exact IH.
Qed.
Lemma sort_ids_perm l : Permutation l (sort_ids l).
Proof.
  unfold sort_ids. assert (H : forall acc, Permutation (l ++ acc) (fold_left (fun acc kv => insert_by kv acc) l acc)).
  { induction l as [|kv l IH]; intros acc; [apply Permutation_refl|]. cbn [fold_left app]. eapply perm_trans; [|apply IH]. eapply perm_trans; [apply Permutation_middle|]. apply Permutation_app_head. apply insert_by_perm. }
  specialize (H []). rewrite app_nil_r in H. exact H.
Qed.
Lemma number_ids_keys l : forall n, map fst (number_ids n l) = map fst l.
Proof. induction l as [|[k m] l IH]; intros n; [reflexivity|]. cbn [number_ids]. destruct (Qeq_bool _ _); cbn [map fst]; rewrite IH; reflexivity. Qed.
Definition number_for (m : meas) (q : Q) : Prop := (~ (meas_id m == 0)%Q -> q = meas_id m) /\ ((meas_id m == 0)%Q -> exists n : Z, (0 < n)%Z /\ q = inject_Z n).
Lemma number_ids_In l k m : In (k, m) l -> forall n, (0 < n)%Z -> exists q, In (k, q) (number_ids n l) /\ number_for m q.
Proof.
  induction l as [|[k' m'] l IH]; intros I n P; [contradiction I|]. cbn [number_ids]. destruct I as [E|I].
  - injection E as -> ->. destruct (Qeq_bool (meas_id m) 0) eqn:Z.
    + exists (inject_Z n). split; [left; reflexivity|]. split; [intros N; apply Qeq_bool_iff in Z; contradiction|]. intros _. exists n. split; [exact P|reflexivity].
    + exists (meas_id m). split; [left; reflexivity|]. split; [reflexivity|]. intros H. apply Qeq_bool_iff in H. congruence.
  - destruct (Qeq_bool (meas_id m') 0); [destruct (IH I (n + 1)%Z ltac:(lia)) as (q & J & NF)|destruct (IH I n P) as (q & J & NF)]; exists q; (split; [right; exact J|exact NF]).
Qed.
Lemma number_ids_rev l : forall n, (0 < n)%Z -> forall k q, In (k, q) (number_ids n l) -> exists m, In (k, m) l /\ number_for m q.
Proof.
  induction l as [|[k' m'] l IH]; intros n P k q I; [contradiction I|]. cbn [number_ids] in I. destruct (Qeq_bool (meas_id m') 0) eqn:Z; destruct I as [E|I].
  - injection E as <- <-. exists m'. split; [left; reflexivity|]. split; [intros N; apply Qeq_bool_iff in Z; contradiction|]. intros _. exists n. split; [exact P|reflexivity].
  - destruct (IH (n + 1)%Z ltac:(lia) k q I) as (m & J & NF). exists m. split; [right; exact J|exact NF].
  - injection E as <- <-. exists m'. split; [left; reflexivity|]. split; [reflexivity|]. intros H. apply Qeq_bool_iff in H. congruence.
  - destruct (IH n P k q I) as (m & J & NF). exists m. split; [right; exact J|exact NF].
Qed.
Lemma number_meas_may m q : number_for m q -> may_number m (number_meas q m).
Proof.
  intros [N0 N1]. destruct m as [h|e]; cbn [number_meas may_number meas_id] in *; (split; [|split; [|reflexivity]]); cbn [h_id h_acqchan e_id e_acqchan].
  - split; intros H; [destruct (Qeq_bool _ 0) eqn:Z; [apply Qeq_bool_iff in Z; contradiction|reflexivity]|]. rewrite (proj2 (Qeq_bool_iff _ _) H). exact (N1 H).
  - intros H. destruct (text_eqb _ _) eqn:T; [apply text_eqb_eq in T; contradiction|reflexivity].
  - split; intros H; [destruct (Qeq_bool _ 0) eqn:Z; [apply Qeq_bool_iff in Z; contradiction|reflexivity]|]. rewrite (proj2 (Qeq_bool_iff _ _) H). exact (N1 H).
  - intros H. destruct (text_eqb _ _) eqn:T; [apply text_eqb_eq in T; contradiction|reflexivity].
Qed.
Lemma int_decimal n : is_decimal (inject_Z n).
Proof. exists n, 0%Z. cbn. rewrite Qmult_1_r. reflexivity. Qed.
Lemma number_meas_good m q : good_meas m -> number_for m q -> good_meas (number_meas q m).
Proof.
  intros G [N0 N1]. assert (DQ : is_decimal (meas_id m) -> is_decimal q). { intros D. destruct (Qeq_dec (meas_id m) 0) as [Z|Z]; [destruct (N1 Z) as (n & _ & ->); apply int_decimal|rewrite (N0 Z); exact D]. }
  destruct m as [h|e]; cbn [number_meas good_meas meas_id h_id h_chtype h_acqchan e_id e_chtype e_acqchan] in *.
  - destruct G as (I & T & HH & A). split; [destruct (Qeq_bool _ 0); [exact (DQ I)|exact I]|split; [exact T|split; [exact HH|]]]. destruct (text_eqb _ _); [apply show_float_good, DQ, I|exact A].
  - destruct G as (I & T & H1 & H2 & H3 & A). split; [destruct (Qeq_bool _ 0); [exact (DQ I)|exact I]|split; [exact T|split; [exact H1|split; [exact H2|split; [exact H3|]]]]]. destruct (text_eqb _ _); [apply show_float_good, DQ, I|exact A].
Qed.
Lemma number_meas_chtype q m : meas_chtype (number_meas q m) = meas_chtype m.
Proof. destruct m; reflexivity. Qed.
Lemma sorted_keys l : Permutation (map fst l) (map fst (sort_measurements l)).
Proof. rewrite <- (number_ids_keys l 1). apply Permutation_map. apply sort_ids_perm. Qed.
Lemma numbered_eq l : NoDup (map fst l) -> (forall k m, In (k, m) l -> k = lower (meas_chtype m)) -> exists ms, numbered l = ms /\ map (fun m => lower (meas_chtype m)) ms = map fst (sort_measurements l).
Proof.
  intros ND K. eexists. split; [reflexivity|]. unfold numbered. assert (H : forall kq, In kq (sort_measurements l) -> exists m, dget text_dec (fst kq) l = Some m /\ lower (meas_chtype (number_meas (snd kq) m)) = fst kq).
  { intros [k q] I. unfold sort_measurements in I. apply (Permutation_in _ (Permutation_sym (sort_ids_perm _))) in I. destruct (number_ids_rev l 1 ltac:(lia) k q I) as (m & J & _). exists m. split; [apply In_dget; [exact ND|exact J]|]. rewrite number_meas_chtype. symmetry. exact (K k m J). }
  induction (sort_measurements l) as [|kq s IH]; [reflexivity|]. cbn [flat_map map]. destruct (H kq (or_introl eq_refl)) as (m & -> & E). rewrite map_app. cbn [map app]. rewrite E, IH by (intros x I; apply H; right; exact I). reflexivity.
Qed.
Lemma numbered_good l : NoDup (map fst l) -> (forall k m, In (k, m) l -> good_meas m) -> Forall good_meas (numbered l).
Proof.
  intros ND G. apply Forall_forall. intros x I. unfold numbered in I. apply in_flat_map in I as ([k q] & I & J). unfold sort_measurements in I. apply (Permutation_in _ (Permutation_sym (sort_ids_perm _))) in I.
  destruct (number_ids_rev l 1 ltac:(lia) k q I) as (m & Jm & NF). cbn [fst snd] in J. rewrite (In_dget text_dec k m l ND Jm) in J. destruct J as [<-|[]]. apply number_meas_good; [exact (G k m Jm)|exact NF].
Qed.
Lemma numbered_In l k m : NoDup (map fst l) -> In (k, m) l -> exists q, In (number_meas q m) (numbered l) /\ number_for m q.
Proof.
  intros ND I. destruct (number_ids_In l k m I 1 ltac:(lia)) as (q & J & NF). exists q. split; [|exact NF]. unfold numbered. apply in_flat_map. exists (k, q). split; [apply (Permutation_in _ (sort_ids_perm _)); exact J|]. cbn [fst snd]. rewrite (In_dget text_dec k m l ND I). left. reflexivity.
Qed.
