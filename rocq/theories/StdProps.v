(** C153: the tables of metadata standards. *)
From Verif Require Import PyBase PyText StdModel StdSpec.
From Coq Require Import Lia.
Local Open Scope string_scope.
Local Open Scope list_scope.

Lemma dset_keys {V} n (c : V) r : In n (map fst r) -> map fst (dset text_dec n c r) = map fst r.
Proof.
  induction r as [|[k v] r IH]; [intros []|]. cbn [map fst dset]. intros H. destruct (text_dec n k) as [E|E]; [reflexivity|]. cbn [map fst]. rewrite IH; [reflexivity|].
  destruct H as [H|H]; [congruence|exact H].
Qed.
Lemma dget_dset_same {V} n (c : V) r : dget text_dec n (dset text_dec n c r) = Some c.
Proof.
  induction r as [|[k v] r IH]; cbn [dset dget].
  - destruct (text_dec n n); [reflexivity|congruence].
  - destruct (text_dec n k) as [E|E]; cbn [dget]; destruct (text_dec n k); congruence.
Qed.
Lemma dget_dset_other {V} n m (c : V) r : n <> m -> dget text_dec m (dset text_dec n c r) = dget text_dec m r.
Proof.
  intros N. induction r as [|[k v] r IH]; cbn [dset dget].
  - destruct (text_dec m n); [congruence|reflexivity].
  - destruct (text_dec n k) as [E|E]; cbn [dget]; destruct (text_dec m k); congruence.
Qed.
Lemma dget_in {V} n (k : V) d : NoDup (map fst d) -> In (n, k) d -> dget text_dec n d = Some k.
Proof.
  induction d as [|[m v] d IH]; [intros _ []|]. cbn [map fst dget]. intros D H. inversion D as [|? ? N D']; subst. destruct H as [H|H].
  - injection H as -> ->. destruct (text_dec n n); congruence.
  - destruct (text_dec n m) as [E|E]; [|exact (IH D' H)]. exfalso. apply N. subst m. exact (in_map fst _ _ H).
Qed.
Lemma join_printed l : printed (VItems l) (join (txt ",") l).
Proof.
  induction l as [|t l IH]; [constructor|]. destruct l as [|u l]; [constructor|]. exact (p_items t u l _ IH).
Qed.
Lemma firstn_cut n t : cut n t (firstn n t).
Proof. split; [exists (skipn n t); symmetry; apply firstn_skipn|apply firstn_length]. Qed.
Lemma cell_shows k v c : to_cell k (cleaned v) = Ok c -> shows k v c.
Proof.
  destruct k as [n|], v as [|b|t|[|i l]|t]; cbn [cleaned to_cell]; intros E; try discriminate E; injection E as <-.
  - exact (s_text n _ [] _ p_none (firstn_cut n [])).
  - destruct b; [exact (s_text n _ _ _ p_true (firstn_cut n _))|exact (s_text n _ _ _ p_false (firstn_cut n _))].
  - exact (s_text n _ _ _ (p_text t) (firstn_cut n t)).
  - exact (s_text n _ [] _ p_no_item (firstn_cut n [])).
  - exact (s_text n _ _ _ (join_printed (i :: l)) (firstn_cut n _)).
  - exact (s_text n _ _ _ (p_other t) (firstn_cut n t)).
  - constructor.
Qed.
Lemma cell_ok k v : (k = KBool -> exists b, v = VBool b) -> exists c, to_cell k (cleaned v) = Ok c.
Proof.
  intros H. destruct k as [n|]; [destruct v as [|b|t|[|i l]|t]; eexists; reflexivity|]. destruct (H eq_refl) as [b ->]. eexists. reflexivity.
Qed.
Lemma zeros_keys dt : map fst (zeros dt) = map fst dt.
Proof. unfold zeros. rewrite map_map. reflexivity. Qed.
Lemma zeros_get dt n : dget text_dec n (zeros dt) = match dget text_dec n dt with None => None | Some (KText _) => Some (CText []) | Some KBool => Some (CBool false) end.
Proof.
  induction dt as [|[m k] dt IH]; [reflexivity|]. cbn [zeros map fst snd dget]. destruct (text_dec n m); [destruct k; reflexivity|exact IH].
Qed.
Lemma put_does dt n k v c r : dget text_dec n dt = Some k -> to_cell k v = Ok c -> put dt n v r = Ok (dset text_dec n c r).
Proof. intros E F. unfold put. rewrite E, F. reflexivity. Qed.
Lemma put_text dt n w t r : dget text_dec n dt = Some (KText w) -> put dt n (VText t) r = Ok (dset text_dec n (CText (firstn w t)) r).
Proof. intros E. exact (put_does dt n (KText w) (VText t) _ r E eq_refl). Qed.
Lemma keys_put (dt : dtype) n (c : cell) (r : row) : map fst r = map fst dt -> In n (map fst dt) -> map fst (dset text_dec n c r) = map fst dt.
Proof. intros K H. rewrite dset_keys; [exact K|rewrite K; exact H]. Qed.
Lemma fill_does dt s : NoDup (map fst dt) -> forall part r, NoDup (map fst part) -> incl part dt -> map fst r = map fst dt ->
  (forall n k, In (n, k) part -> exists v, dget text_dec n s = Some v /\ (k = KBool -> exists b, v = VBool b)) ->
  exists r', fill dt (map fst part) s r = Ok r' /\ map fst r' = map fst dt /\ (forall n, ~ In n (map fst part) -> dget text_dec n r' = dget text_dec n r) /\
    forall n k, In (n, k) part -> exists v c, dget text_dec n s = Some v /\ dget text_dec n r' = Some c /\ shows k v c.
Proof.
  intros D part. induction part as [|[n k] part IH]; intros r P I K H.
  - exists r. split; [reflexivity|]. split; [exact K|]. split; [reflexivity|intros ? ? []].
  - inversion P as [|? ? N P']; subst. cbn [map fst fill] in *. destruct (H n k (or_introl eq_refl)) as (v & G & B). destruct (cell_ok k v B) as [c C].
    assert (Q : In (n, k) dt) by (apply I; left; reflexivity).
    rewrite G, (put_does dt n k _ c r (dget_in n k dt D Q) C). cbn [bindR].
    assert (K' : map fst (dset text_dec n c r) = map fst dt) by (rewrite dset_keys; [exact K|]; rewrite K; exact (in_map fst _ _ Q)).
    destruct (IH (dset text_dec n c r) P' (fun x J => I x (or_intror J)) K' (fun m k' J => H m k' (or_intror J))) as (r' & E & KK & O & S).
    exists r'. split; [exact E|]. split; [exact KK|]. split.
    + intros m M. rewrite O; [|intros J; apply M; right; exact J]. apply dget_dset_other. intros <-. apply M. left. reflexivity.
    + intros m k' [J|J]; [|exact (S m k' J)]. injection J as <- <-. exists v, c. split; [exact G|]. split; [|exact (cell_shows k v c C)]. rewrite (O n N). apply dget_dset_same.
Qed.
Lemma row_does dt key s : columns dt -> complete dt s -> exists r, one_row dt (key, s) = Ok r /\ row_for dt key s r.
Proof.
  intros (D & (w & rest & ->) & _) C. unfold one_row. cbn [fst snd]. rewrite (put_does _ (txt "attribute") (KText w) (VText key) (CText (firstn w key))); [|reflexivity|reflexivity].
  cbn [bindR map fst tl]. inversion D as [|? ? N D']; subst.
  destruct (fill_does ((txt "attribute", KText w) :: rest) s D rest (dset text_dec (txt "attribute") (CText (firstn w key)) (zeros ((txt "attribute", KText w) :: rest))) D') as (r & E & K & O & S).
  - intros x J. right. exact J.
  - rewrite dset_keys; [apply zeros_keys|]. rewrite zeros_keys. left. reflexivity.
  - exact C.
  - exists r. split; [exact E|]. split; [exact K|]. split; [|exact S]. intros k G. injection G as <-. eexists. split.
    + rewrite (O (txt "attribute") N). apply dget_dset_same.
    + exact (s_text w _ _ _ (p_text key) (firstn_cut w key)).
Qed.
Lemma rows_do dt d : columns dt -> Forall (fun kv => complete dt (snd kv)) d -> exists rs, mapR (one_row dt) d = Ok rs /\ Forall2 (fun kv r => row_for dt (fst kv) (snd kv) r) d rs.
Proof.
  intros W F. induction F as [|[key s] d C F (rs & E & R)]; [exists []; split; [reflexivity|constructor]|].
  destruct (row_does dt key s W C) as (r & G & S). exists (r :: rs). cbn [mapR]. rewrite G. cbn [bindR]. rewrite E. split; [reflexivity|]. constructor; [exact S|exact R].
Qed.
Lemma version_does dt version : columns dt -> exists r, version_row dt version = Ok r /\ map fst r = map fst dt /\
  forall n k, In (n, k) dt -> exists c, dget text_dec n r = Some c /\
    match dget text_dec n (version_says version) with Some v => shows k v c | None => match k with KText _ => c = CText [] | KBool => c = CBool false end end.
Proof.
  intros (D & (w & rest & A) & (wd & Hd) & (wt & Ht) & (ws & Hs)).
  assert (Ha : In (txt "attribute", KText w) dt) by (rewrite A; left; reflexivity). clear A rest.
  pose proof (dget_in _ _ _ D Ha) as Ga. pose proof (dget_in _ _ _ D Hd) as Gd. pose proof (dget_in _ _ _ D Ht) as Gt. pose proof (dget_in _ _ _ D Hs) as Gs.
  unfold version_row. rewrite (put_text dt _ _ _ _ Ga). cbn [bindR]. rewrite (put_text dt _ _ _ _ Gd). cbn [bindR]. rewrite (put_text dt _ _ _ _ Gt). cbn [bindR]. rewrite (put_text dt _ _ _ _ Gs).
  eexists. split; [reflexivity|].
  assert (Z : forall n k, In (n, k) dt -> In n (map fst dt)) by (intros n k H; exact (in_map fst _ _ H)).
  split; [apply (keys_put dt); [apply (keys_put dt); [apply (keys_put dt); [apply (keys_put dt); [apply zeros_keys|]|]|]|]; eauto|].
  intros n k H. pose proof (dget_in _ _ _ D H) as G.
  destruct (text_dec n (txt "style")) as [->|N1]; [rewrite dget_dset_same; eexists; split; [reflexivity|]; rewrite Gs in G; injection G as <-; exact (s_text ws _ _ _ (p_text _) (firstn_cut ws _))|].
  rewrite dget_dset_other by congruence.
  destruct (text_dec n (txt "type")) as [->|N2]; [rewrite dget_dset_same; eexists; split; [reflexivity|]; rewrite Gt in G; injection G as <-; exact (s_text wt _ _ _ (p_text _) (firstn_cut wt _))|].
  rewrite dget_dset_other by congruence.
  destruct (text_dec n (txt "description")) as [->|N3]; [rewrite dget_dset_same; eexists; split; [reflexivity|]; rewrite Gd in G; injection G as <-; exact (s_text wd _ _ _ (p_text _) (firstn_cut wd _))|].
  rewrite dget_dset_other by congruence.
  destruct (text_dec n (txt "attribute")) as [->|N4]; [rewrite dget_dset_same; eexists; split; [reflexivity|]; rewrite Ga in G; injection G as <-; exact (s_text w _ _ _ (p_text _) (firstn_cut w _))|].
  rewrite dget_dset_other by congruence. rewrite zeros_get, G. unfold version_says. cbn [dget].
  destruct (text_dec n (txt "attribute")); [congruence|]. destruct (text_dec n (txt "description")); [congruence|]. destruct (text_dec n (txt "type")); [congruence|]. destruct (text_dec n (txt "style")); [congruence|].
  destruct k; eexists; split; reflexivity.
Qed.

(** The table has the row of the version and then one for each attribute, in their order, that shows in every column what its standard says, as far as there is room. *)
Theorem C153_rows version dt d : columns dt -> Forall (fun kv => complete dt (snd kv)) d ->
  exists r0 rs, summary_to_array version dt d = Ok (r0 :: rs) /\ Forall2 (fun kv r => row_for dt (fst kv) (snd kv) r) d rs /\ map fst r0 = map fst dt /\
    forall n k, In (n, k) dt -> exists c, dget text_dec n r0 = Some c /\
      match dget text_dec n (version_says version) with Some v => shows k v c | None => match k with KText _ => c = CText [] | KBool => c = CBool false end end.
Proof.
  intros W F. destruct (version_does dt version W) as (r0 & E & V). destruct (rows_do dt d W F) as (rs & G & R). exists r0, rs. unfold summary_to_array. rewrite E. cbn [bindR]. rewrite G. split; [reflexivity|]. split; [exact R|exact V].
Qed.
Lemma printed_one v w : printed v w -> forall w', printed v w' -> w = w'.
Proof.
  intros P. induction P; intros w' P'; inversion P'; subst; try reflexivity. f_equal. f_equal. apply IHP. assumption.
Qed.
(** What there is room for is shown whole; of what there is not the beginning, exactly as much as the column is wide. *)
Theorem C153_room n v w t : shows (KText n) v (CText t) -> printed v w -> (length w <= n -> t = w) /\ (n < length w -> length t = n /\ t <> w).
Proof.
  intros S P. inversion S as [? ? w' ? P' [[rest R] L]|]; subst. pose proof (printed_one _ _ P _ P') as ->. rewrite app_length in L. split; intros H; rewrite app_length in H.
  - destruct rest; [rewrite app_nil_r; reflexivity|]. cbn [length] in *. lia.
  - split; [lia|]. intros E. apply (f_equal (@length ascii)) in E. rewrite app_length in E. lia.
Qed.
Lemma fill_missing dt s m : NoDup (map fst dt) -> (forall n v, In (n, KBool) dt -> dget text_dec n s = Some v -> exists b, v = VBool b) -> dget text_dec m s = None ->
  forall part r, incl part dt -> In m (map fst part) -> fill dt (map fst part) s r = Err KeyError.
Proof.
  intros D B M part. induction part as [|[n k] part IH]; intros r I H; [destruct H|]. cbn [map fst fill] in *. destruct (dget text_dec n s) as [v|] eqn:G; [|reflexivity].
  assert (Q : In (n, k) dt) by (apply I; left; reflexivity). destruct (cell_ok k v) as [c C]; [intros ->; exact (B n v Q G)|].
  rewrite (put_does dt n k _ c r (dget_in n k dt D Q) C). cbn [bindR]. apply IH; [intros x J; apply I; right; exact J|]. destruct H as [H|H]; [congruence|exact H].
Qed.
(** A standard that says nothing of a column, not even None, raises KeyError and there is no table at all. *)
Theorem C153_missing version dt a key s b m : columns dt -> Forall (fun kv => complete dt (snd kv)) a -> In m (map fst (tl dt)) -> dget text_dec m s = None ->
  (forall n v, In (n, KBool) dt -> dget text_dec n s = Some v -> exists t, v = VBool t) -> summary_to_array version dt (a ++ (key, s) :: b) = Err KeyError.
Proof.
  intros W F H M B. destruct (version_does dt version W) as (r0 & E & _). unfold summary_to_array. rewrite E. cbn [bindR].
  assert (X : mapR (one_row dt) (a ++ (key, s) :: b) = Err KeyError); [|rewrite X; reflexivity].
  induction F as [|[key' s'] a C F IH].
  - cbn [app mapR]. destruct W as (D & (w & rest & ->) & _). unfold one_row. cbn [fst snd]. rewrite (put_does _ (txt "attribute") (KText w) (VText key) (CText (firstn w key))); [|reflexivity|reflexivity].
    cbn [bindR map fst tl] in *. rewrite (fill_missing ((txt "attribute", KText w) :: rest) s m D B M rest _ (fun x J => or_intror J) H). reflexivity.
  - cbn [app mapR]. destruct (row_does dt key' s' W C) as (r & G & _). rewrite G. cbn [bindR]. rewrite IH. reflexivity.
Qed.
(** Without a column for the names of the attributes it is a ValueError, whatever the standards. *)
Theorem C153_no_names version dt d : ~ In (txt "attribute") (map fst dt) -> summary_to_array version dt d = Err ValueError.
Proof.
  intros N. unfold summary_to_array, version_row, put at 1. replace (dget text_dec (txt "attribute") dt) with (@None kind); [reflexivity|].
  induction dt as [|[m k] dt IH]; [reflexivity|]. cbn [dget map fst In] in *. destruct (text_dec (txt "attribute") m) as [E|E]; [exfalso; apply N; left; symmetry; exact E|]. apply IH. intros H. apply N. right. exact H.
Qed.
Example C153_no_names_hyp : ~ In (txt "attribute") (map fst [(txt "type", KText 15)]).
Proof. cbn. intuition discriminate. Qed.
(** The columns there are if none are given. *)
Theorem C153_columns : columns SUMMARIZE_DTYPE /\ length SUMMARIZE_DTYPE = 10.
Proof.
  split; [|reflexivity]. split; [|split; [do 2 eexists; reflexivity|]].
  - cbn. repeat constructor; cbn; intuition discriminate.
  - split; [|split]; eexists; cbn [In SUMMARIZE_DTYPE]; intuition reflexivity.
Qed.
(** Which table is returned, and when a file is written.  Anything but "array" gives a data frame if there is a name for a file; with no name, or an empty one, it is an UnboundLocalError unless the type is "dataframe" and there is none. *)
Theorem C153_outcome version d fn out dt :
  (out = txt "array" -> forall rs, snd (summarize_standards version d fn out dt) = Ok (Array rs) <-> summary_to_array version dt d = Ok rs) /\
  (out = txt "dataframe" -> fn = None -> forall rs, snd (summarize_standards version d fn out dt) = Ok (Frame rs) <-> summary_to_array version SUMMARIZE_DTYPE d = Ok rs) /\
  (out <> txt "array" -> forall f, f <> [] -> fn = Some f -> forall rs, snd (summarize_standards version d fn out dt) = Ok (Frame rs) <-> summary_to_array version SUMMARIZE_DTYPE d = Ok rs) /\
  (out <> txt "array" -> (fn = None /\ out <> txt "dataframe" \/ fn = Some []) -> snd (summarize_standards version d fn out dt) = Err UnboundLocalError).
Proof.
  unfold summarize_standards, text_eqb, summary_to_dataframe. split; [|split; [|split]].
  - intros -> rs. destruct (text_dec (txt "array") (txt "array")); [|congruence]. cbn [snd]. destruct (summary_to_array version dt d) as [x|]; cbn [bindR]; split; intros E; congruence.
  - intros -> -> rs. destruct (text_dec (txt "dataframe") (txt "array")) as [X|_]; [discriminate X|]. destruct (text_dec (txt "dataframe") (txt "dataframe")); [|congruence]. cbn [snd].
    destruct (summary_to_array version SUMMARIZE_DTYPE d) as [x|]; cbn [bindR]; split; intros E; congruence.
  - intros N f Nf -> rs. destruct (text_dec out (txt "array")); [congruence|]. destruct f; [congruence|]. destruct (summary_to_array version SUMMARIZE_DTYPE d) as [x|]; cbn [snd]; split; intros E; congruence.
  - intros N H. destruct (text_dec out (txt "array")); [congruence|]. destruct H as [[-> H]| ->]; [destruct (text_dec out (txt "dataframe")); [congruence|]|]; reflexivity.
Qed.
(** A file is written exactly if the type is not "array", its name is not empty and there is a table; in it is the table that is returned. *)
Theorem C153_file version d fn out dt f rs : fst (summarize_standards version d fn out dt) = Some (f, rs) <->
  out <> txt "array" /\ f <> [] /\ fn = Some f /\ snd (summarize_standards version d fn out dt) = Ok (Frame rs).
Proof.
  unfold summarize_standards, text_eqb. destruct (text_dec out (txt "array")) as [->|N]; [cbn [fst]; split; [discriminate|intros [X _]; congruence]|].
  destruct fn as [[|c g]|].
  - cbn [fst snd]. split; [discriminate|intros (_ & _ & _ & X); discriminate X].
  - destruct (summary_to_dataframe version d) as [x|]; cbn [fst snd].
    + split; [intros E; injection E as <- <-; repeat split; [exact N|discriminate]|intros (_ & _ & E & G); injection E as <-; injection G as <-; reflexivity].
    + split; [discriminate|intros (_ & _ & _ & X); discriminate X].
  - split; [destruct (text_dec out (txt "dataframe")); discriminate|intros (_ & _ & X & _); discriminate X].
Qed.
(** The columns asked for count for an array only. *)
Theorem C153_columns_of_frames version d fn out dt dt' : out <> txt "array" -> summarize_standards version d fn out dt = summarize_standards version d fn out dt'.
Proof. intros N. unfold summarize_standards, text_eqb. destruct (text_dec out (txt "array")); [congruence|reflexivity]. Qed.
(** Not so: that a csv file is written if one is specified. *)
Theorem C153_file_refuted : ~ (forall version d f out dt t, f <> [] -> snd (summarize_standards version d (Some f) out dt) = Ok t -> fst (summarize_standards version d (Some f) out dt) <> None).
Proof.
  intros A. destruct (C153_rows [] SUMMARIZE_DTYPE [] (proj1 C153_columns) (Forall_nil _)) as (r0 & rs & E & _).
  refine (A [] [] (txt "x") (txt "array") SUMMARIZE_DTYPE (Array (r0 :: rs)) _ _ eq_refl); [discriminate|]. apply (C153_outcome [] [] (Some (txt "x")) (txt "array") SUMMARIZE_DTYPE); [reflexivity|exact E].
Qed.
(** A standard with some default value and some options. *)
Definition says (options default : value) : standard :=
  [(txt "type", VText (txt "string")); (txt "required", VBool true); (txt "style", VText (txt "free form")); (txt "units", VNone); (txt "description", VText (txt "name")); (txt "options", options); (txt "alias", VText []); (txt "example", VOther (txt "3")); (txt "default", default)].
Lemma says_complete o v : complete SUMMARIZE_DTYPE (says o v).
Proof.
  intros n k H. cbn [tl SUMMARIZE_DTYPE In] in H. repeat (destruct H as [H|H]; [injection H as <- <-; eexists; split; [reflexivity|intros X; try discriminate X; eexists; reflexivity]|]). destruct H.
Qed.
(** Not so: that different standards have different tables.  A list of two options is the same as one with a comma in it. *)
Theorem C153_distinct_refuted : ~ (forall version d d' rs, summary_to_array version SUMMARIZE_DTYPE d = Ok rs -> summary_to_array version SUMMARIZE_DTYPE d' = Ok rs -> d = d').
Proof.
  intros A. set (a := says (VItems [txt "a"; txt "b"]) VNone). set (b := says (VItems [txt "a,b"]) VNone).
  destruct (C153_rows [] SUMMARIZE_DTYPE [(txt "id", a)] (proj1 C153_columns)) as (r0 & rs & E & _); [constructor; [apply says_complete|constructor]|].
  assert (X : summary_to_array [] SUMMARIZE_DTYPE [(txt "id", b)] = summary_to_array [] SUMMARIZE_DTYPE [(txt "id", a)]) by reflexivity.
  specialize (A [] [(txt "id", a)] [(txt "id", b)] (r0 :: rs) E (eq_trans X E)). discriminate A.
Qed.
Example C153_hyp : columns SUMMARIZE_DTYPE /\ complete SUMMARIZE_DTYPE (says (VItems [txt "a"; txt "b"]) (VBool false)) /\
  exists r, one_row SUMMARIZE_DTYPE (txt "station.id", says (VItems [txt "a"; txt "b"]) (VBool false)) = Ok r /\ dget text_dec (txt "options") r = Some (CText (txt "a,b")) /\ dget text_dec (txt "required") r = Some (CBool true) /\ dget text_dec (txt "units") r = Some (CText []) /\
  In (txt "units") (map fst (tl SUMMARIZE_DTYPE)) /\ dget text_dec (txt "units") [(txt "required", VBool true)] = None.
Proof. split; [apply C153_columns|]. split; [apply says_complete|]. eexists. split; [reflexivity|]. repeat split. cbn. intuition reflexivity. Qed.

Print Assumptions C153_rows.
Print Assumptions C153_missing.
Print Assumptions C153_file.
