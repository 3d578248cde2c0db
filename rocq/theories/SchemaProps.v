(** C59: the standards dictionary. *)
From Coq Require Import Permutation.
From Verif Require Import PyBase PyFacts PyText TextFacts PyNum PyFloat PyFloatFacts PyRepr JfileModel JfileData ValidatorsModel ValidatorsProofs EdiMetaModel EdiMetaSpec EdiMeasFile SchemaModel SchemaSpec SchemaProofs.
Local Open Scope list_scope.

(** ** The container *)
(** An entry that is set is there, validated, and the others are as they were. *)
Theorem C59_set k v d d' : setitem k v d = Ok d' -> (exists v', validate_entry v = Ok v' /\ getitem k d' = Ok (Entry v')) /\ (forall k', k' <> k -> getitem k' d' = getitem k' d).
Proof.
  unfold setitem. destruct (validate_entry v) as [v'|e] eqn:E; [|discriminate]. cbn [bindR]. intros H. injection H as <-. split.
  - exists v'. split; [reflexivity|]. unfold getitem. rewrite dget_dset_eq. reflexivity.
  - intros k' N. unfold getitem. rewrite dget_dset_neq by exact N. reflexivity.
Qed.
(** A complete entry is stored as it is. *)
Theorem C59_set_good k v d : good_entry v -> exists d', setitem k v d = Ok d' /\ getitem k d' = Ok (Entry v).
Proof. intros G. unfold setitem. rewrite (entry_stable v G). cbn [bindR]. eexists. split; [reflexivity|]. unfold getitem. rewrite dget_dset_eq. reflexivity. Qed.
Definition latitude : entry := mkV (CText (txt "float")) (CBool true) (CText (txt "degrees")) (CText (txt "number")) (CText (txt "latitude of the station")) (CList []) (CList []) (CText (txt "40.5")) (CFloat (81 # 2)).
Definition comment_entry : entry := mkV (CText (txt "string")) (CBool false) CNone (CText (txt "free form")) (CText (txt "any text")) (CList []) (CList []) (CText (txt "none")) CNone.
Definition start_entry : entry := mkV (CText (txt "string")) (CBool false) CNone (CText (txt "date time")) (CText (txt "start")) (CList []) (CList []) (CText (txt "2020-01-01")) (CText (txt "1980-01-01T00:00:00+00:00")).
Lemma field_text_b w : (forallb (fun c => negb (Ascii.eqb c ",") && negb (Ascii.eqb c nl)) w && text_eqb (strip w) w)%bool = true -> field_text w.
Proof. intros H. apply andb_prop in H as [H T]. apply text_eqb_eq in T. rewrite forallb_forall in H. split; [rewrite <- T; apply trimmed_strip|]. split; intros I; specialize (H _ I); discriminate H. Qed.
Lemma attribute_name_b k : (nonempty k && forallb (fun c => is_lower c || existsb (Ascii.eqb c) ["."; "_"]%char) k)%bool = true -> attribute_name k.
Proof.
  intros H. apply andb_prop in H as [NE H]. rewrite forallb_forall in H.
  assert (C : forall c, In c k -> is_space c = false /\ c <> ","%char /\ c <> nl /\ c <> "/"%char /\ is_upper c = false /\ is_digit c = false).
  { intros c I. specialize (H c I). assert (G : implb (is_lower c || existsb (Ascii.eqb c) ["."; "_"]%char) (negb (is_space c) && negb (Ascii.eqb c ",") && negb (Ascii.eqb c nl) && negb (Ascii.eqb c "/") && negb (is_upper c) && negb (is_digit c)) = true) by (clear; revert c; apply ascii_forall; vm_compute; reflexivity).
    rewrite H in G. cbn [implb] in G. repeat (apply andb_prop in G as [G ?X]). repeat match goal with X : negb _ = true |- _ => apply negb_true_iff in X end. repeat split; try assumption; intros ->; discriminate. }
  split; [intros ->; discriminate NE|]. split; [split; [split; intros c r ->; apply C; [left; reflexivity|apply in_or_app; right; left; reflexivity]|split; intros I; destruct (C _ I) as (_ & A & B & _); first [exact (A eq_refl)|exact (B eq_refl)]]|].
  split; [intros I; destruct (C _ I) as (_ & _ & _ & A & _); exact (A eq_refl)|]. split; [intros c I; apply C; exact I|]. intros c r ->. apply C. left. reflexivity.
Qed.
Example C59_good_hyp : good_entry latitude /\ good_entry comment_entry /\ good_entry start_entry /\ attribute_name (txt "location.latitude").
Proof.
  assert (T : In (txt "string") the_types) by (do 2 right; left; reflexivity).
  split; [|split; [|split]].
  - constructor; [right; left; reflexivity|do 3 right; left; reflexivity|apply field_text_b; reflexivity|apply field_text_b; reflexivity| |].
    + constructor; [intros [X|[X|[]]]; discriminate X|]. exists 405%Z, (-1)%Z. reflexivity.
    + right. exists (txt "degrees"). split; [reflexivity|]. split; [reflexivity|]. split; [apply field_text_b; reflexivity|]. intros [X|[X|[X|[]]]]; discriminate X.
  - constructor; [exact T|do 5 right; left; reflexivity|apply field_text_b; reflexivity|apply field_text_b; reflexivity| |left; reflexivity]. constructor. intros [X|[X|[X|[]]]]; discriminate X.
  - constructor; [exact T|do 7 right; left; reflexivity|apply field_text_b; reflexivity|apply field_text_b; reflexivity| |left; reflexivity]. constructor. do 2 right; left; reflexivity.
  - apply attribute_name_b. reflexivity.
Qed.
(** add_dict: the chosen entries are there under the prefixed names, the others are as they were. *)
Lemma update_all kvs : forall d, (forall k v, In (k, v) kvs -> exists v', validate_entry v = Ok v') -> NoDup (map fst kvs) -> exists d', update kvs d = (d', None) /\
  (forall k v, In (k, v) kvs -> exists v', validate_entry v = Ok v' /\ dget text_dec k d' = Some v') /\ (forall k, ~ In k (map fst kvs) -> dget text_dec k d' = dget text_dec k d).
Proof.
  induction kvs as [|[k v] kvs IH]; intros d V ND; [exists d; repeat split; [intros k v []|reflexivity..]|]. cbn [update map fst] in *. inversion ND as [|? ? NI ND']; subst. destruct (V k v (or_introl eq_refl)) as (v' & E). unfold setitem. rewrite E. cbn [bindR].
  destruct (IH (dset text_dec k v' d) (fun k0 v0 I => V k0 v0 (or_intror I)) ND') as (d' & U & A & B). exists d'. split; [exact U|]. split.
  - intros k0 v0 [X|I]; [injection X as <- <-; exists v'; split; [exact E|]; rewrite (B k NI); apply dget_dset_eq|exact (A k0 v0 I)].
  - intros k0 N. rewrite B by (intros I; apply N; right; exact I). apply dget_dset_neq. intros ->. apply N. left. reflexivity.
Qed.
Definition prefixed (prefix k : text) : text := match prefix with [] => k | _ => prefix ++ "."%char :: k end.
Definition chosen (keys : list text) (k : text) : Prop := keys = [] \/ In k keys.
Theorem C59_add_dict add prefix keys d : NoDup (map fst add) -> (forall k v, In (k, v) add -> chosen keys k -> exists v', validate_entry v = Ok v') ->
  exists d', add_dict add prefix keys d = (d', None) /\
    (forall k v, In (k, v) add -> chosen keys k -> exists v', validate_entry v = Ok v' /\ getitem (prefixed prefix k) d' = Ok (Entry v')) /\
    (forall k, (forall k', In k' (map fst add) -> chosen keys k' -> k <> prefixed prefix k') -> getitem k d' = getitem k d).
Proof.
  intros ND V. unfold add_dict. set (a1 := if nonempty keys then _ else add). cbv zeta. set (a2 := if nonempty prefix then map (fun kv => (prefix ++ "."%char :: fst kv, snd kv)) a1 else a1).
  assert (I1 : forall k v, In (k, v) a1 <-> In (k, v) add /\ chosen keys k).
  { intros k v. unfold a1, chosen. destruct keys as [|k0 ks]; cbn [nonempty]; [tauto|]. rewrite filter_In. cbn [fst]. unfold memb. destruct (in_dec text_dec k (k0 :: ks)) as [J|J]; split; intros [A B]; split; try assumption; try reflexivity; try (right; exact J); try discriminate B. destruct B as [B|B]; [discriminate B|contradiction]. }
  assert (E2 : a2 = map (fun kv => (prefixed prefix (fst kv), snd kv)) a1).
  { unfold a2. destruct prefix as [|c p]; cbn [nonempty]; [|reflexivity]. rewrite <- (map_id a1) at 1. apply map_ext. intros [k v]. reflexivity. }
  assert (N1 : NoDup (map fst a1)). { unfold a1. destruct (nonempty keys); [|exact ND]. clear - ND. induction add as [|[k v] add IH]; [constructor|]. cbn [map fst] in ND. inversion ND; subst. cbn [filter fst]. destruct (memb _ _ _); [|apply IH; assumption]. cbn [map fst]. constructor; [|apply IH; assumption]. intros I. apply in_map_iff in I as (kv & E & I). apply filter_In in I as [I _]. match goal with H : ~ In k _ |- _ => apply H end. rewrite <- E. apply in_map. exact I. }
  assert (INJ : forall a b, prefixed prefix a = prefixed prefix b -> a = b). { intros a b E. destruct prefix as [|c p]; [exact E|]. unfold prefixed in E. apply app_inv_head in E. injection E as E. exact E. }
  assert (N2 : NoDup (map fst a2)). { rewrite E2, map_map. cbn [fst]. clear - N1 INJ. induction a1 as [|[k v] l IH]; [constructor|]. cbn [map fst] in *. inversion N1; subst. constructor; [|apply IH; assumption]. intros I. apply in_map_iff in I as (kv & E & I). apply INJ in E. match goal with H : ~ In k _ |- _ => apply H end. rewrite <- E. apply in_map. exact I. }
  destruct (update_all a2 d) as (d' & U & A & B); [|exact N2|].
  - intros k v I. rewrite E2 in I. apply in_map_iff in I as ([k0 v0] & E & I). injection E as <- <-. apply I1 in I as [I C]. exact (V k0 v0 I C).
  - exists d'. split; [exact U|]. split.
    + intros k v I C. destruct (A (prefixed prefix k) v) as (v' & E & G); [rewrite E2; apply in_map_iff; exists (k, v); split; [reflexivity|apply I1; split; assumption]|]. exists v'. split; [exact E|]. unfold getitem. rewrite G. reflexivity.
    + intros k H. unfold getitem. rewrite B; [reflexivity|]. rewrite E2, map_map. cbn [fst]. intros I. apply in_map_iff in I as ([k0 v0] & E & I). apply I1 in I as [I C]. cbn [fst] in E. apply (H k0); [apply (in_map fst) in I; exact I|exact C|symmetry; exact E].
Qed.
Example C59_add_dict_hyp : fst (add_dict [(txt "latitude", latitude); (txt "comments", comment_entry)] (txt "location") [txt "latitude"] [(txt "id", comment_entry)]) = [(txt "id", comment_entry); (txt "location.latitude", latitude)].
Proof. vm_compute. reflexivity. Qed.
(** If an entry is not valid the ones before it have been added all the same. *)
Theorem C59_update_stops kvs1 k v kvs2 d e : (forall k' v', In (k', v') kvs1 -> good_entry v') -> validate_entry v = Err e -> update (kvs1 ++ (k, v) :: kvs2) d = (dupdate text_dec d kvs1, Some e).
Proof.
  revert d. induction kvs1 as [|[k1 v1] kvs1 IH]; intros d G E; cbn [app update].
  - unfold setitem. rewrite E. reflexivity.
  - unfold setitem. rewrite (entry_stable v1 (G k1 v1 (or_introl eq_refl))). cbn [bindR]. rewrite IH; [reflexivity| |exact E]. intros k' v' I. exact (G k' v' (or_intror I)).
Qed.
Example C59_update_stops_hyp : validate_entry (mkV (CText (txt "string")) (CText (txt "maybe")) CNone CNone (CText []) (CList []) (CList []) (CText []) CNone) = Err ValueError.
Proof. reflexivity. Qed.
(** Deleting removes the key and nothing else. *)
Theorem C59_delete k d : NoDup (dkeys d) -> dget text_dec k (delitem k d) = None /\ forall k', k' <> k -> dget text_dec k' (delitem k d) = dget text_dec k' d.
Proof.
  intros ND. unfold delitem. split.
  - apply dget_None. rewrite (dkeys_ddel text_dec k d ND). intros I. apply filter_In in I as [_ I]. destruct (text_dec k k); [discriminate I|congruence].
  - intros k' N. clear ND. induction d as [|[a b] d IH]; [reflexivity|]. cbn [ddel dget]. destruct (text_dec k a) as [<-|D]; [destruct (text_dec k' k); [contradiction|reflexivity]|]. cbn [dget]. destruct (text_dec k' a); [reflexivity|exact IH].
Qed.
(** Every key is said to be in the dictionary, and a default given to get is never returned. *)
Theorem C59_missing_refuted k d default : dget text_dec k d = None -> contains_key k d = true /\ get k default d = Ok DefaultSchema /\ pop k d = Ok (DefaultSchema, delitem k d).
Proof. intros E. unfold contains_key, get, pop, getitem. rewrite E. repeat split. Qed.
Theorem C59_name_refuted : name [] = Err IndexError.
Proof. reflexivity. Qed.
(** Required texts without default: validating again makes the default None, and again "none". *)
Theorem C59_default_refuted v s : v_type v = CText (txt "string") -> v_required v = CBool true -> v_style v = CText s -> In s [txt "name"; txt "url"; txt "email"; txt "number"; txt "free form"; txt "alpha numeric"] -> v_default v = CNone ->
  forall v1, validate_entry v = Ok v1 -> v_default v1 = CText (txt "none") /\ exists v2, validate_entry v1 = Ok v2 /\ v_default v2 = CNone.
Proof.
  intros T R S I D v1. unfold validate_entry. rewrite T, R, S, D. change (check_type (CText (txt "string"))) with (Ok (CText (txt "string"))). assert (ES : check_style (CText s) = Ok (CText s)) by (cbn [In] in I; repeat (destruct I as [<-|I]; [reflexivity|]); contradiction I). cbn [bindR check_required]. rewrite ES.
  destruct (check_units (v_units v)) as [u|e] eqn:U; [|discriminate]. cbn [bindR]. destruct (check_description (v_description v)) as [d|e] eqn:DD; [|discriminate]. cbn [bindR]. destruct (check_options (v_options v)) as [o|e] eqn:O; [|discriminate]. cbn [bindR]. destruct (check_options (v_alias v)) as [a|e] eqn:A; [|discriminate]. cbn [bindR].
  assert (VD : forall oo, validate_default true (txt "string") s oo CNone = Ok (CText (txt "none"))) by (intros oo; cbn [In] in I; repeat (destruct I as [<-|I]; [reflexivity|]); contradiction I).
  assert (VN : forall oo, validate_default true (txt "string") s oo (CText (txt "none")) = Ok CNone) by reflexivity.
  assert (LO : forall c c', check_options c = Ok c' -> exists l, c' = CList (map CText l) /\ check_options c' = Ok c').
  { clear. intros c c' H. assert (X : forall l, check_options (CList (map CText l)) = Ok (CList (map CText l))) by (intros l; cbn [check_options]; rewrite map_map; reflexivity).
    destruct c as [|b|z|q|s|l]; cbn [check_options] in H; [discriminate H|..]; apply Ok_inj in H; subst c'.
    - exists [str (CBool b)]. split; [reflexivity|exact (X [_])].
    - exists [str (CInt z)]. split; [reflexivity|exact (X [_])].
    - exists [str (CFloat q)]. split; [reflexivity|exact (X [_])].
    - exists (validate_options s). split; [reflexivity|apply X].
    - exists (map str l). rewrite <- (map_map str CText). split; [reflexivity|apply X]. }
  destruct (LO _ _ O) as (lo & -> & O'). destruct (LO _ _ A) as (la & -> & A'). rewrite VD. cbn [bindR]. intros H. apply Ok_inj in H. subst v1. split; [reflexivity|].
  cbn [v_type v_required v_units v_style v_description v_options v_alias v_example v_default check_type check_required bindR]. change (validate_type (txt "string")) with (Ok (txt "string")). cbn [bindR]. rewrite ES.
  assert (U' : check_units u = Ok u). { clear - U. destruct (v_units v); cbn [check_units] in U; try discriminate U; [apply Ok_inj in U; subst u; reflexivity|]. destruct (validate_units (Some s)) as [w|e] eqn:E; [|discriminate U]. cbn [bindR] in U. apply Ok_inj in U. subst u. unfold validate_units in E. destruct (existsb _ _) eqn:X; apply Ok_inj in E; subst w; [reflexivity|]. cbn [check_units]. unfold validate_units. rewrite lower_idem, X. reflexivity. }
  assert (D' : check_description d = Ok d). { clear - DD. destruct (v_description v); try discriminate DD. cbn in DD. apply Ok_inj in DD. subst d. reflexivity. }
  rewrite U'. cbn [bindR]. rewrite D'. cbn [bindR]. rewrite O'. cbn [bindR]. rewrite A'. cbn [bindR]. rewrite VN. cbn [bindR]. eexists. split; reflexivity.
Qed.
(** A required bool without default cannot be stored. *)
Theorem C59_bool_refuted k v s d : v_type v = CText (txt "boolean") -> v_required v = CBool true -> v_style v = CText s -> In s [txt "name"; txt "free form"; txt "alpha numeric"] -> v_default v = CNone ->
  v_units v = CNone -> (exists x, v_description v = CText x) -> v_options v = CList [] -> v_alias v = CList [] -> setitem k v d = Err UnboundLocalError.
Proof.
  intros T R S I D U (x & DD) O A. unfold setitem, validate_entry. rewrite T, R, S, D, U, DD, O, A. cbn [In] in I. repeat (destruct I as [<-|I]; [reflexivity|]). contradiction I.
Qed.
Example C59_bool_hyp d : setitem (txt "fix") (mkV (CText (txt "boolean")) (CBool true) CNone (CText (txt "name")) (CText []) (CList []) (CList []) (CText []) CNone) d = Err UnboundLocalError.
Proof. reflexivity. Qed.
(** Every call of to_latex makes the descriptions of entries with options longer. *)
Theorem C59_latex_refuted k v s o d n : dget text_dec k d = Some v -> v_description v = CText s -> v_options v = CList o -> o <> [] ->
  exists v', dget text_dec k (Nat.iter n to_latex d) = Some v' /\ v_description v' = CText (s ++ concat (repeat (txt ".  Options: " ++ str (CList o)) n)) /\ v_options v' = CList o.
Proof.
  intros G D O N. induction n as [|n IH]; cbn [Nat.iter repeat concat].
  - exists v. rewrite app_nil_r. split; [exact G|split; assumption].
  - destruct IH as (v1 & G1 & D1 & O1). exists (latex_entry v1). split; [|split].
    + change (Nat.iter (S n) to_latex d) with (to_latex (Nat.iter n to_latex d)). revert G1. generalize (Nat.iter n to_latex d) as l. clear. induction l as [|[a b] l IH]; intros G; [discriminate G|]. cbn [to_latex map dget fst snd] in *. destruct (text_dec k a); [injection G as <-; reflexivity|exact (IH G)].
    + unfold latex_entry. rewrite O1, D1. destruct o as [|o0 o]; [contradiction|]. cbn [v_description]. rewrite <- app_assoc. do 2 f_equal. clear. generalize (txt ".  Options: " ++ str (CList (o0 :: o))) as x. intros x. induction n as [|n IH]; [cbn; rewrite app_nil_r; reflexivity|]. cbn [repeat concat]. rewrite <- app_assoc, IH. reflexivity.
    + unfold latex_entry. rewrite O1, D1. destruct o; [contradiction|]. reflexivity.
Qed.
Example C59_latex_hyp : let d := [(txt "units", with_options [txt "m"; txt "km"] comment_entry)] in option_map v_description (dget text_dec (txt "units") (to_latex d)) = Some (CText (txt "any text.  Options: ['m', 'km']")).
Proof. reflexivity. Qed.

(** ** Comma separated files *)
Definition items (d : standards) (l : list text) : list (text * entry) := flat_map (fun k => match dget text_dec k d with Some v => [(k, v)] | None => [] end) l.
Lemma items_self d : NoDup (dkeys d) -> items d (dkeys d) = d.
Proof.
  intros ND. assert (G : forall d0 l, (forall k v, In (k, v) l -> dget text_dec k d0 = Some v) -> items d0 (map fst l) = l).
  { intros d0. induction l as [|[k v] l IH]; intros H; [reflexivity|]. cbn [map fst items flat_map]. rewrite (H k v (or_introl eq_refl)). cbn [app]. f_equal. apply IH. intros k' v' I. apply H. right. exact I. }
  apply G. intros k v I. apply In_dget; assumption.
Qed.
Definition sorted_items (d : standards) : list (text * entry) := items d (sort_texts (dkeys d)).
Lemma sorted_items_perm d : NoDup (dkeys d) -> Permutation d (sorted_items d).
Proof. intros ND. rewrite <- (items_self d ND) at 1. unfold sorted_items, items. apply Permutation_flat_map. apply Permutation_sym. apply sort_perm. Qed.
Lemma to_csv_items d : to_csv d = join [nl] (join (txt ",") required_keys :: map (fun kv => csv_row (fst kv) (snd kv)) (sorted_items d)).
Proof.
  unfold to_csv, sorted_items, items. do 2 f_equal. induction (sort_texts (dkeys d)) as [|k l IH]; [reflexivity|]. cbn [flat_map]. destruct (dget text_dec k d) as [v|]; cbn [app map fst snd]; rewrite IH; reflexivity.
Qed.
(** A line of the file is a row, with or without a newline after it. *)
Definition line_is (row line : text) : Prop := exists e, (e = [] \/ e = [nl]) /\ line = row ++ e.
Lemma lines_of rows : forall first, (forall x, In x (first :: rows) -> ~ In nl x /\ x <> []) -> exists l ls, readlines (join [nl] (first :: rows)) = l :: ls /\ line_is first l /\ Forall2 line_is rows ls.
Proof.
  intros first H. rewrite readlines_last; [|intros x I; apply H; exact I|].
  - clear H. revert first. induction rows as [|r rows IH]; intros first.
    + exists first, []. split; [reflexivity|]. split; [exists []; split; [left; reflexivity|rewrite app_nil_r; reflexivity]|constructor].
    + destruct (IH r) as (l & ls & E & L & F). exists (first ++ [nl]), (l :: ls). change (removelast (first :: r :: rows)) with (first :: removelast (r :: rows)). change (last (first :: r :: rows) []) with (last (r :: rows) []). cbn [map app]. rewrite E. split; [reflexivity|]. split; [exists [nl]; split; [right; reflexivity|reflexivity]|constructor; assumption].
  - intros x <-. assert (I : In (last (first :: rows) []) (first :: rows)) by (clear; revert first; induction rows as [|r rows IH]; intros first; [left; reflexivity|right; exact (IH r)]). apply H. exact I.
Qed.
Lemma update_good kvs : forall d, (forall k v, In (k, v) kvs -> validate_entry v = Ok v) -> update kvs d = (dupdate text_dec d kvs, None).
Proof.
  induction kvs as [|[k v] kvs IH]; intros d G; [reflexivity|]. cbn [update]. unfold setitem. rewrite (G k v (or_introl eq_refl)). cbn [bindR]. rewrite IH; [reflexivity|]. intros k' v' I. exact (G k' v' (or_intror I)).
Qed.
Lemma row_nonl k v : attribute_name k -> good_entry v -> ~ In nl (csv_row k v) /\ csv_row k v <> [] /\ (2 <= List.length (csv_row k v))%nat.
Proof.
  intros K G. rewrite row_eq. split; [|split].
  - intros I. apply ValidatorsProofs.join_In in I as [[X|[]]|(w & I & J)]; [discriminate X|]. destruct I as [<-|I]; [apply (proj1 (proj2 K)); exact J|]. apply (good_cells v w G I). exact J.
  - destruct K as [NE _]. destruct k; [contradiction|discriminate].
  - destruct K as [NE _]. unfold cells. cbn [map]. rewrite join_cons2, !app_length. destruct k; [contradiction|]. cbn [List.length]. lia.
Qed.
Lemma header_ok l : line_is (join (txt ",") required_keys) l -> map (fun s => lower (strip s)) (split_on "," (strip l)) = required_keys.
Proof. intros (e & [->| ->] & ->); vm_compute; reflexivity. Qed.
(** The general form: rows that are read as stable entries. *)
Definition reads_as (kv kv' : text * entry) : Prop := fst kv' = fst kv /\ validate_entry (snd kv') = Ok (snd kv') /\
  forall e, e = [] \/ e = [nl] -> read_row required_keys (csv_row (fst kv) (snd kv) ++ e) = Ok kv'.
Lemma from_csv_rows d d0 kvs : NoDup (dkeys d) -> (forall kv, In kv d -> ~ In nl (csv_row (fst kv) (snd kv)) /\ csv_row (fst kv) (snd kv) <> [] /\ (2 <= List.length (csv_row (fst kv) (snd kv)))%nat) ->
  Forall2 reads_as (sorted_items d) kvs -> from_csv (to_csv d) d0 = Ok (dupdate text_dec d0 kvs, None).
Proof.
  intros ND H F. pose proof (sorted_items_perm d ND) as P. unfold from_csv.
  destruct (lines_of (map (fun kv => csv_row (fst kv) (snd kv)) (sorted_items d)) (join (txt ",") required_keys)) as (l & ls & E & L & FL).
  { intros x [<-|I]; [split; [vm_compute; intuition discriminate|vm_compute; discriminate]|]. apply in_map_iff in I as (kv & <- & I). apply (Permutation_in _ (Permutation_sym P)) in I. destruct (H kv I) as (A & B & _). split; assumption. }
  assert (E1 : readlines (to_csv d) = l :: ls) by (rewrite to_csv_items; exact E). rewrite E1, (header_ok l L). assert (SK : same_keys required_keys required_keys = true) by (unfold same_keys; destruct (list_eq_dec _ _ _); [reflexivity|congruence]). rewrite SK.
  assert (LEN : Forall (fun x => negb (List.length x <? 2)%nat = true) ls).
  { assert (LR : Forall (fun x => (2 <= List.length x)%nat) (map (fun kv => csv_row (fst kv) (snd kv)) (sorted_items d))). { apply Forall_forall. intros x I. apply in_map_iff in I as (kv & <- & I). apply (Permutation_in _ (Permutation_sym P)) in I. apply H. exact I. }
    clear - FL LR. induction FL as [|r x rs ls (e & _ & ->) FL IH]; [constructor|]. inversion LR; subst. constructor; [|apply IH; assumption]. rewrite app_length. apply negb_true_iff, Nat.ltb_ge. lia. }
  assert (FI : filter (fun x => negb (List.length x <? 2)%nat) ls = ls) by (clear - LEN; induction LEN as [|x ls E F IH]; [reflexivity|]; cbn [filter]; rewrite E, IH; reflexivity). rewrite FI.
  assert (M : mapR (read_row required_keys) ls = Ok kvs).
  { clear - FL F. revert ls FL. induction F as [|kv kv' l1 l2 (_ & _ & R) F IH]; intros ls FL; cbn [map] in FL; inversion FL as [|? ? ? ? (e & EE & ->) FL']; subst; [reflexivity|]. cbn [mapR]. rewrite (R e EE). cbn [bindR]. rewrite (IH _ FL'). reflexivity. }
  rewrite M. cbn [bindR]. assert (K : map fst kvs = map fst (sorted_items d)) by (clear - F; induction F as [|kv kv' l1 l2 (E & _) F IH]; [reflexivity|]; cbn [map]; rewrite E, IH; reflexivity).
  rewrite dupdate_nil by (unfold dkeys; rewrite K; apply (Permutation_NoDup (Permutation_map fst P)); exact ND). rewrite update_good; [reflexivity|].
  intros k v I. clear - F I. induction F as [|kv kv' l1 l2 (_ & V & _) F IH]; [contradiction I|]. destruct I as [->|I]; [exact V|exact (IH I)].
Qed.
(** What is written is read back; what was in the dictionary under other names stays. *)
Theorem C59_csv d d0 : NoDup (dkeys d) -> (forall k v, In (k, v) d -> attribute_name k /\ good_entry v) ->
  exists d1, from_csv (to_csv d) d0 = Ok (d1, None) /\
    forall k, match dget text_dec k d with
              | Some v => exists v', dget text_dec k d1 = Some v' /\ same_entry v v'
              | None => dget text_dec k d1 = dget text_dec k d0
              end.
Proof.
  intros ND H. pose proof (sorted_items_perm d ND) as P.
  assert (X : exists kvs, Forall2 (fun kv kv' => reads_as kv kv' /\ same_entry (snd kv) (snd kv')) (sorted_items d) kvs).
  { assert (Q : forall kv, In kv (sorted_items d) -> exists kv', reads_as kv kv' /\ same_entry (snd kv) (snd kv')).
    { intros [k v] I. apply (Permutation_in _ (Permutation_sym P)) in I. destruct (H k v I) as [K G]. destruct (read_row_ok k v [] K G (or_introl eq_refl)) as (v' & R & S0 & G'). exists (k, v'). split; [|exact S0]. split; [reflexivity|]. split; [apply entry_stable; exact G'|]. cbn [fst snd].
      intros e EE. destruct (read_row_ok k v e K G EE) as (v2 & R2 & _). assert (EQ : read_row required_keys (csv_row k v ++ e) = read_row required_keys (csv_row k v ++ [])).
      { unfold read_row. rewrite app_nil_r. assert (ST : strip (csv_row k v ++ e) = strip (csv_row k v)). { unfold strip. destruct EE as [->| ->]; [rewrite app_nil_r; reflexivity|]. assert (LN : lstrip (csv_row k v ++ [nl]) = lstrip (csv_row k v) ++ [nl]). { destruct K as (NE & (T & _) & _). destruct k as [|c k]; [contradiction|]. assert (SC : is_space c = false) by (apply (proj1 T c k); reflexivity). rewrite row_eq. unfold cells. cbn [map]. rewrite join_cons2. cbn [app lstrip]. rewrite SC. reflexivity. } rewrite LN. apply rstrip_spaces. reflexivity. }
        rewrite ST. reflexivity. }
      rewrite EQ. exact R. }
    clear - Q. induction (sorted_items d) as [|kv l IH]; [exists []; constructor|]. destruct (Q kv (or_introl eq_refl)) as (kv' & A). destruct IH as (kvs & F); [intros x I; apply Q; right; exact I|]. exists (kv' :: kvs). constructor; assumption. }
  destruct X as (kvs & F). exists (dupdate text_dec d0 kvs). split.
  - apply from_csv_rows; [exact ND| |clear - F; induction F as [|? ? ? ? [A _] F IH]; constructor; assumption]. intros [k v] I. destruct (H k v I) as [K G]. exact (row_nonl k v K G).
  - assert (K : map fst kvs = map fst (sorted_items d)) by (clear - F; induction F as [|kv kv' l1 l2 ((E & _) & _) F IH]; [reflexivity|]; cbn [map]; rewrite E, IH; reflexivity).
    assert (NK : NoDup (map fst kvs)) by (rewrite K; apply (Permutation_NoDup (Permutation_map fst P)); exact ND).
    assert (NR : NoDup (map fst (rev kvs))) by (rewrite map_rev; apply (Permutation_NoDup (Permutation_rev _)); exact NK).
    intros k. rewrite dget_dupdate. destruct (dget text_dec k d) as [v|] eqn:G.
    + apply dget_In in G. apply (Permutation_in _ P) in G. assert (Y : exists v', In (k, v') kvs /\ same_entry v v').
      { clear - F G. induction F as [|[k1 v1] [k2 v2] l1 l2 ((E & _) & S0) F IH]; [contradiction G|]. cbn [fst snd] in *. destruct G as [G|G]; [injection G as -> ->; subst k2; exists v2; split; [left; reflexivity|exact S0]|]. destruct (IH G) as (v' & I & S1). exists v'. split; [right; exact I|exact S1]. }
      destruct Y as (v' & I & S0). exists v'. split; [|exact S0]. rewrite (In_dget text_dec k v' (rev kvs) NR) by (apply -> in_rev; exact I). reflexivity.
    + assert (N : dget text_dec k (rev kvs) = None); [|rewrite N; reflexivity]. apply dget_None. unfold dkeys. rewrite map_rev. intros I. apply in_rev in I. rewrite K in I. apply (Permutation_in _ (Permutation_sym (Permutation_map fst P))) in I. apply dget_None in G. exact (G I).
Qed.
Example C59_csv_hyp : to_csv [(txt "location.latitude", latitude); (txt "comments", comment_entry)] =
  txt "attribute,type,required,units,style,description,options,alias,example,default" ++ nl :: txt "comments,string,False,None,free form,any text,None,None,none,None" ++ nl :: txt "location.latitude,float,True,degrees,number,latitude of the station,None,None,40.5,40.5".
Proof. vm_compute. reflexivity. Qed.
(** Options do not come back: the quotes around the list become part of them. *)
Lemma entry_again_o v ot : good_entry v -> exists v', validate_entry (mkV (CText (csv_cell (v_type v))) (CText (csv_cell (v_required v))) (CText (csv_cell (v_units v))) (CText (csv_cell (v_style v))) (CText (csv_cell (v_description v)))
  (CText ot) (CText (csv_cell (v_alias v))) (CText (csv_cell (v_example v))) (CText (csv_cell (v_default v)))) = Ok (with_options (validate_options ot) v') /\ same_entry v v' /\ good_entry v'.
Proof.
  intros [t r u s d e x T S D E X U]. destruct (default_again r t s x (map CText (validate_options ot)) S X) as (x' & EX & SX & DX). exists (mkV (CText t) (CBool r) u (CText s) (CText d) (CList []) (CList []) (CText e) x'). split; [|split].
  - unfold validate_entry. cbn [v_type v_required v_units v_style v_description v_options v_alias v_example v_default]. rewrite (units_again u U). cbn [csv_cell str check_type check_style check_description check_example bindR]. rewrite (proj1 (type_stable t T)), (style_stable s S). cbn [bindR].
    assert (ER : check_required (CText (repr (CBool r))) = Ok (CBool r)) by (destruct r; reflexivity). rewrite ER. cbn [bindR].
    change (check_options (CText (txt "None"))) with (Ok (CList [])). cbn [bindR check_options]. rewrite EX. reflexivity.
  - repeat (split; [reflexivity|]). exact SX.
  - constructor; assumption.
Qed.
Lemma entry_stable_o v l : good_entry v -> validate_entry (with_options l v) = Ok (with_options l v).
Proof.
  intros [t r u s d e x T S D E X U]. unfold validate_entry, with_options. cbn [v_type v_required v_units v_style v_description v_options v_alias v_example v_default check_type check_required check_style check_description check_options check_example map str].
  rewrite (proj1 (type_stable t T)), (style_stable s S). cbn [bindR]. assert (EU : check_units u = Ok u) by (destruct U as [->|(w & -> & L & _ & N)]; [reflexivity|cbn [check_units]; rewrite (units_stable w L N); reflexivity]). rewrite EU. cbn [bindR]. rewrite map_map. cbn [str]. rewrite (default_stable r t s x _ S X). reflexivity.
Qed.
(** A row of ten fields. *)
Lemma read_cells (k t r u s d o al e x : text) b : attribute_name k -> (forall w, In w [t; r; u; s; d; o; al; e] -> field_text w) -> trimmed x -> x <> [] -> b = [] \/ b = [nl] ->
  read_row required_keys (join [","%char] [k; t; r; u; s; d; o; al; e; x] ++ b) = bindR (validate_entry (mkV (CText t) (CText r) (CText u) (CText s) (CText d) (CText o) (CText al) (CText e) (CText x))) (fun v => Ok (k, v)).
Proof.
  intros K F TX NX EE. assert (TR : trimmed (join [","%char] [k; t; r; u; s; d; o; al; e; x])) by (apply (trimmed_ends [","%char] k [t; r; u; s; d; o; al; e] x); [apply K|apply K|exact TX|exact NX]).
  unfold read_row. assert (ST : strip (join [","%char] [k; t; r; u; s; d; o; al; e; x] ++ b) = join [","%char] [k; t; r; u; s; d; o; al; e; x]).
  { rewrite <- (app_nil_l (join _ _ ++ b)). apply strip_pad; [reflexivity|destruct EE as [->| ->]; reflexivity|exact TR]. }
  rewrite ST. change (List.length required_keys - 1)%nat with 9%nat. pose proof (split_max_join 9 ","%char [k; t; r; u; s; d; o; al; e] [x] eq_refl ltac:(discriminate)) as SM. cbn [app join] in SM.
  assert (J : split_max 9 ","%char (join [","%char] [k; t; r; u; s; d; o; al; e; x]) = [k; t; r; u; s; d; o; al; e; x]). { cbn [join]. apply SM. intros w [<-|I]; [apply K|apply F; exact I]. }
  rewrite J. assert (MS : map strip [k; t; r; u; s; d; o; al; e; x] = [k; t; r; u; s; d; o; al; e; x]).
  { apply map_strip_id. intros w [<-|I]; [apply K|]. assert (Y : In w ([t; r; u; s; d; o; al; e] ++ [x])) by exact I. apply in_app_or in Y as [Y|[<-|[]]]; [apply F; exact Y|exact TX]. }
  rewrite MS, row_attribute, (attribute_ok k K). cbn [bindR]. rewrite entry_of_row. reflexivity.
Qed.
Lemma join_two (c : ascii) k x y l : (2 <= List.length (join [","%char] ((c :: k) :: x :: y :: l)))%nat.
Proof. rewrite !join_cons2, !app_length. cbn [List.length]. lia. Qed.
Definition option_word (w : text) : Prop := w <> [] /\ forall c, In c w -> ~ In c [","; "'"; "|"; "["; "]"; "010"]%char.
Lemma option_cell w : option_word w -> csv_cell (CList [CText w]) = quote_char :: "["%char :: w ++ ["]"%char; quote_char].
Proof.
  intros (NE & H). assert (R : forall c x, (forall a, In a x -> a <> c) -> forall y, replace_char c y x = x). { intros c x N y. apply replace_char_absent. intros I. exact (N c I eq_refl). }
  assert (NC : forall c, In c [","; "'"]%char -> forall a, In a w -> a <> c). { intros c IC a I ->. apply (H c I). cbn in *. tauto. }
  cbn [csv_cell str repr map join]. change (quote_char :: ("["%char :: ("'"%char :: w ++ ["'"%char]) ++ ["]"%char]) ++ [quote_char]) with ([quote_char; "["%char; "'"%char] ++ ((w ++ ["'"%char]) ++ ["]"%char]) ++ [quote_char]).
  rewrite !replace_char_app. rewrite (R ","%char w) by (apply NC; left; reflexivity). rewrite (R "'"%char w) by (apply NC; right; left; reflexivity). cbn [app replace_char flat_map Ascii.eqb Bool.eqb quote_char txt list_ascii_of_string]. rewrite <- !app_assoc. reflexivity.
Qed.
Lemma option_back w : option_word w -> validate_options (quote_char :: "["%char :: w ++ ["]"%char; quote_char]) = [quote_char :: w ++ [quote_char]].
Proof.
  intros (NE & H). assert (NC : forall c, In c [","; "'"; "|"; "["; "]"; "010"]%char -> ~ In c w) by (intros c IC I; exact (H c I IC)).
  unfold validate_options, remove_brackets. change (quote_char :: "["%char :: w ++ ["]"%char; quote_char]) with ([quote_char; "["%char] ++ w ++ ["]"%char; quote_char]). rewrite !replace_char_app.
  rewrite (replace_char_absent "["%char [] w) by (apply NC; cbn; tauto). rewrite (replace_char_absent "]"%char [] w) by (apply NC; cbn; tauto).
  change (replace_char "]" [] (replace_char "[" [] [quote_char; "["%char])) with [quote_char]. change (replace_char "]" [] (replace_char "[" [] ["]"%char; quote_char])) with [quote_char].
  assert (T : trimmed ([quote_char] ++ w ++ [quote_char])) by (apply trimmed_app3; try discriminate; (split; intros c r E; [injection E as <- _; reflexivity|]; destruct r as [|c1 [|? ?]]; [injection E as <-; reflexivity|discriminate E|discriminate E])).
  rewrite (strip_trimmed _ T). rewrite split_on_no by (intros I; cbn in I; destruct I as [X|I]; [discriminate X|]; apply in_app_or in I as [I|[X|[]]]; [apply (NC "|"%char); [cbn; tauto|exact I]|discriminate X]).
  cbn [app filter]. assert (E : existsb (text_eqb (lower (quote_char :: w ++ [quote_char]))) [txt "none"; []] = false).
  { apply not_true_iff_false. intros X. apply existsb_exists in X as (y & J & X). apply text_eqb_eq in X. cbn [lower map] in X. destruct J as [<-|[<-|[]]]; discriminate X. }
  rewrite E. cbn [negb map]. change (quote_char :: w ++ [quote_char]) with ([quote_char] ++ w ++ [quote_char]) at 1. rewrite (strip_trimmed _ T). reflexivity.
Qed.
Lemma csv_options k v ws os d0 : attribute_name k -> good_entry v -> field_text (csv_cell (CList (map CText ws))) -> validate_options (csv_cell (CList (map CText ws))) = os ->
  exists v', from_csv (to_csv [(k, with_options ws v)]) d0 = Ok (dset text_dec k v' d0, None) /\ v_options v' = CList (map CText os).
Proof.
  intros K G FO VO. destruct (entry_again_o v (csv_cell (CList (map CText ws))) G) as (v' & EV & SV & GV). rewrite VO in EV. exists (with_options os v'). split; [|reflexivity].
  assert (FC : forall c, In c (tl (cells [] v)) -> field_text c) by (intros c I; exact (good_cells v c G I)). cbn [cells tl map In] in FC.
  assert (FW : forall c, In c [csv_cell (v_type v); csv_cell (v_required v); csv_cell (v_units v); csv_cell (v_style v); csv_cell (v_description v); csv_cell (CList (map CText ws)); csv_cell (v_alias v); csv_cell (v_example v)] -> field_text c).
  { intros c I. cbn [In] in I. destruct I as [<-|[<-|[<-|[<-|[<-|[<-|[<-|[<-|[]]]]]]]]]; try exact FO; apply FC; tauto. }
  assert (R : forall e, e = [] \/ e = [nl] -> read_row required_keys (csv_row k (with_options ws v) ++ e) = Ok (k, with_options os v')).
  { intros e EE. unfold csv_row. cbn [map with_options v_type v_required v_units v_style v_description v_options v_alias v_example v_default]. rewrite (read_cells k _ _ _ _ _ _ _ _ _ e K FW); [|apply FC; tauto|apply default_cell_ne; exact G|exact EE]. rewrite EV. reflexivity. }
  assert (NLR : ~ In nl (csv_row k (with_options ws v)) /\ csv_row k (with_options ws v) <> [] /\ (2 <= List.length (csv_row k (with_options ws v)))%nat).
  { unfold csv_row. cbn [map with_options v_type v_required v_units v_style v_description v_options v_alias v_example v_default]. split; [|destruct K as [NE _]; destruct k as [|c0 k]; [contradiction|]; split; [discriminate|apply join_two]].
    intros I. apply ValidatorsProofs.join_In in I as [[X|[]]|(c & I & J)]; [discriminate X|]. destruct I as [<-|I]; [apply (proj1 (proj2 K)); exact J|]. change (In c ([csv_cell (v_type v); csv_cell (v_required v); csv_cell (v_units v); csv_cell (v_style v); csv_cell (v_description v); csv_cell (CList (map CText ws)); csv_cell (v_alias v); csv_cell (v_example v)] ++ [csv_cell (v_default v)])) in I. apply in_app_or in I as [I|[<-|[]]]; [apply (FW c I); exact J|]. apply (FC (csv_cell (v_default v))); [tauto|exact J]. }
  apply (from_csv_rows [(k, with_options ws v)] d0 [(k, with_options os v')]).
  - constructor; [intros []|constructor].
  - intros kv [<-|[]]. exact NLR.
  - unfold sorted_items, items. cbn [dkeys map fst sort_texts fold_right insert_text flat_map dget]. destruct (text_dec k k); [|congruence]. cbn [app]. constructor; [|constructor]. split; [reflexivity|]. split; [apply entry_stable_o; exact GV|]. cbn [fst snd]. exact R.
Qed.
Theorem C59_csv_options_refuted k v w d0 : attribute_name k -> good_entry v -> option_word w ->
  exists v', from_csv (to_csv [(k, with_options [w] v)]) d0 = Ok (dset text_dec k v' d0, None) /\ v_options v' = CList [CText (quote_char :: w ++ [quote_char])].
Proof.
  intros K G W. apply (csv_options k v [w] [quote_char :: w ++ [quote_char]] d0 K G); cbn [map].
  - rewrite (option_cell w W). destruct W as [NE H]. split; [|split; intros I; (destruct I as [X|[X|I]]; [discriminate X|discriminate X|]); apply in_app_or in I as [I|[X|[X|[]]]]; try discriminate X; apply (H _ I); cbn; tauto].
    split; intros c r E; [injection E as <- _; reflexivity|]. change (quote_char :: "["%char :: w ++ ["]"%char; quote_char]) with (quote_char :: "["%char :: w ++ (["]"%char] ++ [quote_char])) in E. rewrite app_assoc in E. change (quote_char :: "["%char :: (w ++ ["]"%char]) ++ [quote_char]) with ((quote_char :: "["%char :: (w ++ ["]"%char])) ++ [quote_char]) in E. apply app_inj_tail in E as [_ <-]. reflexivity.
  - rewrite (option_cell w W). apply option_back. exact W.
Qed.
Example C59_csv_options_hyp : option_word (txt "km") /\ (match from_csv (to_csv [(txt "units", with_options [txt "m"; txt "km"] comment_entry)]) [] with Ok ([(_, v)], None) => v_options v = CList [CText (quote_char :: txt "m"); CText (txt "km" ++ [quote_char])] | _ => False end).
Proof. split; [split; [discriminate|intros c I X; cbn in I, X; intuition (subst; discriminate)]|vm_compute; reflexivity]. Qed.
(** Any number of options: a quote stays before the first and after the last *)
Fixpoint pieces (b : text) (ws : list text) : list text :=
  match ws with [] => [] | [w] => [b ++ w ++ [quote_char]] | w :: r => (b ++ w) :: pieces [" "%char] r end.
Lemma pieces_join ws : forall b, ws <> [] -> join ["|"%char] (pieces b ws) = b ++ join (txt "| ") ws ++ [quote_char].
Proof.
  induction ws as [|w ws IH]; intros b NE; [congruence|]. destruct ws as [|x ws]; [reflexivity|]. change (pieces b (w :: x :: ws)) with ((b ++ w) :: pieces [" "%char] (x :: ws)).
  assert (P : exists y l, pieces [" "%char] (x :: ws) = y :: l) by (destruct ws; eexists; eexists; reflexivity). destruct P as (y & l & P). rewrite P, join_cons2, <- P, IH by discriminate.
  rewrite join_cons2. cbn [txt list_ascii_of_string]. rewrite <- !app_assoc. reflexivity.
Qed.
Lemma options_cell ws : ws <> [] -> Forall option_word ws -> csv_cell (CList (map CText ws)) = quote_char :: "["%char :: join (txt "| ") ws ++ ["]"%char; quote_char].
Proof.
  intros NE F. destruct ws as [|w ws]; [congruence|]. clear NE. cbn [csv_cell map]. change (CText w :: map CText ws) with (map CText (w :: ws)).
  assert (J : replace_char "'" [] (replace_char "," (txt "|") (join (txt ", ") (map repr (map CText (w :: ws))))) = join (txt "| ") (w :: ws)).
  { assert (W : forall w, option_word w -> replace_char "'" [] (replace_char "," (txt "|") (repr (CText w))) = w).
    { intros x [_ H]. cbn [repr]. change ("'"%char :: x ++ ["'"%char]) with (["'"%char] ++ x ++ ["'"%char]). rewrite !replace_char_app. rewrite (replace_char_absent ","%char (txt "|") x) by (intros I; apply (H _ I); cbn; tauto). rewrite (replace_char_absent "'"%char [] x) by (intros I; apply (H _ I); cbn; tauto). cbn. apply app_nil_r. }
    revert w F. induction ws as [|x ws IH]; intros w F; [inversion F; subst; cbn [map join]; apply W; assumption|]. inversion F as [|? ? Fw Fr]; subst. cbn [map]. rewrite !join_cons2. rewrite !replace_char_app, (W w Fw). f_equal. f_equal. apply (IH x Fr). }
  cbn [str repr]. change (quote_char :: ("["%char :: join (txt ", ") (map repr (map CText (w :: ws))) ++ ["]"%char]) ++ [quote_char]) with ([quote_char; "["%char] ++ (join (txt ", ") (map repr (map CText (w :: ws))) ++ ["]"%char]) ++ [quote_char]).
  rewrite !replace_char_app, J. cbn [app replace_char flat_map Ascii.eqb Bool.eqb quote_char txt list_ascii_of_string]. rewrite <- !app_assoc. reflexivity.
Qed.
Lemma pieces_strip ws : forall b, (b = [" "%char] \/ b = [quote_char]) -> Forall (fun w => option_word w /\ trimmed w) ws ->
  map strip (pieces b ws) = match b with [" "%char] => quote_last ws | _ => quote_ends ws end.
Proof.
  assert (Q : trimmed [quote_char]) by (split; intros c r E; [injection E as <- _; reflexivity|]; destruct r as [|c1 [|? ?]]; [injection E as <-; reflexivity|discriminate E|discriminate E]).
  assert (A : forall x y, trimmed x -> trimmed y -> x <> [] -> y <> [] -> trimmed (x ++ y)).
  { intros x y [X _] [_ Y] NX NY. split; intros c r E.
    - destruct x as [|d x]; [congruence|]. injection E as <- _. exact (X d x eq_refl).
    - destruct (exists_last NY) as (y' & z & ->). rewrite app_assoc in E. apply app_inj_tail in E as [_ <-]. exact (Y z y' eq_refl). }
  assert (B : forall x, trimmed x -> strip ([" "%char] ++ x) = x). { intros x T. rewrite <- (app_nil_r x) at 1. apply strip_pad; [reflexivity|reflexivity|exact T]. }
  induction ws as [|w ws IH]; intros b HB F; [destruct HB as [->| ->]; reflexivity|]. inversion F as [|? ? [W T] F']; subst. destruct W as [NE _].
  assert (NQ : w ++ [quote_char] <> []) by (destruct w; discriminate).
  destruct ws as [|x ws].
  - destruct HB as [->| ->]; cbn [pieces map].
    + rewrite B by (apply A; assumption || discriminate). reflexivity.
    + rewrite strip_trimmed by (apply A; [exact Q|apply A; assumption || discriminate|discriminate|exact NQ]). reflexivity.
  - change (pieces b (w :: x :: ws)) with ((b ++ w) :: pieces [" "%char] (x :: ws)). cbn [map]. rewrite (IH [" "%char]) by (tauto || exact F'). destruct HB as [->| ->].
    + rewrite B by exact T. reflexivity.
    + rewrite strip_trimmed by (apply A; assumption || discriminate). reflexivity.
Qed.
Lemma pieces_in ws : forall b p, In p (pieces b ws) -> (exists r, p = b ++ r) \/ exists r, p = " "%char :: r.
Proof.
  induction ws as [|w ws IH]; intros b p I; [destruct I|]. destruct ws as [|x ws]; [destruct I as [<-|[]]; left; eexists; reflexivity|].
  change (pieces b (w :: x :: ws)) with ((b ++ w) :: pieces [" "%char] (x :: ws)) in I. destruct I as [<-|I]; [left; eexists; reflexivity|]. apply IH in I as [(r & ->)|H]; right; [eexists; reflexivity|exact H].
Qed.
Lemma options_back ws : ws <> [] -> Forall (fun w => option_word w /\ trimmed w) ws -> validate_options (quote_char :: "["%char :: join (txt "| ") ws ++ ["]"%char; quote_char]) = quote_ends ws.
Proof.
  intros NE F. assert (NC : forall c, In c ["["; "]"]%char -> ~ In c (join (txt "| ") ws)).
  { intros c IC I. apply ValidatorsProofs.join_In in I as [I|(w & I & J)]; [cbn in IC, I; destruct IC as [<-|[<-|[]]]; intuition discriminate|]. rewrite Forall_forall in F. destruct (F w I) as [[_ H] _]. apply (H c J). cbn in *. tauto. }
  unfold validate_options, remove_brackets. change (quote_char :: "["%char :: join (txt "| ") ws ++ ["]"%char; quote_char]) with ([quote_char; "["%char] ++ join (txt "| ") ws ++ ["]"%char; quote_char]). rewrite !replace_char_app.
  rewrite (replace_char_absent "["%char [] (join (txt "| ") ws)) by (apply NC; cbn; tauto). rewrite (replace_char_absent "]"%char [] (join (txt "| ") ws)) by (apply NC; cbn; tauto).
  change (replace_char "]" [] (replace_char "[" [] [quote_char; "["%char])) with [quote_char]. change (replace_char "]" [] (replace_char "[" [] ["]"%char; quote_char])) with [quote_char].
  assert (T : trimmed ([quote_char] ++ join (txt "| ") ws ++ [quote_char])).
  { split; intros c r E; [injection E as <- _; reflexivity|]. rewrite app_assoc in E. apply app_inj_tail in E as [_ <-]. reflexivity. }
  rewrite (strip_trimmed _ T), <- (pieces_join ws [quote_char] NE). rewrite split_join.
  - assert (FL : filter (fun name => negb (existsb (text_eqb (lower name)) [txt "none"; []])) (pieces [quote_char] ws) = pieces [quote_char] ws).
    { assert (H : forall p, In p (pieces [quote_char] ws) -> negb (existsb (text_eqb (lower p)) [txt "none"; []]) = true).
      { intros p I. apply pieces_in in I as [(r & ->)|(r & ->)]; apply negb_true_iff; apply not_true_iff_false; intros X; apply existsb_exists in X as (y & J & X); apply text_eqb_eq in X; destruct J as [<-|[<-|[]]]; discriminate X. }
      revert H. generalize (pieces [quote_char] ws). clear. induction l as [|p l IH]; intros H; [reflexivity|]. cbn [filter]. rewrite H by (left; reflexivity). f_equal. apply IH. intros q I. apply H. right. exact I. }
    rewrite FL. rewrite pieces_strip by (tauto || exact F). reflexivity.
  - destruct ws as [|w [|x ws]]; [congruence|discriminate|discriminate].
  - assert (G : forall ws b p, ~ In "|"%char b -> Forall (fun w => option_word w /\ trimmed w) ws -> In p (pieces b ws) -> ~ In "|"%char p).
    { clear. induction ws as [|w ws IH]; intros b p NB F I; [destruct I|]. inversion F as [|? ? [[_ H] _] F']; subst. assert (NW : ~ In "|"%char w) by (intros J; apply (H _ J); cbn; tauto).
      destruct ws as [|x ws]; [destruct I as [<-|[]]; intros J; apply in_app_or in J as [J|J]; [exact (NB J)|apply in_app_or in J as [J|[J|[]]]; [exact (NW J)|discriminate J]]|].
      change (pieces b (w :: x :: ws)) with ((b ++ w) :: pieces [" "%char] (x :: ws)) in I. destruct I as [<-|I]; [intros J; apply in_app_or in J as [J|J]; tauto|]. apply (IH [" "%char] p); [intros [J|[]]; discriminate J|exact F'|exact I]. }
    intros p I. apply (G ws [quote_char] p); [intros [J|[]]; discriminate J|exact F|exact I].
Qed.
Theorem C59_csv_many_options_refuted k v ws d0 : attribute_name k -> good_entry v -> ws <> [] -> Forall (fun w => option_word w /\ trimmed w) ws ->
  exists v', from_csv (to_csv [(k, with_options ws v)]) d0 = Ok (dset text_dec k v' d0, None) /\ v_options v' = CList (map CText (quote_ends ws)).
Proof.
  intros K G NE F. assert (F' : Forall option_word ws) by (eapply Forall_impl; [|exact F]; intros w H; apply H). apply (csv_options k v ws (quote_ends ws) d0 K G); rewrite (options_cell ws NE F'); [|apply options_back; assumption].
  split; [|split].
  - split; intros c r E; [injection E as <- _; reflexivity|]. change (quote_char :: "["%char :: join (txt "| ") ws ++ ["]"%char; quote_char]) with (quote_char :: "["%char :: join (txt "| ") ws ++ (["]"%char] ++ [quote_char])) in E. rewrite app_assoc in E. change (quote_char :: "["%char :: (join (txt "| ") ws ++ ["]"%char]) ++ [quote_char]) with ((quote_char :: "["%char :: (join (txt "| ") ws ++ ["]"%char])) ++ [quote_char]) in E. apply app_inj_tail in E as [_ <-]. reflexivity.
  - intros I. destruct I as [X|[X|I]]; [discriminate X|discriminate X|]. apply in_app_or in I as [I|[X|[X|[]]]]; try discriminate X. apply ValidatorsProofs.join_In in I as [I|(w & I & J)]; [cbn in I; intuition discriminate|]. rewrite Forall_forall in F'. destruct (F' w I) as [_ H]. apply (H _ J). cbn. tauto.
  - intros I. destruct I as [X|[X|I]]; [discriminate X|discriminate X|]. apply in_app_or in I as [I|[X|[X|[]]]]; try discriminate X. apply ValidatorsProofs.join_In in I as [I|(w & I & J)]; [cbn in I; intuition discriminate|]. rewrite Forall_forall in F'. destruct (F' w I) as [_ H]. apply (H _ J). cbn. tauto.
Qed.
Example C59_csv_many_options_hyp : Forall (fun w => option_word w /\ trimmed w) [txt "m"; txt "km"; txt "none"] /\ quote_ends [txt "m"; txt "km"; txt "none"] = [quote_char :: txt "m"; txt "km"; txt "none" ++ [quote_char]].
Proof.
  split; [|reflexivity]. repeat (constructor; [split; [split; [discriminate|intros c I X; cbn in I, X; intuition (subst; discriminate)]|split; intros c r E; [injection E as <- _; reflexivity|apply (f_equal (fun l => last l "x"%char)) in E; rewrite last_last in E; cbn in E; subst c; reflexivity]]|]). constructor.
Qed.
(** A text as the default of a list is read as the list of its parts *)
Definition item_word (w : text) : Prop := trimmed w /\ forall c, In c w -> ~ In c [","; "'"; "034"; "["; "]"]%char.
Theorem C59_list_default ws d e br : (2 <= List.length ws)%nat -> Forall item_word ws ->
  let given : text := if br : bool then "["%char :: join (txt ", ") ws ++ ["]"%char] else join (txt ", ") ws in
  validate_entry (mkV (CText (txt "string")) (CBool true) CNone (CText (txt "name list")) (CText d) (CList []) (CList []) (CText e) (CText given))
  = Ok (mkV (CText (txt "string")) (CBool true) CNone (CText (txt "name list")) (CText d) (CList []) (CList []) (CText e) (CList (map CText ws))).
Proof.
  intros L F given. destruct ws as [|w [|x ws]]; [cbn in L; lia|cbn in L; lia|]. clear L. set (l := w :: x :: ws) in *.
  assert (C : In ","%char given). { assert (CJ : In ","%char (join (txt ", ") l)) by (unfold l; rewrite join_cons2; apply in_or_app; right; left; reflexivity). unfold given. destruct br; [right; apply in_or_app; left; exact CJ|exact CJ]. }
  assert (RB : remove_brackets given = join (txt ", ") l).
  { assert (NC : forall c, In c ["["; "]"]%char -> ~ In c (join (txt ", ") l)).
    { intros c IC I. apply ValidatorsProofs.join_In in I as [I|(y & I & J)]; [cbn in IC, I; destruct IC as [<-|[<-|[]]]; intuition discriminate|]. rewrite Forall_forall in F. destruct (F y I) as [_ H]. apply (H c J). cbn in *. tauto. }
    assert (R : forall s, s = join (txt ", ") l -> replace_char "]" [] (replace_char "[" [] s) = s).
    { intros s ->. rewrite (replace_char_absent "["%char [] (join (txt ", ") l)) by (apply NC; cbn; tauto). apply replace_char_absent. apply NC; cbn; tauto. }
    unfold given, remove_brackets. destruct br; [|apply R; reflexivity]. change ("["%char :: join (txt ", ") l ++ ["]"%char]) with (["["%char] ++ join (txt ", ") l ++ ["]"%char]). rewrite !replace_char_app, (R (join (txt ", ") l) eq_refl). cbn [replace_char flat_map Ascii.eqb Bool.eqb app]. apply app_nil_r. }
  assert (SP : map strip (split_on ","%char (join (txt ", ") l)) = l).
  { assert (G : forall l b, (b = [] \/ b = [" "%char]) -> l <> [] -> Forall item_word l -> map strip (split_on ","%char (b ++ join (txt ", ") l)) = l).
    { clear. induction l as [|w l IH]; intros b HB NE F; [congruence|]. inversion F as [|? ? [T H] F']; subst. assert (NB : ~ In ","%char (b ++ w)) by (intros I; apply in_app_or in I as [I|I]; [destruct HB as [->| ->]; [destruct I|destruct I as [I|[]]; discriminate I]|apply (H _ I); cbn; tauto]).
      assert (ST : strip (b ++ w) = w) by (rewrite <- (app_nil_r w) at 1; apply strip_pad; [destruct HB as [->| ->]; reflexivity|reflexivity|exact T]).
      destruct l as [|x l]; [cbn [join]; rewrite split_on_no by exact NB; cbn [map]; rewrite ST; reflexivity|].
      rewrite join_cons2. assert (E : split_on ","%char (b ++ w ++ txt ", " ++ join (txt ", ") (x :: l)) = (b ++ w) :: split_on ","%char ([" "%char] ++ join (txt ", ") (x :: l))).
      { assert (SC : forall a r, ~ In ","%char a -> split_on ","%char (a ++ ","%char :: r) = a :: split_on ","%char r).
        { clear. induction a as [|c a IH]; intros r N; [reflexivity|]. cbn [app split_on]. destruct (Ascii.eqb_spec c ",") as [->|_]; [exfalso; apply N; left; reflexivity|]. rewrite IH by (intros I; apply N; right; exact I). reflexivity. }
        rewrite app_assoc. cbn [txt list_ascii_of_string app]. apply SC. exact NB. }
      rewrite E. cbn [map]. rewrite ST. f_equal. apply IH; [right; reflexivity|discriminate|exact F']. }
    apply (G l []); [left; reflexivity|discriminate|exact F]. }
  assert (NV : no_value (CText given) = false).
  { unfold no_value. apply not_true_iff_false. intros X. apply existsb_exists in X as (y & J & X). apply text_eqb_eq in X. rewrite X in C. cbn in J. destruct J as [<-|[<-|[<-|[]]]]; cbn in C; intuition discriminate. }
  assert (V : validate_value_type (CText given) (txt "string") (txt "name list") = Ok (CList (map CText l))).
  { unfold validate_value_type. rewrite NV. change (text_eqb (txt "string") (txt "h5py_reference")) with false. cbn iota. change (validate_type (txt "string")) with (Ok (txt "string")). cbn [bindR]. change (text_eqb (txt "string") (txt "h5py_reference")) with false. cbn iota. change (contains (txt "list") (txt "name list")) with true. cbn iota.
    unfold list_of_text. rewrite (proj2 (has_char_In "," given) C). cbn iota. rewrite RB, SP. unfold convert. change (text_eqb (txt "string") (txt "object")) with false. change (text_eqb (txt "string") (txt "string")) with true. cbn iota. rewrite map_map. cbn [str]. f_equal. f_equal. apply map_ext_in. intros y I. f_equal.
    rewrite Forall_forall in F. destruct (F y I) as [_ H]. rewrite (replace_char_absent "'"%char [] y) by (intros J; apply (H _ J); cbn; tauto). apply replace_char_absent. intros J. apply (H _ J). cbn. tauto. }
  unfold validate_entry. cbn [v_type v_required v_units v_style v_description v_options v_alias v_example v_default check_type check_required check_style check_description check_options check_example check_units map str].
  change (validate_type (txt "string")) with (Ok (txt "string")). change (validate_style (Some (txt "name list"))) with (Ok (txt "name list")). cbn [bindR]. unfold validate_default. cbn iota. rewrite V. reflexivity.
Qed.
Example C59_list_default_hyp : (2 <= List.length [txt "ex"; txt "ey"])%nat /\ Forall item_word [txt "ex"; txt "ey"].
Proof.
  split; [cbn; lia|]. repeat (constructor; [split; [split; intros c r E; [injection E as <- _; reflexivity|apply (f_equal (fun l => last l "x"%char)) in E; rewrite last_last in E; cbn in E; subst c; reflexivity]|intros c I X; cbn in I, X; intuition (subst; discriminate)]|]). constructor.
Qed.
Print Assumptions C59_list_default.

Print Assumptions C59_csv_many_options_refuted.

(** A comma in the description moves the rest of the line into the next fields. *)
Theorem C59_csv_comma_refuted k v a b d0 : attribute_name k -> good_entry v -> v_required v = CBool false -> field_text a -> field_text b ->
  exists v', from_csv (to_csv [(k, with_description (a ++ ","%char :: b) v)]) d0 = Ok (dset text_dec k v' d0, None) /\
    v_description v' = CText a /\ v_options v' = CList (map CText (validate_options b)) /\ v_example v' = CText (txt "None").
Proof.
  intros K G R A B. assert (FC : forall c, In c (tl (cells [] v)) -> field_text c) by (intros c I; exact (good_cells v c G I)). cbn [cells tl map In] in FC. pose proof (default_cell_ne v G) as DN.
  destruct G as [t r u s d e x T S D E X U]. cbn [v_required] in R. injection R as ->. cbn [v_type v_required v_units v_style v_description v_options v_alias v_example v_default] in *.
  set (v1 := mkV (CText t) (CBool false) u (CText s) (CText a) (CList []) (CList []) (CText (txt "None")) x).
  assert (FN : field_text (txt "None")) by (apply field_text_b; reflexivity).
  assert (G1 : good_entry v1) by (constructor; assumption). exists (with_options (validate_options b) v1). split; [|repeat split].
  set (lst := csv_cell (CText e) ++ ","%char :: csv_cell x).
  assert (ROW : csv_row k (with_description (a ++ ","%char :: b) (mkV (CText t) (CBool false) u (CText s) (CText d) (CList []) (CList []) (CText e) x)) = join [","%char] [k; csv_cell (CText t); csv_cell (CBool false); csv_cell u; csv_cell (CText s); a; b; txt "None"; txt "None"; lst]).
  { unfold csv_row, with_description, lst. cbn [map v_type v_required v_units v_style v_description v_options v_alias v_example v_default]. cbn [join]. cbn [csv_cell str]. rewrite <- !app_assoc. reflexivity. }
  assert (TL : trimmed lst /\ lst <> []).
  { assert (FE : field_text (csv_cell (CText e))) by (apply FC; tauto). assert (FX : field_text (csv_cell x)) by (apply FC; tauto). unfold lst. split; [|intros Y; apply app_eq_nil in Y as [_ Y]; discriminate Y].
    destruct (csv_cell (CText e)) as [|c e'] eqn:EE; cbn [app].
    - split; intros c r Y; [injection Y as <- _; reflexivity|]. destruct (exists_last DN) as (x0 & c0 & EX). rewrite EX in Y. change (","%char :: x0 ++ [c0]) with ((","%char :: x0) ++ [c0]) in Y. apply app_inj_tail in Y as [_ <-]. apply (proj2 (proj1 FX) c0 x0). exact EX.
    - change (c :: e' ++ ","%char :: csv_cell x) with ((c :: e') ++ [","%char] ++ csv_cell x). apply trimmed_app3; [apply FE|discriminate|apply FX|exact DN]. }
  assert (FW : forall c, In c [csv_cell (CText t); csv_cell (CBool false); csv_cell u; csv_cell (CText s); a; b; txt "None"; txt "None"] -> field_text c).
  { intros c I. cbn [In] in I. destruct I as [<-|[<-|[<-|[<-|[<-|[<-|[<-|[<-|[]]]]]]]]]; try assumption; apply FC; tauto. }
  assert (RR : forall e0, e0 = [] \/ e0 = [nl] -> read_row required_keys (csv_row k (with_description (a ++ ","%char :: b) (mkV (CText t) (CBool false) u (CText s) (CText d) (CList []) (CList []) (CText e) x)) ++ e0) = Ok (k, with_options (validate_options b) v1)).
  { intros e0 EE. rewrite ROW. rewrite (read_cells k _ _ _ _ _ _ _ _ _ e0 K FW); [|apply TL|apply TL|exact EE]. unfold validate_entry. cbn [v_type v_required v_units v_style v_description v_options v_alias v_example v_default]. rewrite (units_again u U). cbn [csv_cell str check_type check_style check_description check_example bindR]. rewrite (proj1 (type_stable t T)), (style_stable s S). cbn [bindR].
    change (check_required (CText (repr (CBool false)))) with (Ok (CBool false)). cbn [bindR]. change (check_options (CText (txt "None"))) with (Ok (CList [])). cbn [bindR check_options]. pose proof (default_stable false t s x (map CText (validate_options b)) S X) as DS. cbn [validate_default] in *. rewrite DS. reflexivity. }
  assert (NLR : let row := csv_row k (with_description (a ++ ","%char :: b) (mkV (CText t) (CBool false) u (CText s) (CText d) (CList []) (CList []) (CText e) x)) in ~ In nl row /\ row <> [] /\ (2 <= List.length row)%nat).
  { cbv zeta. rewrite ROW. split; [|destruct K as [NE _]; destruct k as [|c0 k]; [contradiction|]; split; [discriminate|apply join_two]].
    intros I. apply ValidatorsProofs.join_In in I as [[Y|[]]|(c & I & J)]; [discriminate Y|]. destruct I as [<-|I]; [apply (proj1 (proj2 K)); exact J|]. change (In c ([csv_cell (CText t); csv_cell (CBool false); csv_cell u; csv_cell (CText s); a; b; txt "None"; txt "None"] ++ [lst])) in I. apply in_app_or in I as [I|[<-|[]]]; [apply (FW c I); exact J|].
    unfold lst in J. apply in_app_or in J as [J|[J|J]]; [apply (FC (csv_cell (CText e))); [tauto|exact J]|discriminate J|apply (FC (csv_cell x)); [tauto|exact J]]. }
  apply (from_csv_rows [(k, with_description (a ++ ","%char :: b) _)] d0 [(k, with_options (validate_options b) v1)]).
  - constructor; [intros []|constructor].
  - intros kv [<-|[]]. exact NLR.
  - unfold sorted_items, items. cbn [dkeys map fst sort_texts fold_right insert_text flat_map dget]. destruct (text_dec k k); [|congruence]. cbn [app]. constructor; [|constructor]. split; [reflexivity|]. split; [apply entry_stable_o; exact G1|]. cbn [fst snd]. exact RR.
Qed.
Example C59_csv_comma_hyp : match from_csv (to_csv [(txt "comments", with_description (txt "any text, of any length") comment_entry)]) [] with
  | Ok ([(_, v)], None) => v_description v = CText (txt "any text") /\ v_options v = CList [CText (txt "of any length")] /\ v_example v = CText (txt "None") | _ => False end.
Proof. vm_compute. repeat split. Qed.

Print Assumptions C59_set. Print Assumptions C59_set_good. Print Assumptions C59_add_dict. Print Assumptions C59_update_stops. Print Assumptions C59_delete. Print Assumptions C59_missing_refuted.
Print Assumptions C59_default_refuted. Print Assumptions C59_bool_refuted. Print Assumptions C59_latex_refuted. Print Assumptions C59_csv. Print Assumptions C59_csv_options_refuted. Print Assumptions C59_csv_comma_refuted.
