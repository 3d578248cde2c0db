(** Proofs about LayModel. *)
From Coq Require Import Qabs Lqa Permutation.
From Verif Require Import PyBase PyText PyNum PyFloat PyFacts TextFacts PyFloatFacts ValidatorsModel ValidatorsProofs XmlModel XmlSpec XmlProofs XmlProps EmtfModel EmtfSpec EmtfProofs LayModel LaySpec.
Local Open Scope nat_scope.

(** * Texts *)
Lemma through_char c : without_ampersands (escape_char c) = becomes c.
Proof.
  unfold escape_char, becomes.
  destruct (Ascii.eqb c "&") eqn:A; [reflexivity|]. destruct (Ascii.eqb c "<") eqn:B; [reflexivity|].
  destruct (Ascii.eqb c """") eqn:C.
  - destruct (Ascii.eqb c ">") eqn:D; [apply Ascii.eqb_eq in C, D; subst; discriminate|reflexivity].
  - destruct (Ascii.eqb c ">") eqn:D; [reflexivity|]. unfold without_ampersands, replace_char. cbn [flat_map app]. rewrite A. reflexivity.
Qed.
Lemma through_all s : without_ampersands (escape s) = flat_map becomes s.
Proof.
  unfold without_ampersands, replace_char, escape. induction s as [|c s IH]; [reflexivity|]. cbn [flat_map]. rewrite flat_map_app, IH. f_equal. apply through_char.
Qed.
Definition special (c : ascii) : bool := (Ascii.eqb c "&" || Ascii.eqb c "<" || Ascii.eqb c ">" || Ascii.eqb c """")%bool.
Lemma becomes_plain c : special c = false -> becomes c = [c].
Proof. unfold special, becomes. intros H. repeat (apply orb_false_iff in H as [H ?]). rewrite H, H2, H1, H0. reflexivity. Qed.
Lemma becomes_special c : special c = true -> exists w, becomes c = txt "and" ++ w ++ [";"%char].
Proof.
  unfold special, becomes. intros H. destruct (Ascii.eqb c "&"); [exists (txt "amp"); reflexivity|]. destruct (Ascii.eqb c "<"); [exists (txt "lt"); reflexivity|].
  destruct (Ascii.eqb c ">"); [exists (txt "gt"); reflexivity|]. destruct (Ascii.eqb c """"); [exists (txt "quot"); reflexivity|]. discriminate H.
Qed.
Lemma special_iff c : special c = false <-> plain_char c.
Proof.
  unfold special, plain_char. cbn [In]. split.
  - intros H I. repeat (apply orb_false_iff in H as [H ?]). destruct I as [I|[I|[I|[I|[]]]]]; subst c; discriminate.
  - intros N. destruct (Ascii.eqb c "&") eqn:A; [apply Ascii.eqb_eq in A; subst; exfalso; apply N; auto|]. destruct (Ascii.eqb c "<") eqn:B; [apply Ascii.eqb_eq in B; subst; exfalso; apply N; auto|].
    destruct (Ascii.eqb c ">") eqn:D; [apply Ascii.eqb_eq in D; subst; exfalso; apply N; auto|]. destruct (Ascii.eqb c """") eqn:E; [apply Ascii.eqb_eq in E; subst; exfalso; apply N; auto|]. reflexivity.
Qed.
Lemma becomes_space c : is_space c = true -> becomes c = [c].
Proof. intros H. apply becomes_plain. destruct (special c) eqn:S; [|reflexivity]. unfold special in S. repeat (apply orb_true_iff in S as [S|S]); apply Ascii.eqb_eq in S; subst; discriminate H. Qed.
Lemma flat_spaces sp : forallb is_space sp = true -> flat_map becomes sp = sp.
Proof. induction sp as [|c sp IH]; intros H; [reflexivity|]. cbn [forallb] in H. apply andb_true_iff in H as [A B]. cbn [flat_map]. rewrite (becomes_space c A), (IH B). reflexivity. Qed.
Lemma becomes_edges c : is_space c = false -> exists a w b v, becomes c = a :: w /\ is_space a = false /\ becomes c = v ++ [b] /\ is_space b = false.
Proof.
  intros H. destruct (special c) eqn:S.
  - destruct (becomes_special c S) as (w & E). rewrite E. exists "a"%char, (txt "nd" ++ w ++ [";"%char])%list, ";"%char, (txt "and" ++ w)%list. repeat split.
  - rewrite (becomes_plain c S). exists c, [], c, []. repeat split; assumption.
Qed.
Lemma flat_trimmed s : trimmed s -> trimmed (flat_map becomes s).
Proof.
  intros [H1 H2]. destruct s as [|c0 s0] eqn:ES; [split; [intros c r E; discriminate E|intros c r E; destruct r; discriminate E]|]. rewrite <- ES in *.
  split.
  - intros c r E. rewrite ES in E. cbn [flat_map] in E. destruct (becomes_edges c0 (H1 c0 s0 ES)) as (a & w & b & v & B & SA & _ & _). rewrite B in E. cbn [app] in E. injection E as <- _. exact SA.
  - intros c r E. destruct (exists_last (l := s)) as (u & x & EX); [rewrite ES; discriminate|].
    rewrite EX in E. rewrite flat_map_app in E. cbn [flat_map] in E. rewrite app_nil_r in E. destruct (becomes_edges x (H2 x u EX)) as (a & w & b & v & _ & _ & B & SB). rewrite B, app_assoc in E.
    apply app_inj_tail in E as [_ <-]. exact SB.
Qed.
Lemma strip_split s : exists a b, s = a ++ strip s ++ b /\ forallb is_space a = true /\ forallb is_space b = true.
Proof.
  destruct (lstrip_decomp s) as (sp & E & F). unfold strip. destruct (lstrip_decomp (rev (lstrip s))) as (sp2 & E2 & F2).
  exists sp, (rev sp2). split; [|split; [exact F|]].
  - rewrite E at 1. f_equal. unfold rstrip. rewrite <- rev_app_distr, <- E2, rev_involutive. reflexivity.
  - rewrite forallb_forall in *. intros x I. apply F2. apply in_rev. exact I.
Qed.
Lemma through_eq s : text_through_file s = flat_map becomes (strip s).
Proof.
  unfold text_through_file, read_text. rewrite through_all. destruct (strip_split s) as (a & b & E & A & B). rewrite E at 1. rewrite !flat_map_app, (flat_spaces a A), (flat_spaces b B).
  apply strip_pad; [exact A|exact B|]. apply flat_trimmed, trimmed_strip.
Qed.
Lemma flat_length s : List.length s <= List.length (flat_map becomes s) /\ (existsb special s = true -> List.length s < List.length (flat_map becomes s)).
Proof.
  induction s as [|c s [IH1 IH2]]; [split; [reflexivity|discriminate]|]. cbn [flat_map existsb List.length]. rewrite app_length. destruct (special c) eqn:S.
  - destruct (becomes_special c S) as (w & E). rewrite E. rewrite !app_length. cbn [List.length]. split; [|intros _]; change (List.length (txt "and")) with 3; lia.
  - rewrite (becomes_plain c S). cbn [List.length orb]. split; [lia|]. intros H. specialize (IH2 H). lia.
Qed.
Lemma flat_plain s : existsb special s = false -> flat_map becomes s = s.
Proof. induction s as [|c s IH]; intros H; [reflexivity|]. cbn [existsb] in H. apply orb_false_iff in H as [A B]. cbn [flat_map]. rewrite (becomes_plain c A), (IH B). reflexivity. Qed.
Lemma becomes_all_plain c : existsb special (becomes c) = false.
Proof. apply negb_true_iff. revert c. apply (ascii_forall (fun c => negb (existsb special (becomes c)))). vm_compute. reflexivity. Qed.
Lemma flat_all_plain s : existsb special (flat_map becomes s) = false.
Proof. induction s as [|c s IH]; [reflexivity|]. cbn [flat_map]. rewrite existsb_app, becomes_all_plain. exact IH. Qed.
Lemma existsb_special s : existsb special s = false <-> Forall plain_char s.
Proof.
  induction s as [|c s IH]; [split; [constructor|reflexivity]|]. cbn [existsb]. rewrite orb_false_iff, special_iff, IH. split; [intros [A B]; constructor; assumption|intros F; inversion F; split; assumption].
Qed.

(** * The element in a file *)
Definition inner (v : xval) : result xval := match v with XDict _ | XList _ => conv v | _ => Ok v end.
Lemma root_at TAG KEY rt t pre D post v v' x y : TAG <> txt "item" -> validate_attribute TAG = Ok KEY -> (forall s, t = Some s -> strip s = []) -> Forall (other_element TAG KEY) pre -> Forall (other_element TAG KEY) post -> tag_of D = TAG ->
  read D = Ok v -> inner v = Ok v' -> read (Elem rt [] t (pre ++ D :: post)%list) = Ok x -> conv x = Ok y -> at_key (KEY) y = Ok v'.
Proof.
  intros TI TK T P1 P2 TD RD CV R C. rewrite read_eq in R. destruct (read_each (pre ++ D :: post)%list) as [kvs|e] eqn:RE; [|discriminate R]. cbn [bindR List.length set_attribs] in R.
  destruct (read_each_split pre D post kvs v RD RE) as (a & b & RA & RB & EK). rewrite TD in EK.
  assert (NC : nonempty (pre ++ D :: post)%list = true) by (destruct pre; reflexivity). rewrite NC in R. change (kept_attribs []) with (@nil (text * text)) in R.
  cbv zeta in R. rewrite (set_text_space t _ T) in R. injection R as R. assert (RX : child_value kvs = x) by (destruct pre; exact R). clear R.
  assert (OA : forall k w, In (k, w) (a ++ b)%list -> k <> TAG /\ k <> txt "item" /\ validate_attribute k <> Ok (KEY)).
  { intros k w I. apply (in_map fst) in I. rewrite map_app, (read_each_tags pre a RA), (read_each_tags post b RB) in I. cbn [fst] in I. rewrite <- map_app in I. apply in_map_iff in I as (c & <- & I). rewrite Forall_forall in P1, P2.
    apply in_app_or in I as [I|I]; [apply (P1 c I)|apply (P2 c I)]. }
  unfold child_value, group in RX. change (fun d kv => dset text_dec (fst kv) _ d) with add_group in RX. set (g := fold_left add_group kvs []) in *. cbv zeta in RX.
  assert (KG : forall k, In k (map fst g) -> k = TAG \/ (k <> TAG /\ k <> txt "item" /\ validate_attribute k <> Ok (KEY))).
  { intros k I. apply group_keys in I as [[]|I]. subst kvs. rewrite map_app in I. cbn [map fst] in I. apply in_app_or in I as [I|[<-|I]]; [right| left; reflexivity|right].
    - apply in_map_iff in I as ([k0 w] & <- & I). apply (OA k0 w). apply in_or_app. left. exact I.
    - apply in_map_iff in I as ([k0 w] & <- & I). apply (OA k0 w). apply in_or_app. right. exact I. }
  assert (NG : NoDup (map fst g)) by (apply group_nodup; constructor).
  assert (GD : dget text_dec (TAG) g = Some [v]).
  { unfold g. rewrite group_get. cbn [dget]. rewrite EK, filter_app. cbn [filter fst]. rewrite text_eqb_refl.
    rewrite (filter_none _ a), (filter_none _ b); [reflexivity| |]; intros [k w] I; cbn [fst]; destruct (text_eqb k (TAG)) eqn:E; try reflexivity; apply text_eqb_eq in E; exfalso.
    - apply (proj1 (OA k w (in_or_app a b _ (or_intror I)))); exact E.
    - apply (proj1 (OA k w (in_or_app a b _ (or_introl I)))); exact E. }
  rewrite dget_map in RX. assert (GI : dget text_dec (txt "item") g = None).
  { apply dget_fresh. intros I. destruct (KG _ I) as [E|(_ & N & _)]; [congruence|congruence]. }
  rewrite GI in RX. cbn [option_map] in RX. subst x. rewrite conv_dict in C. destruct (conv_each (map (fun kl => (fst kl, one_or_list (snd kl))) g) []) as [d'|e] eqn:CE; [|discriminate C]. cbn [bindR] in C. injection C as <-.
  destruct (dget_split _ _ _ GD) as (g1 & g2 & EG). rewrite EG, map_app in CE. cbn [map fst snd one_or_list] in CE. rewrite conv_each_app in CE.
  destruct (conv_each (map (fun kl => (fst kl, one_or_list (snd kl))) g1) []) as [acc|e]; [|discriminate CE]. cbn [bindR conv_each] in CE.
  rewrite TK in CE. cbn [bindR] in CE.
  change (match v with XDict _ | XList _ => conv v | _ => Ok v end) with (inner v) in CE. rewrite CV in CE. cbn [bindR] in CE.
  assert (K2 : dget text_dec (KEY) d' = Some v').
  { rewrite (conv_each_get (KEY) _ _ _ CE), dget_dset.
    - destruct (text_dec (KEY) (KEY)); [reflexivity|congruence].
    - intros k w I. apply in_map_iff in I as ([k0 l] & E & I). cbn [fst snd] in E. injection E as <- _. destruct (KG k0) as [E|(_ & _ & N)]; [|rewrite E in *|exact N].
      + rewrite EG, map_app. apply in_or_app. right. right. apply (in_map fst) in I. exact I.
      + rewrite EG, map_app in NG. cbn [map fst] in NG. apply NoDup_remove_2 in NG. exfalso. apply NG. apply in_or_app. right. apply (in_map fst) in I. exact I. }
  cbn [at_key]. rewrite K2. reflexivity.
Qed.
Lemma NoDup_app_snoc' {A} (l : list A) x : NoDup l -> ~ In x l -> NoDup (l ++ [x]).
Proof. intros N I. apply NoDup_rev in N. rewrite <- (rev_involutive l). change [x] with (rev [x]). rewrite <- rev_app_distr. apply NoDup_rev. cbn [app]. constructor; [rewrite <- in_rev; exact I|exact N]. Qed.
Lemma dget_app' {V} k (d e : list (text * V)) : dget text_dec k (d ++ e) = match dget text_dec k d with Some v => Some v | None => dget text_dec k e end.
Proof. induction d as [|[k' v] d IH]; [reflexivity|]. cbn [app dget]. destruct (text_dec k k'); [reflexivity|exact IH]. Qed.
Lemma remove_null_eq tag a t cs : remove_null (Elem tag a t cs) = Elem tag (map (fun kv => (fst kv, null_text (snd kv))) a) (match t with Some s => if is_null s then None else Some s | None => None end) (map remove_null cs).
Proof. reflexivity. Qed.
Lemma remove_null_tag e : tag_of (remove_null e) = tag_of e.
Proof. destruct e. reflexivity. Qed.
Lemma file_value key E root v v' : file_with key E root -> tag_of E <> txt "item" -> validate_attribute (tag_of E) = Ok key -> read (remove_null E) = Ok v -> inner v = Ok v' ->
  exists x y, read root = Ok x /\ conv x = Ok y /\ at_key key y = Ok v'.
Proof.
  intros ((rt & t & pre & D & post & -> & T & P1 & P2 & S) & x & y & R & C) TI TK RE CV. exists x, y. split; [exact R|]. split; [exact C|].
  apply (root_at (tag_of E) key rt t pre D post v v' x y TI TK T P1 P2); [rewrite (spaced_tag _ _ S); apply remove_null_tag|rewrite (spaced_read _ _ S); exact RE|exact CV|exact R|exact C].
Qed.
(** What conv makes of a dictionary. *)
Lemma conv_each_id d : forall acc, Forall (fun kv => validate_attribute (fst kv) = Ok (fst kv) /\ inner (snd kv) = Ok (snd kv)) d ->
  NoDup (map fst acc ++ map fst d)%list -> conv_each d acc = Ok (acc ++ d)%list.
Proof.
  induction d as [|[k v] d IH]; intros acc F N; [rewrite app_nil_r; reflexivity|]. cbn [conv_each map fst] in *. inversion F as [|? ? [F1 F2] F3]; subst. cbn [fst snd] in *.
  rewrite F1. cbn [bindR]. change (match v with XDict _ | XList _ => conv v | _ => Ok v end) with (inner v). rewrite F2. cbn [bindR].
  assert (NI : ~ In k (map fst acc)) by (apply NoDup_remove_2 in N; intros I; apply N; apply in_or_app; left; exact I).
  rewrite (dset_fresh k v acc NI), IH; [rewrite <- app_assoc; reflexivity|assumption|]. rewrite map_app, <- app_assoc. exact N.
Qed.
Lemma conv_each_ok d : forall acc, Forall (fun kv => (exists k, validate_attribute (fst kv) = Ok k) /\ (exists v, inner (snd kv) = Ok v)) d -> exists d', conv_each d acc = Ok d'.
Proof.
  induction d as [|[k v] d IH]; intros acc F; [exists acc; reflexivity|]. inversion F as [|? ? [[k' F1] [v' F2]] F3]; subst. cbn [fst snd] in *. cbn [conv_each]. rewrite F1. cbn [bindR].
  change (match v with XDict _ | XList _ => conv v | _ => Ok v end) with (inner v). rewrite F2. cbn [bindR]. apply IH. exact F3.
Qed.
Lemma conv_each_at K0 K v v' d : forall acc d', conv_each d acc = Ok d' -> dget text_dec K0 d = Some v -> NoDup (map fst d) -> validate_attribute K0 = Ok K -> inner v = Ok v' ->
  (forall k, In k (map fst d) -> k <> K0 -> validate_attribute k <> Ok K) -> dget text_dec K d' = Some v'.
Proof.
  intros acc d' E G N VK CV O. destruct (dget_split _ _ _ G) as (d1 & d2 & ->). rewrite conv_each_app in E. destruct (conv_each d1 acc) as [a|e]; [|discriminate E]. cbn [bindR conv_each] in E. rewrite VK in E. cbn [bindR] in E.
  change (match v with XDict _ | XList _ => conv v | _ => Ok v end) with (inner v) in E. rewrite CV in E. cbn [bindR] in E. rewrite map_app in N. cbn [map fst] in N. apply NoDup_remove_2 in N.
  rewrite (conv_each_get K _ _ _ E), dget_dset; [destruct (text_dec K K); [reflexivity|congruence]|]. intros k w I. apply O.
  - rewrite map_app. apply in_or_app. right. right. apply (in_map fst) in I. exact I.
  - intros ->. apply N. apply in_or_app. right. apply (in_map fst) in I. exact I.
Qed.
Lemma conv_each_not K d d' : conv_each d [] = Ok d' -> (forall k, In k (map fst d) -> validate_attribute k <> Ok K) -> dget text_dec K d' = None.
Proof. intros E H. rewrite (conv_each_get K _ _ _ E); [reflexivity|]. intros k v I. apply H. apply (in_map fst) in I. exact I. Qed.

(** * Channels *)
Lemma read_fixed3 q : exists q', read_float (show_fixed 3 q) = Some (Fin q') /\ thousandths q q'.
Proof.
  unfold show_fixed. set (n := round_half_even (q * inject_Z (10 ^ Z.of_nat 3))). destruct (read_show_scaled 3 n) as (q' & R & E). exists q'. split; [exact R|].
  assert (E2 : (q' == n # 1000)%Q) by (rewrite E; unfold Qeq; cbn; lia). split; [exists n; exact E2|].
  rewrite E2. destruct (round_half_even_bound (q * inject_Z (10 ^ Z.of_nat 3))) as [B1 B2]. fold n in B1, B2.
  assert (N : (inject_Z n == (1000 # 1) * (n # 1000))%Q) by (rewrite (Qmake_Qdiv n 1000); field). assert (H : (inject_Z (10 ^ Z.of_nat 3) == 1000 # 1)%Q) by reflexivity. rewrite N in B1, B2. setoid_rewrite H in B1. setoid_rewrite H in B2.
  apply Qabs_Qle_condition. split; lra.
Qed.
Lemma null_in s : is_null s = true <-> says_nothing s.
Proof.
  unfold is_null, says_nothing. change (map txt _) with null_values. split.
  - intros H. apply existsb_exists in H as (x & I & E). apply text_eqb_eq in E. subst x. exact I.
  - intros I. apply existsb_exists. exists s. split; [exact I|apply text_eqb_refl].
Qed.
Lemma null_fixed q : null_text (show_fixed 3 q) = show_fixed 3 q.
Proof.
  unfold null_text. destruct (is_null (show_fixed 3 q)) eqn:N; [|reflexivity]. exfalso. apply null_in in N. destruct (read_fixed3 q) as (q' & R & _). unfold says_nothing in N. cbn [map In] in N.
  repeat (destruct N as [N|N]; [rewrite <- N in R; vm_compute in R; discriminate R|]). exact N.
Qed.
Lemma null_name n : same_name n (null_text n).
Proof. unfold same_name, null_text. destruct (is_null n) eqn:E; [left; split; [apply null_in; exact E|reflexivity]|right; split; [|reflexivity]]. rewrite <- null_in, E. discriminate. Qed.
(** What a channel's element reads as, and what the reader makes of that. *)
Definition chan_dict (c : chan) : xval := XDict ((txt "name", XText (null_text (name_of c))) :: map (fun kv => (fst kv, XText (show_fixed 3 (snd kv)))) (numbers c)).
Lemma read_chan c : read (remove_null (chan_xml c)) = Ok (chan_dict c).
Proof.
  unfold chan_xml, chan_dict. rewrite remove_null_eq. cbn [map fst snd]. rewrite (C60_attribs (chan_tag c) _ None).
  - cbn [map fst snd]. rewrite !map_map. cbn [fst snd]. do 3 f_equal. apply map_ext. intros [k q]. cbn [fst snd]. rewrite null_fixed. reflexivity.
  - discriminate.
  - unfold read_attribs. cbn [map fst]. rewrite !map_map. cbn [fst]. destruct c; cbn [numbers map fst]; (split; [nodup_lits|split; intros N; cbn [In] in N; repeat match goal with H : _ \/ _ |- _ => destruct H as [H|H]; [discriminate H|] end; contradiction]).
  - discriminate.
Qed.
Lemma conv_chan c : inner (chan_dict c) = Ok (chan_dict c).
Proof.
  unfold chan_dict, inner. rewrite conv_dict, conv_each_id; [reflexivity| |].
  - destruct c; cbn [numbers map fst snd]; repeat (apply Forall_cons; [cbn [fst snd]; split; [vm_compute; reflexivity|reflexivity]|]); apply Forall_nil.
  - destruct c; cbn [numbers map fst snd app]; nodup_lits.
Qed.
Definition empty_chan (c : chan) : chan := if magnetic c then new_mag [] else new_ele [].
Definition read_num (q : Q) : Q := match read_float (show_fixed 3 q) with Some (Fin q') => q' | _ => 0 end.
Definition through (c : chan) : chan :=
  match c with
  | Mag n o x y z => Mag (null_text n) (read_num o) (read_num x) (read_num y) (read_num z)
  | Ele n o x y z x2 y2 z2 => Ele (null_text n) (read_num o) (read_num x) (read_num y) (read_num z) (read_num x2) (read_num y2) (read_num z2)
  end.
Lemma number_fixed q : number_of_val (XText (show_fixed 3 q)) = Ok (read_num q).
Proof. unfold number_of_val, read_num. destruct (read_fixed3 q) as (q' & R & _). rewrite R. reflexivity. Qed.
Lemma set_mag n o x y z s w v q : number_of_val v = Ok q ->
  set_chan (Mag n o x y z) (txt "name") (XText s) = Ok (Mag s o x y z) /\ set_chan (Mag n o x y z) (txt "orientation") v = Ok (Mag n q x y z) /\
  set_chan (Mag n o x y z) (txt "x") v = Ok (Mag n o q y z) /\ set_chan (Mag n o x y z) (txt "y") v = Ok (Mag n o x q z) /\ set_chan (Mag n o x y z) (txt "z") v = Ok (Mag n o x y q) /\ w = w :> text.
Proof. intros H. unfold set_chan. cbv zeta. rewrite H. repeat split. Qed.
Lemma set_ele n o x y z x2 y2 z2 s v q : number_of_val v = Ok q ->
  let c := Ele n o x y z x2 y2 z2 in
  set_chan c (txt "name") (XText s) = Ok (Ele s o x y z x2 y2 z2) /\ set_chan c (txt "orientation") v = Ok (Ele n q x y z x2 y2 z2) /\
  set_chan c (txt "x") v = Ok (Ele n o q y z x2 y2 z2) /\ set_chan c (txt "y") v = Ok (Ele n o x q z x2 y2 z2) /\ set_chan c (txt "z") v = Ok (Ele n o x y q x2 y2 z2) /\
  set_chan c (txt "x2") v = Ok (Ele n o x y z q y2 z2) /\ set_chan c (txt "y2") v = Ok (Ele n o x y z x2 q z2) /\ set_chan c (txt "z2") v = Ok (Ele n o x y z x2 y2 q).
Proof. intros H. unfold set_chan. cbv zeta. rewrite H. repeat split. Qed.
Lemma chan_through c : chan_of (empty_chan c) (chan_dict c) = Ok (through c).
Proof.
  unfold chan_of, chan_dict. destruct c as [n o x y z|n o x y z x2 y2 z2]; cbn [empty_chan magnetic name_of numbers map fst snd set_fields through]; unfold empty_chan, new_mag, new_ele; cbn [magnetic].
  - rewrite (proj1 (set_mag _ _ _ _ _ _ [] _ _ (number_fixed o))). cbn [bindR].
    rewrite (proj1 (proj2 (set_mag _ _ _ _ _ [] [] _ _ (number_fixed o)))). cbn [bindR].
    rewrite (proj1 (proj2 (proj2 (set_mag _ _ _ _ _ [] [] _ _ (number_fixed x))))). cbn [bindR].
    rewrite (proj1 (proj2 (proj2 (proj2 (set_mag _ _ _ _ _ [] [] _ _ (number_fixed y)))))). cbn [bindR].
    rewrite (proj1 (proj2 (proj2 (proj2 (proj2 (set_mag _ _ _ _ _ [] [] _ _ (number_fixed z))))))). reflexivity.
  - rewrite (proj1 (set_ele _ _ _ _ _ _ _ _ _ _ _ (number_fixed o))). cbn [bindR].
    rewrite (proj1 (proj2 (set_ele _ _ _ _ _ _ _ _ [] _ _ (number_fixed o)))). cbn [bindR].
    rewrite (proj1 (proj2 (proj2 (set_ele _ _ _ _ _ _ _ _ [] _ _ (number_fixed x))))). cbn [bindR].
    rewrite (proj1 (proj2 (proj2 (proj2 (set_ele _ _ _ _ _ _ _ _ [] _ _ (number_fixed y)))))). cbn [bindR].
    rewrite (proj1 (proj2 (proj2 (proj2 (proj2 (set_ele _ _ _ _ _ _ _ _ [] _ _ (number_fixed z))))))). cbn [bindR].
    rewrite (proj1 (proj2 (proj2 (proj2 (proj2 (proj2 (set_ele _ _ _ _ _ _ _ _ [] _ _ (number_fixed x2)))))))). cbn [bindR].
    rewrite (proj1 (proj2 (proj2 (proj2 (proj2 (proj2 (proj2 (set_ele _ _ _ _ _ _ _ _ [] _ _ (number_fixed y2))))))))). cbn [bindR].
    rewrite (proj2 (proj2 (proj2 (proj2 (proj2 (proj2 (proj2 (set_ele _ _ _ _ _ _ _ _ [] _ _ (number_fixed z2))))))))). reflexivity.
Qed.
Lemma read_num_near q : thousandths q (read_num q).
Proof. unfold read_num. destruct (read_fixed3 q) as (q' & R & T). rewrite R. exact T. Qed.
Lemma through_back c : came_back c (through c).
Proof. destruct c; cbn [came_back through]; repeat split; try apply null_name; apply read_num_near. Qed.
Lemma round_comp p q : (p == q)%Q -> round_half_even p = round_half_even q.
Proof. intros E. apply Z.le_antisymm; apply round_half_even_mono; rewrite E; apply Qle_refl. Qed.
Lemma read_num_idem q : read_num (read_num q) = read_num q.
Proof.
  unfold read_num at 2 3. destruct (read_fixed3 q) as (q' & R & (n & E) & B). rewrite R. unfold read_num.
  assert (S : show_fixed 3 q' = show_fixed 3 q); [|rewrite S, R; reflexivity].
  unfold show_fixed in *. f_equal. set (m := round_half_even (q * inject_Z (10 ^ Z.of_nat 3))) in *. destruct (read_show_scaled 3 m) as (q2 & R2 & E2). rewrite R in R2. injection R2 as <-.
  rewrite <- (round_half_even_Z m). apply round_comp. rewrite E2. field. discriminate.
Qed.
Lemma null_idem n : null_text (null_text n) = null_text n.
Proof. unfold null_text at 2 3. destruct (is_null n) eqn:E; [reflexivity|]. unfold null_text. rewrite E. reflexivity. Qed.
Lemma through_idem c : through (through c) = through c.
Proof. destruct c; cbn [through]; rewrite null_idem, !read_num_idem; reflexivity. Qed.
Lemma through_magnetic c : magnetic (through c) = magnetic c.
Proof. destruct c; reflexivity. Qed.
Lemma tag_magnetic c : chan_tag c = if magnetic c then txt "Magnetic" else txt "Electric".
Proof. destruct c; reflexivity. Qed.

(** * The two lists of channels *)
Definition packed (l : list xval) : option xval := match l with [] => None | [v] => Some v | l => Some (XList l) end.
Lemma values_of_chans (b : bool) cs : values_of (if b then txt "Magnetic" else txt "Electric") (map (fun c => remove_null (chan_xml c)) cs) (map chan_dict cs) = map chan_dict (filter (fun c => Bool.eqb b (magnetic c)) cs).
Proof.
  unfold values_of. induction cs as [|c cs IH]; [reflexivity|]. cbn [map combine filter fst]. rewrite remove_null_tag. cbn [chan_xml tag_of]. rewrite tag_magnetic.
  destruct b, (magnetic c); cbn [Bool.eqb]; (match goal with |- context [text_eqb ?a ?b] => let r := eval vm_compute in (text_eqb a b) in change (text_eqb a b) with r end); cbv iota; cbn [map snd]; rewrite IH; reflexivity.
Qed.
Lemma inner_packed l v : Forall (fun x => inner x = Ok x /\ exists d, x = XDict d) l -> packed l = Some v -> inner v = Ok v.
Proof.
  intros F P. destruct l as [|a [|b l]]; [discriminate P| |]; cbn [packed] in P; injection P as <-; [inversion F as [|? ? [A _] _]; exact A|].
  cbn [inner]. rewrite conv_lst, (conv_list_ok (a :: b :: l) (a :: b :: l)); [reflexivity|]. clear -F. induction F as [|x r [E (d & ->)] F IH]; constructor; [exact E|exact IH].
Qed.
Definition section_xml (tag : text) (cs : list chan) : xml := Elem tag [(txt "ref", txt "site"); (txt "units", txt "m")] None (map chan_xml cs).
(** The dictionary of a section. *)
Lemma section_dict tag cs : exists d d', read (remove_null (section_xml tag cs)) = Ok (XDict d) /\ inner (XDict d) = Ok (XDict d') /\
  dget text_dec (txt "magnetic") d' = packed (map chan_dict (filter (fun c => Bool.eqb true (magnetic c)) cs)) /\
  dget text_dec (txt "electric") d' = packed (map chan_dict (filter (fun c => Bool.eqb false (magnetic c)) cs)).
Proof.
  unfold section_xml. rewrite remove_null_eq, map_map. cbn [map fst snd]. change (null_text (txt "site")) with (txt "site"). change (null_text (txt "m")) with (txt "m").
  set (ch := map (fun x => remove_null (chan_xml x)) cs).
  assert (K : ~ In (txt "ref") [txt "units"; txt "type"]) by (intros [H|[H|[]]]; discriminate H).
  rewrite (proj2 (C60_units_other tag (txt "m") (txt "ref") (txt "site") None ch K)).
  assert (RA : read_attribs [(txt "ref", txt "site")]) by (split; [cbn; nodup_lits|split; intros [H|[]]; discriminate H]).
  assert (DC : cs = [] \/ exists c0 cs0, cs = c0 :: cs0) by (destruct cs; eauto). destruct DC as [E0|(c0 & cs0 & EC)].
  - subst cs. exists [(txt "ref", XText (txt "site"))], [(txt "ref", XText (txt "site"))]. split; [reflexivity|]. split; [vm_compute; reflexivity|]. split; reflexivity.
  - assert (CN : ch <> []) by (unfold ch; rewrite EC; discriminate).
    assert (F : Forall2 (fun c v => read c = Ok v) ch (map chan_dict cs)).
    { unfold ch. clear. induction cs as [|c cs IH]; cbn [map]; constructor; [apply read_chan|exact IH]. }
    assert (TG : forall k, In k (map tag_of ch) -> k = txt "Magnetic" \/ k = txt "Electric").
    { unfold ch. rewrite map_map. intros k I. apply in_map_iff in I as (c & <- & _). rewrite remove_null_tag. cbn [chan_xml tag_of]. rewrite tag_magnetic. destruct (magnetic c); auto. }
    destruct (C60_children tag None ch (map chan_dict cs) CN F ltac:(discriminate)) as (d & R & N & G).
    { intros I. destruct (TG _ I) as [H|H]; discriminate H. }
    assert (KD : forall k, In k (map fst d) -> k = txt "Magnetic" \/ k = txt "Electric").
    { intros k I. destruct (dget text_dec k d) as [v|] eqn:Q; [|exfalso; apply dget_None in Q; contradiction]. rewrite G in Q. apply TG. unfold values_of in Q.
      destruct (filter (fun cv => text_eqb (tag_of (fst cv)) k) (combine ch (map chan_dict cs))) as [|[c w] r] eqn:FL; [discriminate Q|].
      assert (I2 : In (c, w) (filter (fun cv => text_eqb (tag_of (fst cv)) k) (combine ch (map chan_dict cs)))) by (rewrite FL; left; reflexivity).
      apply filter_In in I2 as [I2 E2]. apply text_eqb_eq in E2. cbn [fst] in E2. subst k. apply in_map. apply in_combine_l in I2. exact I2. }
    rewrite (C60_attribs_children tag [(txt "ref", txt "site")] None ch d CN RA ltac:(discriminate) R).
    2: { intros k I [H|[]]. cbn [fst] in H. subst k. destruct (KD _ I) as [H|H]; discriminate H. }
    2: exact N.
    cbn [map fst snd].
    set (D := (d ++ [(txt "ref", XText (txt "site"))])%list).
    assert (KD2 : forall k, In k (map fst D) -> k = txt "Magnetic" \/ k = txt "Electric" \/ k = txt "ref").
    { unfold D. intros k I. rewrite map_app in I. apply in_app_or in I as [I|[I|[]]]; [destruct (KD k I); auto|auto]. }
    assert (ND : NoDup (map fst D)).
    { unfold D. rewrite map_app. cbn [map fst]. apply NoDup_app_snoc'; [exact N|]. intros I. destruct (KD _ I) as [H|H]; discriminate H. }
    assert (PK : forall b : bool, dget text_dec (if b then txt "Magnetic" else txt "Electric") D = packed (map chan_dict (filter (fun c => Bool.eqb b (magnetic c)) cs))).
    { intros b. unfold D. rewrite dget_app', G. unfold ch. rewrite values_of_chans. unfold packed. destruct (map chan_dict (filter (fun c => Bool.eqb b (magnetic c)) cs)) as [|v [|w l]]; [|reflexivity|reflexivity]. destruct b; reflexivity. }
    assert (FC : forall l, Forall (fun x => inner x = Ok x /\ exists d0, x = XDict d0) (map chan_dict l)).
    { intros l. apply Forall_forall. intros x I. apply in_map_iff in I as (c & <- & _). split; [apply conv_chan|]. unfold chan_dict. eauto. }
    destruct (conv_each_ok D []) as (d' & CE).
    { apply Forall_forall. intros [k v] I. cbn [fst snd]. pose proof (in_map fst _ _ I) as IK. cbn [fst] in IK. pose proof (In_dget text_dec _ _ _ ND I) as GV.
      destruct (KD2 k IK) as [-> |[-> | ->]].
      - split; [exists (txt "magnetic"); vm_compute; reflexivity|]. exists v. pose proof (PK true) as P. cbn iota in P. rewrite GV in P. exact (inner_packed _ v (FC _) (eq_sym P)).
      - split; [exists (txt "electric"); vm_compute; reflexivity|]. exists v. pose proof (PK false) as P. cbn iota in P. rewrite GV in P. exact (inner_packed _ v (FC _) (eq_sym P)).
      - split; [exists (txt "ref"); vm_compute; reflexivity|]. unfold D in GV. rewrite dget_app' in GV. rewrite (dget_fresh (txt "ref") d) in GV by (intros J; destruct (KD _ J) as [H|H]; discriminate H). injection GV as <-. exists (XText (txt "site")). reflexivity. }
    exists D, d'. split; [reflexivity|]. split; [cbn [inner]; rewrite conv_dict, CE; reflexivity|].
    assert (AT : forall b : bool, dget text_dec (if b then txt "magnetic" else txt "electric") d' = packed (map chan_dict (filter (fun c => Bool.eqb b (magnetic c)) cs))).
    { intros b. pose proof (PK b) as P. destruct (packed (map chan_dict (filter (fun c => Bool.eqb b (magnetic c)) cs))) as [v|] eqn:Q.
      - apply (conv_each_at (if b then txt "Magnetic" else txt "Electric") _ v v D [] d' CE P ND).
        + destruct b; vm_compute; reflexivity.
        + exact (inner_packed _ v (FC _) Q).
        + intros k I NE. destruct (KD2 k I) as [-> |[-> | ->]]; destruct b; try congruence; vm_compute; discriminate.
      - apply (conv_each_not _ D d' CE). intros k I V. destruct (KD2 k I) as [-> |[-> | ->]]; destruct b; try (vm_compute in V; discriminate V); apply dget_None in P; contradiction. }
    split; [exact (AT true)|exact (AT false)].
Qed.
(** * The layout *)
Lemma chans_through (b : bool) cs : Forall (fun c => magnetic c = b) cs -> chans_of (if b then new_mag [] else new_ele []) (map chan_dict cs) = Ok (map through cs).
Proof.
  induction 1 as [|c cs H F IH]; [reflexivity|]. cbn [map chans_of]. rewrite IH. pose proof (chan_through c) as E. unfold empty_chan in E. rewrite H in E. rewrite E. reflexivity.
Qed.
Lemma filter_side b cs : Forall (fun c => magnetic c = b) (filter (fun c => Bool.eqb b (magnetic c)) cs).
Proof. apply Forall_forall. intros c I. apply filter_In in I as [_ E]. apply Bool.eqb_prop in E. symmetry. exact E. Qed.
Lemma under_packed k d vs : Forall (fun x => exists e, x = XDict e) vs -> dget text_dec k d = packed vs -> values_under k (Ok (XDict d)) = Some vs.
Proof.
  intros F G. unfold values_under. cbn [bindR at_key]. rewrite G. destruct vs as [|a [|b l]]; [reflexivity| |reflexivity]. cbn [packed]. inversion F as [|? ? (e & ->) _]; subst. reflexivity.
Qed.
Definition sides (cs : list chan) : list chan := (filter (fun c => Bool.eqb true (magnetic c)) cs ++ filter (fun c => Bool.eqb false (magnetic c)) cs)%list.
Lemma sides_first cs : sides cs = magnetic_first cs.
Proof. unfold sides, magnetic_first. f_equal; apply filter_ext; intros c; destruct (magnetic c); reflexivity. Qed.
Lemma section_read root d' ch cs old : bindR (at_key (txt "site_layout") root) (at_key ch) = Ok (XDict d') ->
  dget text_dec (txt "magnetic") d' = packed (map chan_dict (filter (fun c => Bool.eqb true (magnetic c)) cs)) ->
  dget text_dec (txt "electric") d' = packed (map chan_dict (filter (fun c => Bool.eqb false (magnetic c)) cs)) ->
  read_section root ch old = Ok (map through (magnetic_first cs)).
Proof.
  intros E M L. unfold read_section. cbv zeta. rewrite E.
  assert (FD : forall l, Forall (fun x => exists e, x = XDict e) (map chan_dict l)) by (intros l; apply Forall_forall; intros x I; apply in_map_iff in I as (c & <- & _); unfold chan_dict; eauto).
  rewrite (under_packed _ d' _ (FD _) M), (under_packed _ d' _ (FD _) L).
  rewrite (chans_through true _ (filter_side true cs)). cbn [bindR]. rewrite (chans_through false _ (filter_side false cs)). cbn [bindR]. rewrite <- map_app, <- sides_first. reflexivity.
Qed.
Lemma layout_sections l : layout_xml l = Elem (txt "SiteLayout") [] None [section_xml (txt "InputChannels") (l_in l); section_xml (txt "OutputChannels") (l_out l)].
Proof. reflexivity. Qed.
Lemma layout_read l root old : file_with (txt "site_layout") (layout_xml l) root ->
  layout_of_file old root = Ok (mkLayout (map through (magnetic_first (l_in l))) (map through (magnetic_first (l_out l)))).
Proof.
  intros F. destruct (section_dict (txt "InputChannels") (l_in l)) as (a & a' & RA & CA & MA & EA). destruct (section_dict (txt "OutputChannels") (l_out l)) as (b & b' & RB & CB & MB & EB).
  assert (R : read (remove_null (layout_xml l)) = Ok (XDict [(txt "InputChannels", XDict a); (txt "OutputChannels", XDict b)])).
  { rewrite layout_sections, remove_null_eq. cbn [map]. rewrite (read_node (txt "SiteLayout") None _ [XDict a; XDict b]); [reflexivity|discriminate| |discriminate]. constructor; [exact RA|]. constructor; [exact RB|constructor]. }
  assert (C : inner (XDict [(txt "InputChannels", XDict a); (txt "OutputChannels", XDict b)]) = Ok (XDict [(txt "input_channels", XDict a'); (txt "output_channels", XDict b')])).
  { cbn [inner] in CA, CB. cbn [inner]. rewrite conv_dict. cbn [conv_each]. change (validate_attribute (txt "InputChannels")) with (@Ok text (txt "input_channels")). change (validate_attribute (txt "OutputChannels")) with (@Ok text (txt "output_channels")).
    cbn [bindR]. rewrite CA, CB. reflexivity. }
  destruct (file_value _ _ _ _ _ F ltac:(discriminate) ltac:(vm_compute; reflexivity) R C) as (x & y & RX & CY & AT).
  unfold layout_of_file. rewrite RX. cbn [bindR]. rewrite CY. cbn [bindR]. unfold read_layout.
  rewrite (section_read y a' (txt "input_channels") (l_in l) _); [|rewrite AT; reflexivity|exact MA|exact EA]. cbn [bindR].
  rewrite (section_read y b' (txt "output_channels") (l_out l) _); [|rewrite AT; reflexivity|exact MB|exact EB]. reflexivity.
Qed.
Lemma first_through cs : magnetic_first (map through cs) = map through (magnetic_first cs).
Proof.
  unfold magnetic_first. rewrite map_app. f_equal; (induction cs as [|c cs IH]; [reflexivity|]; cbn [map filter]; rewrite through_magnetic; destruct (magnetic c); cbn [negb map]; rewrite IH; reflexivity).
Qed.
Lemma filter_idem {A} (f : A -> bool) l : filter f (filter f l) = filter f l.
Proof. induction l as [|x l IH]; [reflexivity|]. cbn [filter]. destruct (f x) eqn:E; [cbn [filter]; rewrite E, IH; reflexivity|exact IH]. Qed.
Lemma first_idem cs : magnetic_first (magnetic_first cs) = magnetic_first cs.
Proof.
  unfold magnetic_first. rewrite !filter_app, !filter_idem. rewrite (filter_none magnetic (filter (fun c => negb (magnetic c)) cs)), (filter_none (fun c => negb (magnetic c)) (filter magnetic cs)).
  - rewrite app_nil_r. reflexivity.
  - intros c I. apply filter_In in I as [_ E]. rewrite E. reflexivity.
  - intros c I. apply filter_In in I as [_ E]. destruct (magnetic c); [discriminate E|reflexivity].
Qed.
Lemma first_perm cs : Permutation cs (magnetic_first cs).
Proof.
  unfold magnetic_first. induction cs as [|c cs IH]; [constructor|]. cbn [filter]. destruct (magnetic c); cbn [negb app].
  - constructor. exact IH.
  - apply Permutation_cons_app. exact IH.
Qed.

(** * The update *)
Lemma zeros_something l : negb (all_zeros l) = true <-> something l.
Proof.
  unfold all_zeros, something. rewrite negb_true_iff. split.
  - intros H. induction l as [|[a b] l IH]; [discriminate H|]. cbn [forallb fst snd] in H. apply andb_false_iff in H as [H|H].
    + exists (a, b). split; [left; reflexivity|]. intros (p & q & E & P & Q). injection E as -> ->. cbn [is_zero] in H. apply Qeq_bool_iff in P, Q. rewrite P, Q in H. discriminate H.
    + destruct (IH H) as (c & I & N). exists c. split; [right; exact I|exact N].
  - intros (c & I & N). destruct (forallb (fun c => is_zero (fst c) && is_zero (snd c))%bool l) eqn:E; [|reflexivity]. rewrite forallb_forall in E. specialize (E c I). destruct c as [[a|] [b|]]; cbn [fst snd is_zero] in E; try discriminate E; [|apply andb_true_iff in E as [_ E]; discriminate E].
    apply andb_true_iff in E as [A B]. apply Qeq_bool_iff in A, B. exfalso. apply N. exists a, b. repeat split; assumption.
Qed.
Lemma remove_one_perm x l : forall r, remove_one x l = Some r -> Permutation l (x :: r).
Proof.
  induction l as [|y l IH]; intros r E; cbn [remove_one] in E; [discriminate E|]. destruct (text_eqb x y) eqn:Q.
  - injection E as <-. apply text_eqb_eq in Q. subst y. reflexivity.
  - destruct (remove_one x l) as [r'|]; [|discriminate E]. injection E as <-. rewrite (IH r' eq_refl). constructor.
Qed.
Lemma remove_one_in x l : In x l -> exists r, remove_one x l = Some r.
Proof.
  induction l as [|y l IH]; intros I; [destruct I|]. cbn [remove_one]. destruct (text_eqb x y) eqn:Q; [eauto|]. destruct I as [->|I]; [rewrite text_eqb_refl in Q; discriminate Q|]. destruct (IH I) as (r & ->). eauto.
Qed.
Lemma same_names_perm a : forall b, same_names a b = true <-> Permutation a b.
Proof.
  induction a as [|x a IH]; intros b; cbn [same_names].
  - destruct b; split; intros H; [constructor|reflexivity|discriminate H|apply Permutation_nil in H; discriminate H].
  - split.
    + destruct (remove_one x b) as [b'|] eqn:E; [|discriminate]. intros H. apply IH in H. rewrite (remove_one_perm x b b' E). constructor. exact H.
    + intros P. destruct (remove_one_in x b) as (b' & E); [rewrite <- P; left; reflexivity|]. rewrite E. apply IH. apply Permutation_cons_inv with x. rewrite P. apply remove_one_perm. exact E.
Qed.
Definition good_names (names : list text) : Prop := NoDup names /\ Forall (fun n => lower n = n /\ exists c, chan_named n = Ok c /\ bare c /\ name_of c = n) names.
Lemma update_chans_ok old names : Forall (fun n => lower n = n /\ exists c, chan_named n = Ok c /\ bare c /\ name_of c = n) names ->
  exists new, update_chans old names = Ok new /\
    (forall c, In c new <-> (In c old /\ In (low_name c) names) \/ (exists n, In n names /\ chan_named n = Ok c /\ forall c', In c' old -> low_name c' <> n)) /\
    (NoDup names -> NoDup (map low_name old) -> NoDup (map low_name new)).
Proof.
  induction 1 as [|n names (L & c0 & CN & BC & NC) F (r & E & C & D)].
  - exists []. split; [reflexivity|]. split; [|constructor]. intros c. split; [intros []|intros [[_ []]|(n & [] & _)]].
  - set (mine := filter (fun c => text_eqb (low_name c) (lower n)) old).
    assert (MI : forall c, In c mine <-> In c old /\ low_name c = n).
    { intros c. unfold mine. rewrite filter_In, text_eqb_eq, L. reflexivity. }
    assert (EX : exists w, chans_for old n = Ok w /\ (forall c, In c w <-> (In c old /\ low_name c = n) \/ (c = c0 /\ forall c', In c' old -> low_name c' <> n)) /\ (NoDup (map low_name old) -> NoDup (map low_name w))).
    { unfold chans_for. fold mine. destruct mine as [|m ms] eqn:Q.
      - rewrite CN. exists [c0]. split; [reflexivity|]. split.
        + intros c. split.
          * intros [<-|[]]. right. split; [reflexivity|]. intros c' I H. apply (proj2 (MI c') (conj I H)).
          * intros [H|[-> _]]; [destruct (proj2 (MI c) H)|left; reflexivity].
        + intros _. cbn. constructor; [intros []|constructor].
      - exists (m :: ms). split; [reflexivity|]. split.
        + intros c. rewrite MI. split; [auto|]. intros [H|[_ H]]; [exact H|]. exfalso. destruct (proj1 (MI m) (or_introl eq_refl)) as [I1 I2]. exact (H m I1 I2).
        + intros ND. rewrite <- Q. unfold mine. clear -ND. induction old as [|c old IH]; [constructor|]. cbn [map] in ND. inversion ND as [|? ? NI ND']; subst. cbn [filter]. destruct (text_eqb (low_name c) (lower n)); [|exact (IH ND')]. cbn [map]. constructor; [|exact (IH ND')].
          intros I. apply NI. apply in_map_iff in I as (c' & E & I). apply filter_In in I as [I _]. rewrite <- E. apply in_map. exact I. }
    destruct EX as (w & EW & CW & DW). exists (w ++ r)%list. split; [cbn [update_chans]; rewrite EW; cbn [bindR]; rewrite E; reflexivity|]. split.
    + intros c. rewrite in_app_iff, CW, C. split.
      * intros [[[I H]|[-> H]]|[[I H]|(m & I & H1 & H2)]]; [left; split; [exact I|left; symmetry; exact H]|right; exists n; split; [left; reflexivity|split; [exact CN|exact H]]|left; split; [exact I|right; exact H]|right; exists m; split; [right; exact I|split; assumption]].
      * intros [[I [H|H]]|(m & [<-|I] & H1 & H2)]; [left; left; split; [exact I|symmetry; exact H]|right; left; split; assumption|left; right; split; [rewrite CN in H1; injection H1 as <-; reflexivity|exact H2]|right; right; exists m; repeat split; assumption].
    + intros NN NO. apply NoDup_cons_iff in NN as [NI NN']. rewrite map_app. specialize (DW NO). specialize (D NN' NO).
      assert (LW : forall c, In c w -> low_name c = n). { intros c I. apply CW in I as [[_ H]|[-> _]]; [exact H|]. unfold low_name. rewrite NC. exact L. }
      assert (LR : forall c, In c r -> In (low_name c) names).
      { intros c I. apply C in I as [[_ H]|(m & I & H & _)]; [exact H|]. rewrite Forall_forall in F. destruct (F m I) as (L2 & c2 & E2 & _ & N2). rewrite E2 in H. injection H as <-. unfold low_name. rewrite N2, L2. exact I. }
      clear -DW D LW LR NI. induction w as [|c w IH]; [exact D|]. cbn [map app] in *. inversion DW; subst. constructor; [|apply IH; [assumption|intros c' I; apply LW; right; exact I]].
      intros I. apply in_app_or in I as [I|I]; [contradiction|]. apply in_map_iff in I as (c' & E & I). apply NI. rewrite <- (LW c (or_introl eq_refl)), <- E. apply LR. exact I.
Qed.
Lemma update_section_ok old names : good_names names -> exists new, update_section old names = Ok new /\ (Permutation names (map low_name old) -> new = old) /\ updated (fun n => In n names) old new.
Proof.
  intros [ND F]. unfold update_section. destruct (same_names names (map low_name old)) eqn:S.
  - apply same_names_perm in S. exists old. split; [reflexivity|]. split; [reflexivity|]. split; [auto|]. split; [|split; [|auto]].
    + intros n I. rewrite S in I. apply in_map_iff in I as (c & E & I). exists c. split; assumption.
    + intros c I. split; [rewrite S; apply (in_map low_name); exact I|left; exact I].
  - destruct (update_chans_ok old names F) as (new & E & C & D). exists new. split; [exact E|]. split; [intros P; apply same_names_perm in P; congruence|]. rewrite Forall_forall in F. split; [|split; [|split]].
    + intros c I N. apply C. left. split; assumption.
    + intros n I. destruct (existsb (fun c => text_eqb (low_name c) n) old) eqn:X.
      * apply existsb_exists in X as (c & IC & EC). apply text_eqb_eq in EC. exists c. split; [|exact EC]. apply C. left. split; [exact IC|rewrite EC; exact I].
      * destruct (F n I) as (L & c0 & CN & _ & NC). exists c0. split; [|rewrite NC; exact L]. apply C. right. exists n. split; [exact I|]. split; [exact CN|]. intros c' I' H.
        assert (T : existsb (fun c => text_eqb (low_name c) n) old = true); [|congruence]. apply existsb_exists. exists c'. split; [exact I'|]. apply text_eqb_eq. exact H.
    + intros c I. apply C in I as [[I N]|(n & I & CN & O)]; [split; [exact N|left; exact I]|]. destruct (F n I) as (L & c0 & CN0 & B & NC). rewrite CN0 in CN. injection CN as <-. rewrite NC, L. split; [exact I|]. right. split; [exact B|exact O].
    + intros N. apply D; assumption.
Qed.
Lemma needed_good z t : good_names (fst (needed z t)) /\ good_names (snd (needed z t)).
Proof.
  destruct z, t; cbn [needed fst snd orb app]; split; (split; [nodup_lits|]); repeat (apply Forall_cons; [split; [reflexivity|eexists; split; [reflexivity|split; [eexists; (left; reflexivity) || (right; reflexivity)|reflexivity]]]|]); apply Forall_nil.
Qed.
Lemma update_layout_ok z t l : exists l', update_layout (Some z) (Some t) l = Ok l' /\
  (exists ni, (forall n, In n ni <-> needs_in z t n) /\ NoDup ni /\ (Permutation ni (map low_name (l_in l)) -> l_in l' = l_in l) /\ updated (fun n => In n ni) (l_in l) (l_in l')) /\
  (exists no, (forall n, In n no <-> needs_out z t n) /\ NoDup no /\ (Permutation no (map low_name (l_out l)) -> l_out l' = l_out l) /\ updated (fun n => In n no) (l_out l) (l_out l')).
Proof.
  unfold update_layout, any_nonzero. cbn [bindR]. pose proof (needed_good (negb (all_zeros z)) (negb (all_zeros t))) as [GI GO]. destruct (needed (negb (all_zeros z)) (negb (all_zeros t))) as [i o] eqn:E. cbn [fst snd] in GI, GO.
  destruct (update_section_ok (l_in l) i GI) as (li & EI & PI & UI). destruct (update_section_ok (l_out l) o GO) as (lo & EO & PO & UO). rewrite EI. cbn [bindR]. rewrite EO. cbn [bindR].
  exists (mkLayout li lo). split; [reflexivity|]. unfold needed in E. apply pair_equal_spec in E as [E1 E2]. pose proof (zeros_something z) as ZZ. pose proof (zeros_something t) as ZT. split.
  - exists i. split; [|split; [apply GI|split; assumption]]. intros n. rewrite <- E1. unfold needs_in. rewrite <- ZZ, <- ZT. destruct (negb (all_zeros z)), (negb (all_zeros t)); cbn [orb In]; intuition congruence.
  - exists o. split; [|split; [apply GO|split; assumption]]. intros n. rewrite <- E2. unfold needs_out. rewrite <- ZZ, <- ZT. destruct (negb (all_zeros z)), (negb (all_zeros t)); cbn [app In]; intuition congruence.
Qed.

(** * Lists of estimates and data types *)
Definition names_ok (item : text) (e : entry) (n : text) : Prop :=
  exists d d', read (remove_null (entry_xml item e)) = Ok (XDict d) /\ inner (XDict d) = Ok (XDict d') /\ entry_name (XDict d') = Ok n.
Lemma variance_ok : names_ok (txt "Estimate") variance (txt "VAR").
Proof. eexists. eexists. split; [vm_compute; reflexivity|]. split; vm_compute; reflexivity. Qed.
Lemma signal_ok : names_ok (txt "Estimate") signal_power (txt "INVSIGCOV").
Proof. eexists. eexists. split; [vm_compute; reflexivity|]. split; vm_compute; reflexivity. Qed.
Lemma residual_ok : names_ok (txt "Estimate") residual (txt "RESIDCOV").
Proof. eexists. eexists. split; [vm_compute; reflexivity|]. split; vm_compute; reflexivity. Qed.
Lemma type_xml u name output input descr url tag : remove_null (entry_xml (txt "DataType") (data_type u name output input descr url tag)) =
  let e := remove_null (entry_xml (txt "DataType") (data_type (txt "u") name output input descr url tag)) in
  match e with Elem g a t cs => Elem g (removelast a ++ [(txt "units", null_text u)])%list t cs end.
Proof. reflexivity. Qed.
Lemma impedance_ok u : names_ok (txt "DataType") (impedance_type u) (txt "Z").
Proof. unfold names_ok, impedance_type. rewrite type_xml. generalize (null_text u). intros w. eexists. eexists. split; [vm_compute; reflexivity|]. split; vm_compute; reflexivity. Qed.
Lemma tipper_ok u : names_ok (txt "DataType") (tipper_type u) (txt "T").
Proof. unfold names_ok, tipper_type. rewrite type_xml. generalize (null_text u). intros w. eexists. eexists. split; [vm_compute; reflexivity|]. split; vm_compute; reflexivity. Qed.
Lemma entry_names_ok vs names : Forall2 (fun v n => entry_name v = Ok n) vs names -> entry_names vs = Ok names.
Proof. induction 1 as [|v n vs names E F IH]; [reflexivity|]. cbn [entry_names]. rewrite E, IH. reflexivity. Qed.
Lemma list_read tag item key ikey es names root : es <> [] -> Forall2 (names_ok item) es names -> tag <> txt "item" -> item <> txt "item" -> validate_attribute tag = Ok key -> validate_attribute item = Ok ikey ->
  file_with key (list_xml tag item es) root -> bindR (read root) (fun x => bindR (conv x) (fun r => read_list key ikey r [])) = Ok names.
Proof.
  intros NE F TI II TK IK FW.
  assert (X : exists vs vs', Forall2 (fun c v => read c = Ok v) (map remove_null (map (entry_xml item) es)) vs /\ Forall2 (fun v v' => inner v = Ok v' /\ (exists d, v = XDict d) /\ exists d, v' = XDict d) vs vs' /\ Forall2 (fun v n => entry_name v = Ok n) vs' names /\ vs <> []).
  { clear -F NE. assert (X : exists vs vs', Forall2 (fun c v => read c = Ok v) (map remove_null (map (entry_xml item) es)) vs /\ Forall2 (fun v v' => inner v = Ok v' /\ (exists d, v = XDict d) /\ exists d, v' = XDict d) vs vs' /\ Forall2 (fun v n => entry_name v = Ok n) vs' names).
    { clear NE. induction F as [|e n es names (d & d' & R & C & N) F (vs & vs' & A & B & D)]; [exists [], []; repeat split; constructor|]. exists (XDict d :: vs), (XDict d' :: vs'). cbn [map]. repeat split; constructor; eauto. }
    destruct X as (vs & vs' & A & B & D). exists vs, vs'. repeat split; try assumption. intros ->. destruct es; [contradiction|]. inversion A. }
  destruct X as (vs & vs' & A & B & D & NV).
  assert (TAGS : map tag_of (map remove_null (map (entry_xml item) es)) = map (fun _ => item) vs).
  { assert (LA : List.length es = List.length vs) by (rewrite <- (map_length (entry_xml item) es), <- (map_length remove_null (map (entry_xml item) es)); clear -A; induction A; cbn [List.length]; congruence). clear A. rename LA into A. clear -A. revert vs A. induction es as [|e es IH]; intros [|v vs] L; cbn in L; try discriminate; [reflexivity|]. cbn [map]. f_equal. apply IH. lia. }
  assert (R : read (remove_null (list_xml tag item es)) = Ok (XDict [(item, one_or_list vs)])).
  { unfold list_xml. rewrite remove_null_eq. cbn [map]. rewrite (read_node tag None _ vs); [|destruct es; [contradiction|discriminate]|exact A|discriminate]. rewrite TAGS.
    assert (E : combine (map (fun _ => item) vs) vs = map (fun v => (item, v)) vs) by (clear; induction vs as [|v vs IH]; [reflexivity|cbn; rewrite IH; reflexivity]). rewrite E. destruct vs as [|v vs]; [contradiction|]. rewrite (child_value_same item v vs II). reflexivity. }
  assert (CL : inner (one_or_list vs) = Ok (one_or_list vs')).
  { destruct B as [|v v' vs vs' [E [(d & ->) (d' & ->)]] B]; [contradiction|]. destruct B as [|v v' vs vs' [E2 [(d2 & ->) (d2' & ->)]] B]; [exact E|]. cbn [one_or_list inner]. rewrite conv_lst, (conv_list_ok _ (XDict d' :: XDict d2' :: vs')); [reflexivity|].
    constructor; [exact E|]. constructor; [exact E2|]. clear -B. induction B as [|v v' vs vs' [E [(d & ->) _]] B IH]; constructor; [exact E|exact IH]. }
  assert (C : inner (XDict [(item, one_or_list vs)]) = Ok (XDict [(ikey, one_or_list vs')])).
  { cbn [inner]. rewrite conv_dict. cbn [conv_each]. rewrite IK. cbn [bindR]. fold (inner (one_or_list vs)). rewrite CL. reflexivity. }
  destruct (file_value key (list_xml tag item es) root _ _ FW TI TK R C) as (x & y & RX & CY & AT). rewrite RX. cbn [bindR]. rewrite CY. cbn [bindR]. unfold read_list. rewrite AT. cbn [bindR at_key dget]. destruct (text_dec ikey ikey); [|congruence].
  destruct vs' as [|v' [|w' vs']]; [inversion B; subst; contradiction| |exact (entry_names_ok _ _ D)].
  cbn [one_or_list]. inversion B as [|? ? ? ? [_ [_ (d & ->)]] _]; subst. exact (entry_names_ok _ _ D).
Qed.
Lemma list_read_empty tag item key ikey root : tag <> txt "item" -> validate_attribute tag = Ok key ->
  file_with key (list_xml tag item []) root -> bindR (read root) (fun x => bindR (conv x) (fun r => read_list key ikey r [])) = Err TypeError.
Proof.
  intros TI TK FW. destruct (file_value key (list_xml tag item []) root XNone XNone FW TI TK eq_refl eq_refl) as (x & y & RX & CY & AT). rewrite RX. cbn [bindR]. rewrite CY. cbn [bindR]. unfold read_list. rewrite AT. reflexivity.
Qed.
Lemma listed_holds a : listed a = true <-> holds a.
Proof. unfold listed, holds. destruct a as [l|]; [rewrite zeros_something|]; split; [intros H; exists l; auto|intros (l' & E & H); injection E as <-; exact H|discriminate|intros (l' & E & _); discriminate E]. Qed.
Lemma listed_told z t : listed_either z t = true <-> told z t.
Proof.
  unfold listed_either, told. destruct z as [l|].
  - change (negb (all_zeros l)) with (listed (Some l)). rewrite listed_holds. split; [auto|intros [H|[H _]]; [exact H|discriminate H]].
  - rewrite listed_holds. split; [auto|intros [(l' & E & _)|[_ H]]; [discriminate E|exact H]].
Qed.
Definition opt {A} (b : bool) (x : A) : list A := if b then [x] else [].
Lemma estimates_names d : Forall2 (names_ok (txt "Estimate")) (get_estimates d)
  (opt (listed_either (a_z_var d) (a_t_var d)) (txt "VAR") ++ opt (listed_either (a_z_inv d) (a_t_inv d)) (txt "INVSIGCOV") ++ opt (listed_either (a_z_res d) (a_t_res d)) (txt "RESIDCOV"))%list.
Proof.
  unfold get_estimates, opt. destruct (listed_either (a_z_var d) (a_t_var d)), (listed_either (a_z_inv d) (a_t_inv d)), (listed_either (a_z_res d) (a_t_res d)); cbn [app];
    repeat (apply Forall2_cons; [exact variance_ok || exact signal_ok || exact residual_ok|]); apply Forall2_nil.
Qed.
Lemma types_names uz ut d : Forall2 (names_ok (txt "DataType")) (get_types uz ut d) (opt (listed (a_z d)) (txt "Z") ++ opt (listed (a_t d)) (txt "T"))%list.
Proof.
  unfold get_types, opt. destruct (listed (a_z d)), (listed (a_t d)); cbn [app]; repeat (apply Forall2_cons; [exact (impedance_ok uz) || exact (tipper_ok ut)|]); apply Forall2_nil.
Qed.
Lemma estimates_those d : those (told_kind d) kinds
  (opt (listed_either (a_z_var d) (a_t_var d)) (txt "VAR") ++ opt (listed_either (a_z_inv d) (a_t_inv d)) (txt "INVSIGCOV") ++ opt (listed_either (a_z_res d) (a_t_res d)) (txt "RESIDCOV"))%list.
Proof.
  exists (fun n => if text_eqb n (txt "VAR") then listed_either (a_z_var d) (a_t_var d) else if text_eqb n (txt "INVSIGCOV") then listed_either (a_z_inv d) (a_t_inv d) else listed_either (a_z_res d) (a_t_res d)). split.
  - unfold kinds, opt. cbn [map filter]. change (text_eqb (txt "VAR") (txt "VAR")) with true. change (text_eqb (txt "INVSIGCOV") (txt "VAR")) with false. change (text_eqb (txt "INVSIGCOV") (txt "INVSIGCOV")) with true. change (text_eqb (txt "RESIDCOV") (txt "VAR")) with false. change (text_eqb (txt "RESIDCOV") (txt "INVSIGCOV")) with false. cbv iota.
    destruct (listed_either (a_z_var d) (a_t_var d)), (listed_either (a_z_inv d) (a_t_inv d)), (listed_either (a_z_res d) (a_t_res d)); reflexivity.
  - intros n I. unfold told_kind, kinds in *. cbn [map In] in I. rewrite <- !listed_told. destruct I as [<-|[<-|[<-|[]]]].
    + change (text_eqb (txt "VAR") (txt "VAR")) with true. cbv iota. split; [auto|]. intros [[_ H]|[[E _]|[E _]]]; [exact H|discriminate E|discriminate E].
    + change (text_eqb (txt "INVSIGCOV") (txt "VAR")) with false. change (text_eqb (txt "INVSIGCOV") (txt "INVSIGCOV")) with true. cbv iota. split; [auto|]. intros [[E _]|[[_ H]|[E _]]]; [discriminate E|exact H|discriminate E].
    + change (text_eqb (txt "RESIDCOV") (txt "VAR")) with false. change (text_eqb (txt "RESIDCOV") (txt "INVSIGCOV")) with false. cbv iota. split; [auto|]. intros [[E _]|[[E _]|[_ H]]]; [discriminate E|discriminate E|exact H].
Qed.
Lemma types_those d : those (told_type d) [txt "Z"; txt "T"] (opt (listed (a_z d)) (txt "Z") ++ opt (listed (a_t d)) (txt "T"))%list.
Proof.
  exists (fun n => if text_eqb n (txt "Z") then listed (a_z d) else listed (a_t d)). split.
  - unfold opt. cbn [filter]. change (text_eqb (txt "Z") (txt "Z")) with true. change (text_eqb (txt "T") (txt "Z")) with false. cbv iota. destruct (listed (a_z d)), (listed (a_t d)); reflexivity.
  - intros n I. unfold told_type. cbn [In] in I. rewrite <- !listed_holds. destruct I as [<-|[<-|[]]].
    + change (text_eqb (txt "Z") (txt "Z")) with true. cbv iota. split; [auto|]. intros [[_ H]|[E _]]; [exact H|discriminate E].
    + change (text_eqb (txt "T") (txt "Z")) with false. cbv iota. split; [auto|]. intros [[E _]|[_ H]]; [discriminate E|exact H].
Qed.
