(** Proofs about EmtfModel. *)
From Coq Require Import Qabs Qpower Lqa.
From Verif Require Import PyBase PyText PyNum PyFloat PySci PyFacts TextFacts PyFloatFacts PySciFacts EdiProofs ZmmProofs ValidatorsModel XmlModel XmlSpec XmlProofs UnitsModel EmtfModel EmtfSpec.
Local Open Scope nat_scope.

(** * White space between elements *)
Lemma spaced_ind' (P : xml -> xml -> Prop) :
  (forall tag a t, P (Elem tag a t []) (Elem tag a t [])) ->
  (forall tag a t cs cs', cs <> [] -> Forall2 spaced cs cs' -> Forall2 P cs cs' -> (forall s, t = Some s -> strip s = []) -> P (Elem tag a None cs) (Elem tag a t cs')) ->
  forall e e', spaced e e' -> P e e'.
Proof.
  intros A B. fix IH 3. intros e e' S. destruct S as [tag a t|tag a t cs cs' NE F T]; [apply A|]. apply B; [exact NE|exact F| |exact T].
  clear NE T. induction F as [|c c' cs cs' H F IHF]; constructor; [apply IH; exact H|exact IHF].
Qed.
Lemma spaced_tag e e' : spaced e e' -> tag_of e' = tag_of e.
Proof. destruct 1; reflexivity. Qed.
Lemma set_text_blank t a x : (forall s, t = Some s -> strip s = []) -> set_text t true a x = Ok x.
Proof. intros H. destruct t as [[|c s]|]; [reflexivity| |reflexivity]. cbn [set_text orb]. rewrite (H _ eq_refl). reflexivity. Qed.
Lemma spaced_read e e' : spaced e e' -> read e' = read e.
Proof.
  induction 1 as [tag a t|tag a t cs cs' NE F IH T] using spaced_ind'; [reflexivity|]. rewrite !read_eq.
  assert (RE : read_each cs' = read_each cs).
  { clear NE T. induction IH as [|c c' cs cs' R IHF IH2]; [reflexivity|]. inversion F; subst. cbn [read_each]. rewrite R, (IH2 ltac:(assumption)), (spaced_tag c c') by assumption. reflexivity. }
  rewrite RE. destruct cs as [|c cs]; [congruence|]. destruct cs' as [|c' cs']; [inversion F|]. cbn [nonempty].
  destruct (read_each (c :: cs)) as [kvs|x]; [|reflexivity]. cbn [bindR].
  destruct (set_attribs (List.length a) a (child_value kvs)) as [x|x]; [|reflexivity]. cbn [bindR]. rewrite (set_text_blank t _ x T). reflexivity.
Qed.

(** * Texts of numbers *)
Lemma show_sci_word d q : word (show_sci d q).
Proof. apply sci_word; [|apply show_sci_chars]. unfold show_sci. destruct (sci d q) as [m e]. destruct (m <? 0)%Z; discriminate. Qed.
Lemma strip_two a b : word a -> word b -> strip (a ++ " "%char :: b)%list = (a ++ " "%char :: b)%list.
Proof.
  intros [NA HA] [NB HB]. rewrite forallb_forall in HA, HB. unfold strip, rstrip.
  rewrite (lstrip_fixed (a ++ " "%char :: b)%list). 2:{ intros c r E. destruct a as [|x a]; [congruence|]. cbn in E. injection E as -> _. specialize (HA c (or_introl eq_refl)). destruct (is_space c); [discriminate|reflexivity]. }
  rewrite lstrip_fixed; [apply rev_involutive|]. intros c r E. rewrite rev_app_distr in E. cbn [rev] in E.
  destruct (rev b) as [|x l] eqn:RB; [apply (f_equal (@rev ascii)) in RB; rewrite rev_involutive in RB; cbn in RB; congruence|].
  cbn [app] in E. injection E as -> _. assert (I : In c b) by (rewrite in_rev, RB; left; reflexivity). specialize (HB c I). destruct (is_space c); [discriminate|reflexivity].
Qed.
Lemma strip_word a : word a -> strip a = a.
Proof.
  intros [NA HA]. rewrite forallb_forall in HA. unfold strip, rstrip.
  rewrite (lstrip_fixed a). 2:{ intros c r ->. specialize (HA c (or_introl eq_refl)). destruct (is_space c); [discriminate|reflexivity]. }
  rewrite lstrip_fixed; [apply rev_involutive|]. intros c r E. assert (I : In c a) by (rewrite in_rev, E; left; reflexivity). specialize (HA c I). destruct (is_space c); [discriminate|reflexivity].
Qed.
Lemma value_text_ok k c : value_text k c <> [] /\ strip (value_text k c) = value_text k c.
Proof.
  unfold value_text. destruct (filled k c) as [re im]. pose proof (show_sci_word 6 re) as A. pose proof (show_sci_word 6 im) as B.
  destruct (is_complex k).
  - split; [|apply strip_two; assumption]. intros E. apply app_eq_nil in E as [_ E]. discriminate E.
  - split; [apply A|apply strip_word; exact A].
Qed.
(** * Reading the elements *)
Definition item (k : key) (o i : text) (c : cpair) : xval :=
  XDict (map (fun kv => (fst kv, XText (snd kv)))
    (match dget text_dec (o ++ i)%list comp_names with Some n => [(txt "name", capitalize n)] | None => [] end ++ [(txt "output", capitalize o); (txt "input", capitalize i); (txt "value", value_text k c)])%list).
Lemma read_value k o i c : read (value_element k o i c) = Ok (item k o i c).
Proof.
  unfold value_element, item. destruct (value_text_ok k c) as [NE ST]. destruct (value_text k c) as [|x s]; [congruence|].
  destruct (dget text_dec (o ++ i)%list comp_names) as [n|]; cbn - [capitalize strip]; rewrite ST; reflexivity.
Qed.
Definition items (k : key) (p : nat) (a : nat -> nat -> nat -> cpair) : list xval :=
  flat_map (fun oi => map (fun ij => item k (snd oi) (snd ij) (a p (fst oi) (fst ij))) (indexed (in_channels k))) (indexed (out_channels k)).
Definition arr_value (k : key) (p : nat) (a : nat -> nat -> nat -> cpair) : xval :=
  XDict ((txt "value", one_or_list (items k p a)) ::
    map (fun kv => (fst kv, XText (snd kv))) ([(txt "type", type_name k); (txt "size", size_text k)] ++ match units_of k with Some u => [(txt "units", u)] | None => [] end))%list.
Lemma flat_map_map {A B C} (f : B -> C) (g : A -> list B) l : map f (flat_map g l) = flat_map (fun x => map f (g x)) l.
Proof. induction l as [|x l IH]; [reflexivity|]. cbn [flat_map]. rewrite map_app, IH. reflexivity. Qed.
Lemma read_each_app cs cs' kvs kvs' : read_each cs = Ok kvs -> read_each cs' = Ok kvs' -> read_each (cs ++ cs')%list = Ok (kvs ++ kvs')%list.
Proof.
  revert kvs. induction cs as [|c cs IH]; intros kvs E E'; cbn [read_each app] in *; [injection E as <-; exact E'|].
  destruct (read c) as [v|x]; [|discriminate E]. cbn [bindR] in *. destruct (read_each cs) as [l|x]; [|discriminate E]. cbn [bindR] in E. injection E as <-.
  rewrite (IH l eq_refl E'). reflexivity.
Qed.
Lemma read_values k (p : nat) (a : nat -> nat -> nat -> cpair) : read_each (flat_map (fun oi => map (fun ij => value_element k (snd oi) (snd ij) (a p (fst oi) (fst ij))) (indexed (in_channels k))) (indexed (out_channels k)))
  = Ok (map (fun v => (txt "value", v)) (items k p a)).
Proof.
  unfold items. rewrite flat_map_map. induction (indexed (out_channels k)) as [|[o on] l IH]; [reflexivity|]. cbn [flat_map fst snd]. apply read_each_app; [|exact IH].
  clear IH. induction (indexed (in_channels k)) as [|[j jn] m IH]; [reflexivity|]. cbn [map read_each fst snd]. rewrite read_value. cbn [bindR tag_of value_element]. rewrite IH. reflexivity.
Qed.
Lemma group_same tag vs : forall acc, fold_left add_group (map (fun v => (tag, v)) vs) [(tag, acc)] = [(tag, acc ++ vs)%list].
Proof.
  induction vs as [|v vs IH]; intros acc; [rewrite app_nil_r; reflexivity|]. cbn [map fold_left]. unfold add_group at 2. cbn [fst snd dget dset]. destruct (text_dec tag tag) as [_|N]; [|congruence]. rewrite IH, <- app_assoc. reflexivity.
Qed.
Lemma child_value_same tag v vs : tag <> txt "item" -> child_value (map (fun v => (tag, v)) (v :: vs)) = XDict [(tag, one_or_list (v :: vs))].
Proof.
  intros NI. unfold child_value, group. change (fun d kv => dset text_dec (fst kv) _ d) with add_group. cbn [map fold_left]. change (add_group [] (tag, v)) with [(tag, [v])]. cbv zeta. rewrite group_same. cbn [map fst snd app dget].
  destruct (text_dec (txt "item") tag) as [E|_]; [congruence|reflexivity].
Qed.
Lemma items_cons k p a : exists v vs, items k p a = v :: vs.
Proof. unfold items. destruct k; cbn [indexed in_channels out_channels length combine flat_map map seq app]; eauto. Qed.
Lemma values_cons k (p : nat) (a : nat -> nat -> nat -> cpair) : exists c cs, flat_map (fun oi => map (fun ij => value_element k (snd oi) (snd ij) (a p (fst oi) (fst ij))) (indexed (in_channels k))) (indexed (out_channels k)) = c :: cs.
Proof. destruct k; cbn [indexed in_channels out_channels length combine flat_map map seq app]; eauto. Qed.
Definition arr_attribs (k : key) : list (text * text) := ([(txt "type", type_name k); (txt "size", size_text k)] ++ match units_of k with Some u => [(txt "units", u)] | None => [] end)%list.
Lemma set_arr_attribs k X : set_attribs (List.length (arr_attribs k)) (arr_attribs k) (XDict [(txt "value", X)]) = Ok (XDict ((txt "value", X) :: map (fun kv => (fst kv, XText (snd kv))) (arr_attribs k))).
Proof. destruct k; reflexivity. Qed.
Lemma read_arr k p a : read (array_element k p a) = Ok (arr_value k p a).
Proof.
  unfold array_element. fold (arr_attribs k). rewrite read_eq, read_values. cbn [bindR]. destruct (values_cons k p a) as (c & cs & ->). destruct (items_cons k p a) as (v & vs & E).
  unfold arr_value. fold (arr_attribs k). rewrite E. rewrite child_value_same by discriminate. cbv zeta. rewrite set_arr_attribs. reflexivity.
Qed.
(** * Changing the keys *)
Fixpoint conv_each (d : list (text * xval)) (acc : list (text * xval)) : result (list (text * xval)) :=
  match d with
  | [] => Ok acc
  | (k, v) :: r =>
      bindR (validate_attribute k) (fun k' =>
      bindR (match v with XDict _ | XList _ => conv v | _ => Ok v end) (fun v' =>
      conv_each r (dset text_dec k' v' acc)))
  end.
Fixpoint conv_list (l : list xval) : result (list xval) :=
  match l with [] => Ok [] | v :: r => bindR (conv v) (fun v' => bindR (conv_list r) (fun r' => Ok (v' :: r'))) end.
Lemma conv_dict d : conv (XDict d) = bindR (conv_each d []) (fun d' => Ok (XDict d')).
Proof. reflexivity. Qed.
Lemma conv_lst l : conv (XList l) = bindR (conv_list l) (fun l' => Ok (XList l')).
Proof. reflexivity. Qed.
Lemma conv_list_ok l l' : Forall2 (fun v v' => conv v = Ok v') l l' -> conv_list l = Ok l'.
Proof. induction 1 as [|v v' l l' E F IH]; [reflexivity|]. cbn [conv_list]. rewrite E. cbn [bindR]. rewrite IH. reflexivity. Qed.
Definition lower_keys : list text := map txt ["name"; "output"; "input"; "value"; "type"; "size"; "units"; "count"]%string.
Lemma in_lower k : existsb (text_eqb k) lower_keys = true -> In k lower_keys.
Proof. intros H. apply existsb_exists in H as (x & I & E). apply text_eqb_eq in E. subst x. exact I. Qed.
Lemma lower_keys_same k : In k lower_keys -> validate_attribute k = Ok k.
Proof. intros I. repeat (destruct I as [<-|I]; [vm_compute; reflexivity|]). destruct I. Qed.
Lemma conv_each_same d : forall acc, Forall (fun kv => In (fst kv) lower_keys) d -> Forall (fun kv => match snd kv with XDict _ | XList _ => conv (snd kv) = Ok (snd kv) | _ => True end) d ->
  NoDup (map fst acc ++ map fst d)%list -> conv_each d acc = Ok (acc ++ d)%list.
Proof.
  induction d as [|[k v] d IH]; intros acc F G N; [rewrite app_nil_r; reflexivity|]. cbn [conv_each map fst] in *. inversion F as [|? ? F1 F2]; subst. inversion G as [|? ? G1 G2]; subst. cbn [fst snd] in *.
  rewrite (lower_keys_same k F1). cbn [bindR].
  assert (E : match v with XDict _ | XList _ => conv v | _ => Ok v end = Ok v) by (destruct v; try reflexivity; exact G1). rewrite E. cbn [bindR].
  assert (NI : ~ In k (map fst acc)) by (apply NoDup_remove_2 in N; intros I; apply N; apply in_or_app; left; exact I).
  rewrite (dset_fresh k v acc NI), IH; [rewrite <- app_assoc; reflexivity|assumption|assumption|]. rewrite map_app, <- app_assoc. exact N.
Qed.
Ltac nodup_lits := repeat (apply NoDup_cons; [cbn [In]; intros N; repeat match goal with H : _ \/ _ |- _ => destruct H as [H|H]; [discriminate H|] end; contradiction|]); apply NoDup_nil.
Ltac lower_lits := repeat (apply Forall_cons; [cbn [fst]; apply in_lower; reflexivity|]); apply Forall_nil.
Ltac plain_lits := repeat (apply Forall_cons; [exact I|]); apply Forall_nil.
Lemma conv_item k o i c : conv (item k o i c) = Ok (item k o i c).
Proof.
  unfold item. destruct (dget text_dec (o ++ i)%list comp_names) as [n|]; cbn [app map fst snd]; (rewrite conv_dict, conv_each_same; [reflexivity| | |]).
  1,4: lower_lits.
  1,3: plain_lits.
  all: cbn [map fst app]; nodup_lits.
Qed.
Lemma conv_items k p a : conv (one_or_list (items k p a)) = Ok (one_or_list (items k p a)) /\ (exists l, one_or_list (items k p a) = XList l \/ one_or_list (items k p a) = item KTRes (txt "hz") (txt "hz") (a p 0 0)).
Proof.
  assert (A : Forall (fun v => conv v = Ok v) (items k p a)).
  { unfold items. apply Forall_forall. intros v I. apply in_flat_map in I as (oi & _ & I). apply in_map_iff in I as (ij & <- & _). apply conv_item. }
  assert (B : conv_list (items k p a) = Ok (items k p a)) by (apply conv_list_ok; induction A; constructor; assumption).
  split.
  - unfold one_or_list. destruct (items k p a) as [|v [|w l]]; [reflexivity|inversion A; assumption|]. rewrite conv_lst, B. reflexivity.
  - unfold items. destruct k; cbn [indexed in_channels out_channels length combine flat_map map seq app fst snd one_or_list]; eauto. Unshelve. exact [].
Qed.
Lemma conv_arr k p a : conv (arr_value k p a) = Ok (arr_value k p a).
Proof.
  unfold arr_value. fold (arr_attribs k). rewrite conv_dict, conv_each_same; [reflexivity| | |].
  - apply Forall_cons; [cbn [fst]; apply in_lower; reflexivity|]. unfold arr_attribs. destruct k; cbn [units_of app map fst snd]; lower_lits.
  - apply Forall_cons; [cbn [snd]; destruct (conv_items k p a) as [E _]; destruct (one_or_list (items k p a)); try exact I; exact E|]. unfold arr_attribs. destruct k; cbn [units_of app map fst snd]; plain_lits.
  - unfold arr_attribs. destruct k; cbn [units_of app map fst snd]; nodup_lits.
Qed.
(** * The block of a period *)
Definition has (d : data) (k : key) : bool := match e_arr d k with Some _ => true | None => false end.
Definition present (d : data) : list key := filter (has d) keys.
Definition arr_of (d : data) (k : key) : nat -> nat -> nat -> cpair := match e_arr d k with Some a => a | None => fun _ _ _ => (None, None) end.
Lemma block_children d p : flat_map (fun k => match e_arr d k with None => [] | Some at_ => [array_element k p at_] end) keys = map (fun k => array_element k p (arr_of d k)) (present d).
Proof.
  unfold present. induction keys as [|k l IH]; [reflexivity|]. cbn [flat_map filter]. unfold has at 1. destruct (e_arr d k) as [a|] eqn:E; [|exact IH].
  cbn [map app]. rewrite IH. unfold arr_of at 2. rewrite E. reflexivity.
Qed.
Lemma keys_all k : In k keys.
Proof. destruct k; cbn [keys In]; repeat (try (left; reflexivity); right). Qed.
Lemma keys_nodup : NoDup keys.
Proof. unfold keys. nodup_lits. Qed.
Lemma present_nodup d : NoDup (present d).
Proof. apply NoDup_filter, keys_nodup. Qed.
Lemma key_tag_inj k k' : key_tag k = key_tag k' -> k = k'.
Proof. destruct k, k'; intros E; try reflexivity; vm_compute in E; discriminate E. Qed.
(** The key of an array after _convert_keys_to_lower_case. *)
Definition low_tag (k : key) : text := match validate_attribute (key_tag k) with Ok s => s | Err _ => [] end.
Lemma low_tag_ok k : validate_attribute (key_tag k) = Ok (low_tag k).
Proof. destruct k; vm_compute; reflexivity. Qed.
Lemma low_tag_inj k k' : low_tag k = low_tag k' -> k = k'.
Proof. destruct k, k'; intros E; try reflexivity; vm_compute in E; discriminate E. Qed.
Lemma NoDup_inj {A B} (f : A -> B) l : (forall x y, f x = f y -> x = y) -> NoDup l -> NoDup (map f l).
Proof. intros I. induction 1 as [|x l N F IH]; [constructor|]. cbn [map]. constructor; [|exact IH]. intros J. apply in_map_iff in J as (y & E & J). apply I in E. subst y. contradiction. Qed.
Definition block_arrs (d : data) (p : nat) (tg : key -> text) : list (text * xval) := map (fun k => (tg k, arr_value k p (arr_of d k))) (present d).
Definition block_value (d : data) (p : nat) (q : Q) (tg : key -> text) : xval := XDict (block_arrs d p tg ++ [(txt "value", XText (show_sci 12 q))])%list.
Lemma block_tags d p tg : map fst (block_arrs d p tg) = map tg (present d).
Proof. unfold block_arrs. rewrite map_map. reflexivity. Qed.
Lemma read_block_element d p q : read (write_block d p q) = Ok (block_value d p q key_tag).
Proof.
  unfold write_block. rewrite block_children, read_eq.
  assert (RE : read_each (map (fun k => array_element k p (arr_of d k)) (present d)) = Ok (block_arrs d p key_tag)).
  { unfold block_arrs. induction (present d) as [|k l IH]; [reflexivity|]. cbn [map read_each]. rewrite read_arr. cbn [bindR]. rewrite IH. reflexivity. }
  rewrite RE. cbn [bindR]. cbv zeta.
  assert (X : match map (fun k => array_element k p (arr_of d k)) (present d) with [] => if nonempty [(txt "value", show_sci 12 q); (txt "units", txt "secs")] then XDict [] else XNone | _ :: _ => child_value (block_arrs d p key_tag) end = XDict (block_arrs d p key_tag)).
  { transitivity (child_value (block_arrs d p key_tag)).
    - unfold block_arrs. destruct (present d); reflexivity.
    - rewrite child_value_dict by (rewrite block_tags; apply NoDup_inj; [apply key_tag_inj|apply present_nodup]).
      rewrite dget_fresh; [reflexivity|]. rewrite block_tags. intros I. apply in_map_iff in I as (k & E & _). destruct k; vm_compute in E; discriminate E. }
  rewrite X. unfold block_value. rewrite <- (dset_fresh (txt "value") (XText (show_sci 12 q)) (block_arrs d p key_tag)).
  - destruct (map (fun k => array_element k p (arr_of d k)) (present d)); reflexivity.
  - rewrite block_tags. intros I. apply in_map_iff in I as (k & E & _). destruct k; vm_compute in E; discriminate E.
Qed.
Lemma conv_block d p q : conv (block_value d p q key_tag) = Ok (block_value d p q low_tag).
Proof.
  unfold block_value. rewrite conv_dict.
  assert (G : forall l acc rest, NoDup (map fst acc ++ map low_tag l)%list ->
    conv_each (map (fun k => (key_tag k, arr_value k p (arr_of d k))) l ++ rest)%list acc = conv_each rest (acc ++ map (fun k => (low_tag k, arr_value k p (arr_of d k))) l)%list).
  { induction l as [|k l IH]; intros acc rest N; [cbn [map app]; rewrite app_nil_r; reflexivity|]. cbn [map app conv_each] in *. rewrite low_tag_ok. cbn [bindR].
    unfold arr_value at 1. fold (arr_value k p (arr_of d k)). cbv iota. rewrite conv_arr. cbn [bindR].
    assert (NI : ~ In (low_tag k) (map fst acc)) by (apply NoDup_remove_2 in N; intros I; apply N; apply in_or_app; left; exact I).
    rewrite (dset_fresh _ _ acc NI), IH; [rewrite <- app_assoc; reflexivity|]. rewrite map_app, <- app_assoc. exact N. }
  unfold block_arrs. rewrite (G (present d) [] _) by (cbn [map app]; apply NoDup_inj; [apply low_tag_inj|apply present_nodup]). cbn [app conv_each].
  rewrite (lower_keys_same (txt "value")) by (apply in_lower; reflexivity). cbn [bindR]. rewrite dset_fresh; [reflexivity|].
  rewrite map_map. intros I. apply in_map_iff in I as (k & E & _). destruct k; vm_compute in E; discriminate E.
Qed.
(** * The element of the data *)
Definition blocks (d : data) (tg : key -> text) : list xval := map (fun iq => block_value d (fst iq) (snd iq) tg) (indexed (e_period d)).
Definition count_text (d : data) : text := show_int (Z.of_nat (List.length (e_period d))).
Lemma blocks_length d tg : List.length (blocks d tg) = List.length (e_period d).
Proof. unfold blocks, indexed. rewrite map_length, combine_length, seq_length. lia. Qed.
Lemma read_data d : e_period d <> [] ->
  read (to_xml d) = Ok (XDict [(txt "Period", one_or_list (blocks d key_tag)); (txt "count", XText (count_text d))]).
Proof.
  intros NE. unfold to_xml. rewrite read_eq.
  assert (RE : read_each (map (fun iq => write_block d (fst iq) (snd iq)) (indexed (e_period d))) = Ok (map (fun v => (txt "Period", v)) (blocks d key_tag))).
  { unfold blocks. induction (indexed (e_period d)) as [|iq l IH]; [reflexivity|]. cbn [map read_each]. rewrite read_block_element. cbn [bindR]. rewrite IH. reflexivity. }
  rewrite RE. cbn [bindR]. cbv zeta. pose proof (blocks_length d key_tag) as BL.
  destruct (map (fun iq => write_block d (fst iq) (snd iq)) (indexed (e_period d))) as [|c cs] eqn:M.
  { exfalso. apply (f_equal (@List.length xml)) in M. rewrite map_length in M. unfold indexed in M. rewrite combine_length, seq_length in M. destruct (e_period d); [congruence|cbn in M; lia]. }
  destruct (blocks d key_tag) as [|v vs]; [destruct (e_period d); [congruence|discriminate BL]|]. rewrite child_value_same by discriminate. reflexivity.
Qed.
Lemma conv_blocks d : conv_list (blocks d key_tag) = Ok (blocks d low_tag).
Proof. apply conv_list_ok. unfold blocks. induction (indexed (e_period d)) as [|iq l IH]; [constructor|]. cbn [map]. constructor; [apply conv_block|exact IH]. Qed.
Lemma conv_one d : conv (one_or_list (blocks d key_tag)) = Ok (one_or_list (blocks d low_tag)).
Proof.
  pose proof (conv_blocks d) as CB. unfold one_or_list. destruct (blocks d key_tag) as [|v [|w l]]; [injection CB as <-; reflexivity| |].
  - cbn [conv_list] in CB. destruct (conv v); [|discriminate CB]. cbn [bindR] in CB. injection CB as <-. reflexivity.
  - rewrite conv_lst, CB. cbn [bindR]. cbn [conv_list] in CB. destruct (conv v); [|discriminate CB]. cbn [bindR] in CB. destruct (conv w); [|discriminate CB]. cbn [bindR] in CB.
    destruct (conv_list l); [|discriminate CB]. cbn [bindR] in CB. injection CB as <-. reflexivity.
Qed.
Definition data_value (d : data) : xval := XDict [(txt "period", one_or_list (blocks d low_tag)); (txt "count", XText (count_text d))].
Lemma one_block_shape d tg : match one_or_list (blocks d tg) with XDict _ | XList _ => True | _ => False end.
Proof. unfold one_or_list. pose proof (fun v => proj1 (in_map_iff (fun iq => block_value d (fst iq) (snd iq) tg) (indexed (e_period d)) v)) as H. fold (blocks d tg) in H. destruct (blocks d tg) as [|v [|w l]]; [exact I| |exact I]. destruct (H v (or_introl eq_refl)) as (iq & <- & _). exact I. Qed.
Lemma conv_data d : conv (XDict [(txt "Period", one_or_list (blocks d key_tag)); (txt "count", XText (count_text d))]) = Ok (data_value d).
Proof.
  rewrite conv_dict. cbn [conv_each]. change (validate_attribute (txt "Period")) with (@Ok text (txt "period")). change (validate_attribute (txt "count")) with (@Ok text (txt "count")). cbn [bindR].
  assert (E : match one_or_list (blocks d key_tag) with XDict _ | XList _ => conv (one_or_list (blocks d key_tag)) | _ => Ok (one_or_list (blocks d key_tag)) end = Ok (one_or_list (blocks d low_tag))).
  { pose proof (one_block_shape d key_tag) as SH. rewrite <- conv_one. destruct (one_or_list (blocks d key_tag)); try contradiction; reflexivity. }
  rewrite E. cbn [bindR]. reflexivity.
Qed.
(** * The whole file *)
Lemma group_get kvs k : forall acc, dget text_dec k (fold_left add_group kvs acc) =
  match map snd (filter (fun kv => text_eqb (fst kv) k) kvs), dget text_dec k acc with
  | [], o => o
  | l, None => Some l
  | l, Some l0 => Some (l0 ++ l)%list
  end.
Proof.
  induction kvs as [|[k1 v] kvs IH]; intros acc; [reflexivity|]. cbn [fold_left]. rewrite IH. unfold add_group. cbn [filter fst snd].
  rewrite dget_dset. destruct (text_dec k k1) as [->|NE].
  - rewrite text_eqb_refl. cbn [map snd]. destruct (dget text_dec k1 acc) as [l0|]; destruct (map snd (filter (fun kv => text_eqb (fst kv) k1) kvs)); try reflexivity; rewrite <- app_assoc; reflexivity.
  - destruct (text_eqb k1 k) eqn:E; [apply text_eqb_eq in E; congruence|]. reflexivity.
Qed.
Lemma conv_each_get K d : forall acc d', conv_each d acc = Ok d' -> (forall k v, In (k, v) d -> validate_attribute k <> Ok K) -> dget text_dec K d' = dget text_dec K acc.
Proof.
  induction d as [|[k v] d IH]; intros acc d' E H; cbn [conv_each] in E; [injection E as <-; reflexivity|].
  destruct (validate_attribute k) as [k'|x] eqn:V; [|discriminate E]. cbn [bindR] in E. destruct (match v with XDict _ | XList _ => conv v | _ => Ok v end) as [v'|x]; [|discriminate E]. cbn [bindR] in E.
  rewrite (IH _ _ E) by (intros k1 v1 I1; apply (H k1 v1); right; exact I1). rewrite dget_dset. destruct (text_dec K k') as [->|NE]; [|reflexivity].
  exfalso. exact (H k v (or_introl eq_refl) V).
Qed.
Lemma conv_each_app d1 d2 : forall acc, conv_each (d1 ++ d2)%list acc = bindR (conv_each d1 acc) (conv_each d2).
Proof.
  induction d1 as [|[k v] d1 IH]; intros acc; [reflexivity|]. cbn [app conv_each]. destruct (validate_attribute k) as [k'|x]; [|reflexivity]. cbn [bindR].
  destruct (match v with XDict _ | XList _ => conv v | _ => Ok v end) as [v'|x]; [|reflexivity]. cbn [bindR]. apply IH.
Qed.
Lemma dget_map {V W} (f : V -> W) k (d : list (text * V)) : dget text_dec k (map (fun kv => (fst kv, f (snd kv))) d) = option_map f (dget text_dec k d).
Proof. induction d as [|[k' v] d IH]; [reflexivity|]. cbn [map dget fst snd]. destruct (text_dec k k'); [reflexivity|exact IH]. Qed.
Lemma group_keys kvs k : forall acc, In k (map fst (fold_left add_group kvs acc)) -> In k (map fst acc) \/ In k (map fst kvs).
Proof.
  induction kvs as [|[k1 v] kvs IH]; intros acc I; [left; exact I|]. cbn [fold_left] in I. apply IH in I as [I|I]; [|right; right; exact I].
  unfold add_group in I. cbn [fst] in I.
  assert (J : forall l (d : list (text * list xval)), In k (map fst (dset text_dec k1 l d)) -> k = k1 \/ In k (map fst d)).
  { clear. intros l d. induction d as [|[a b] d IH]; cbn [dset map fst In]; [intros [->|[]]; left; reflexivity|]. destruct (text_dec k1 a) as [->|N]; cbn [map fst In]; [intros [->|I]; [left; reflexivity|right; right; exact I]|]. intros [->|I]; [right; left; reflexivity|]. destruct (IH I); [left; assumption|right; right; assumption]. }
  apply J in I as [->|I]; [right; left; reflexivity|left; exact I].
Qed.
Lemma group_nodup kvs : forall acc, NoDup (map fst acc) -> NoDup (map fst (fold_left add_group kvs acc)).
Proof. induction kvs as [|kv kvs IH]; intros acc N; [exact N|]. cbn [fold_left]. apply IH. unfold add_group. apply (NoDup_dset text_dec). exact N. Qed.
Lemma dget_split {V} k (v : V) d : dget text_dec k d = Some v -> exists d1 d2, d = (d1 ++ (k, v) :: d2)%list.
Proof.
  induction d as [|[k' v'] d IH]; [discriminate|]. cbn [dget]. destruct (text_dec k k') as [->|N]; intros E; [injection E as ->; exists [], d; reflexivity|].
  destruct (IH E) as (d1 & d2 & ->). exists ((k', v') :: d1), d2. reflexivity.
Qed.
Lemma read_each_tags cs : forall kvs, read_each cs = Ok kvs -> map fst kvs = map tag_of cs.
Proof.
  induction cs as [|c cs IH]; intros kvs E; cbn [read_each] in E; [injection E as <-; reflexivity|]. destruct (read c) as [v|x]; [|discriminate E]. cbn [bindR] in E. destruct (read_each cs) as [l|x] eqn:R; [|discriminate E].
  cbn [bindR] in E. injection E as <-. cbn [map fst]. rewrite (IH l eq_refl). reflexivity.
Qed.
Lemma filter_none {A} (g : A -> bool) l : (forall x, In x l -> g x = false) -> filter g l = [].
Proof. intros H. induction l as [|x l IH]; [reflexivity|]. cbn [filter]. rewrite (H x (or_introl eq_refl)). apply IH. intros y I. apply H. right. exact I. Qed.
Lemma read_each_split pre D post kvs v : read D = Ok v -> read_each (pre ++ D :: post)%list = Ok kvs ->
  exists a b, read_each pre = Ok a /\ read_each post = Ok b /\ kvs = (a ++ (tag_of D, v) :: b)%list.
Proof.
  intros R. revert kvs. induction pre as [|c pre IH]; intros kvs E; cbn [app read_each] in *.
  - rewrite R in E. cbn [bindR] in E. destruct (read_each post) as [b|x]; [|discriminate E]. cbn [bindR] in E. injection E as <-. exists [], b. repeat split.
  - destruct (read c) as [w|x]; [|discriminate E]. cbn [bindR] in *. destruct (read_each (pre ++ D :: post)%list) as [l|x]; [|discriminate E]. cbn [bindR] in E. injection E as <-.
    destruct (IH l eq_refl) as (a & b & A & B & ->). rewrite A. cbn [bindR]. exists ((tag_of c, w) :: a), b. repeat split. exact B.
Qed.
Lemma root_data rt t pre D post v v' x y : (forall s, t = Some s -> strip s = []) -> Forall other_child pre -> Forall other_child post -> tag_of D = txt "Data" ->
  read D = Ok v -> match v with XDict _ => True | _ => False end -> conv v = Ok v' -> read (Elem rt [] t (pre ++ D :: post)%list) = Ok x -> conv x = Ok y -> at_key (txt "data") y = Ok v'.
Proof.
  intros T P1 P2 TD RD SH CV R C. rewrite read_eq in R. destruct (read_each (pre ++ D :: post)%list) as [kvs|e] eqn:RE; [|discriminate R]. cbn [bindR List.length set_attribs] in R.
  destruct (read_each_split pre D post kvs v RD RE) as (a & b & RA & RB & EK). rewrite TD in EK.
  assert (NC : nonempty (pre ++ D :: post)%list = true) by (destruct pre; reflexivity). rewrite NC in R. change (kept_attribs []) with (@nil (text * text)) in R.
  cbv zeta in R. rewrite (set_text_space t _ T) in R. injection R as R. assert (RX : child_value kvs = x) by (destruct pre; exact R). clear R.
  assert (OA : forall k w, In (k, w) (a ++ b)%list -> k <> txt "Data" /\ k <> txt "item" /\ validate_attribute k <> Ok (txt "data")).
  { intros k w I. apply (in_map fst) in I. rewrite map_app, (read_each_tags pre a RA), (read_each_tags post b RB) in I. cbn [fst] in I. rewrite <- map_app in I. apply in_map_iff in I as (c & <- & I). rewrite Forall_forall in P1, P2.
    apply in_app_or in I as [I|I]; [apply (P1 c I)|apply (P2 c I)]. }
  unfold child_value, group in RX. change (fun d kv => dset text_dec (fst kv) _ d) with add_group in RX. set (g := fold_left add_group kvs []) in *. cbv zeta in RX.
  assert (KG : forall k, In k (map fst g) -> k = txt "Data" \/ (k <> txt "Data" /\ k <> txt "item" /\ validate_attribute k <> Ok (txt "data"))).
  { intros k I. apply group_keys in I as [[]|I]. subst kvs. rewrite map_app in I. cbn [map fst] in I. apply in_app_or in I as [I|[<-|I]]; [right| left; reflexivity|right].
    - apply in_map_iff in I as ([k0 w] & <- & I). apply (OA k0 w). apply in_or_app. left. exact I.
    - apply in_map_iff in I as ([k0 w] & <- & I). apply (OA k0 w). apply in_or_app. right. exact I. }
  assert (NG : NoDup (map fst g)) by (apply group_nodup; constructor).
  assert (GD : dget text_dec (txt "Data") g = Some [v]).
  { unfold g. rewrite group_get. cbn [dget]. rewrite EK, filter_app. cbn [filter fst]. rewrite text_eqb_refl.
    rewrite (filter_none _ a), (filter_none _ b); [reflexivity| |]; intros [k w] I; cbn [fst]; destruct (text_eqb k (txt "Data")) eqn:E; try reflexivity; apply text_eqb_eq in E; exfalso.
    - apply (proj1 (OA k w (in_or_app a b _ (or_intror I)))); exact E.
    - apply (proj1 (OA k w (in_or_app a b _ (or_introl I)))); exact E. }
  rewrite dget_map in RX. assert (GI : dget text_dec (txt "item") g = None).
  { apply dget_fresh. intros I. destruct (KG _ I) as [E|(_ & N & _)]; [discriminate E|congruence]. }
  rewrite GI in RX. cbn [option_map] in RX. subst x. rewrite conv_dict in C. destruct (conv_each (map (fun kl => (fst kl, one_or_list (snd kl))) g) []) as [d'|e] eqn:CE; [|discriminate C]. cbn [bindR] in C. injection C as <-.
  destruct (dget_split _ _ _ GD) as (g1 & g2 & EG). rewrite EG, map_app in CE. cbn [map fst snd one_or_list] in CE. rewrite conv_each_app in CE.
  destruct (conv_each (map (fun kl => (fst kl, one_or_list (snd kl))) g1) []) as [acc|e]; [|discriminate CE]. cbn [bindR conv_each] in CE.
  change (validate_attribute (txt "Data")) with (@Ok text (txt "data")) in CE. cbn [bindR] in CE.
  assert (EV : match v with XDict _ | XList _ => conv v | _ => Ok v end = Ok v') by (destruct v; try contradiction; exact CV). rewrite EV in CE. cbn [bindR] in CE.
  assert (K2 : dget text_dec (txt "data") d' = Some v').
  { rewrite (conv_each_get (txt "data") _ _ _ CE), dget_dset.
    - destruct (text_dec (txt "data") (txt "data")); [reflexivity|congruence].
    - intros k w I. apply in_map_iff in I as ([k0 l] & E & I). cbn [fst snd] in E. injection E as <- _. destruct (KG k0) as [E|(_ & _ & N)]; [|rewrite E in *|exact N].
      + rewrite EG, map_app. apply in_or_app. right. right. apply (in_map fst) in I. exact I.
      + rewrite EG, map_app in NG. cbn [map fst] in NG. apply NoDup_remove_2 in NG. exfalso. apply NG. apply in_or_app. right. apply (in_map fst) in I. exact I. }
  cbn [at_key]. rewrite K2. reflexivity.
Qed.
