(** Proofs about reading the data blocks of EmtfModel. *)
From Coq Require Import Qabs Qpower Lqa Qround.
From Verif Require Import PyBase PyText PyNum PyFloat PySci PyFacts TextFacts PyFloatFacts PySciFacts EdiProofs ZmmProofs ValidatorsModel XmlModel XmlSpec XmlProofs UnitsModel EmtfModel EmtfSpec EmtfProofs.
Local Open Scope nat_scope.

Definition fl (s : text) : cell := match read_float s with Some v => as_cell v | None => None end.
(** What is read for an entry. *)
Definition got (k : key) (c : cpair) : cpair :=
  let '(re, im) := filled k c in if is_complex k then (fl (show_sci 6 re), fl (show_sci 6 im)) else (fl (show_sci 6 re), Some 0%Q).
Definition upd (k : key) (p i j : nat) (c : cpair) (f : filling) : filling :=
  mkFilling (f_n f) (f_period f) (fun k' p' i' j' => if key_dec k' k then if (p' =? p) && (i' =? i) && (j' =? j) then c else f_arr f k' p' i' j' else f_arr f k' p' i' j').
Lemma float_sci d q : (0 < d) -> float_text (show_sci d q) = Ok (fl (show_sci d q)).
Proof. intros D. destruct (read_show_sci d q D) as (v & E & _). unfold float_text, fl. rewrite E. reflexivity. Qed.
Lemma fl_sci d q : (0 < d) -> exists v, fl (show_sci d q) = Some v /\ (v == sci_value d q)%Q.
Proof. intros D. destruct (read_show_sci d q D) as (v & E & V). unfold fl. rewrite E. exists v. split; [reflexivity|exact V]. Qed.
Lemma split_two a b : word a -> word b -> split_ws (a ++ " "%char :: b)%list = [a; b].
Proof.
  intros [NA HA] [NB HB]. rewrite split_ws_cons; [|exact NA|exact HA|right; exists " "%char, b; split; reflexivity]. f_equal.
  change (" "%char :: b) with ([" "%char] ++ b)%list. rewrite split_ws_lead by reflexivity. rewrite <- (app_nil_r b) at 1. rewrite split_ws_cons; [reflexivity|exact NB|exact HB|left; reflexivity].
Qed.
Definition dtype_for (k : key) : dtype := if is_complex k then DComplex else DReal.
Lemma item_get k o i c : at_key (txt "output") (item k o i c) = Ok (XText (capitalize o)) /\ at_key (txt "input") (item k o i c) = Ok (XText (capitalize i)) /\ at_key (txt "value") (item k o i c) = Ok (XText (value_text k c)).
Proof. unfold item. destruct (dget text_dec (o ++ i)%list comp_names); repeat split. Qed.
Lemma item_value_ok k o i c : item_value (dtype_for k) (item k o i c) = Ok (if is_complex k then inl (got k c) else inr (fst (got k c))).
Proof.
  destruct (item_get k o i c) as (_ & _ & V). unfold item_value. rewrite V. cbn [bindR]. unfold dtype_for, value_text, got. destruct (filled k c) as [re im]. destruct (is_complex k).
  - cbn [as_text bindR]. rewrite (split_two _ _ (show_sci_word 6 re) (show_sci_word 6 im)), !float_sci by lia. reflexivity.
  - cbn [float_of]. rewrite float_sci by lia. reflexivity.
Qed.
Lemma key_of_key_name k : key_of_name (key_name k) = Some k.
Proof. destruct k; vm_compute; reflexivity. Qed.
Lemma store_ok k p i j c f : p < f_n f -> i < rows k -> j < cols k -> store (key_name k) p i j (if is_complex k then inl (got k c) else inr (fst (got k c))) f = Ok (upd k p i j (got k c) f).
Proof.
  intros P I J. unfold store. rewrite key_of_key_name.
  assert (B : ((p <? f_n f) && (i <? List.length (out_channels k)) && (j <? List.length (in_channels k)) = true)%bool).
  { rewrite !andb_true_iff, !Nat.ltb_lt. destruct k; cbn [rows cols out_channels in_channels List.length] in *; auto. }
  rewrite B. unfold upd, got. destruct (filled k c) as [re im]. destruct (is_complex k); reflexivity.
Qed.
Lemma channel_out k o on : In (o, on) (indexed (out_channels k)) -> channel_index (lower (capitalize on)) = Some o /\ o < rows k.
Proof. destruct k; cbn [indexed out_channels List.length seq combine In]; intros I; repeat (destruct I as [I|I]; [injection I as <- <-; split; [vm_compute; reflexivity|cbn [rows]; lia]|]); destruct I. Qed.
Lemma channel_in k o on : In (o, on) (indexed (in_channels k)) -> channel_index (lower (capitalize on)) = Some o /\ o < cols k.
Proof. destruct k; cbn [indexed in_channels List.length seq combine In]; intros I; repeat (destruct I as [I|I]; [injection I as <- <-; split; [vm_compute; reflexivity|cbn [cols]; lia]|]); destruct I. Qed.
Lemma read_item_ok k p f o on j jn c : In (o, on) (indexed (out_channels k)) -> In (j, jn) (indexed (in_channels k)) -> p < f_n f ->
  read_item (key_name k) (dtype_for k) p f (item k on jn c) = Ok (upd k p o j (got k c) f).
Proof.
  intros O J P. destruct (item_get k on jn c) as (A & B & _). destruct (channel_out k o on O) as [C1 C2]. destruct (channel_in k j jn J) as [D1 D2].
  unfold read_item. rewrite A. cbn [bindR as_text]. rewrite C1, B. cbn [bindR as_text]. rewrite D1, item_value_ok. cbn [bindR]. apply store_ok; assumption.
Qed.
(** The filling after the array [k] of period [p] was read. *)
Definition filled_with (k : key) (p : nat) (a : nat -> nat -> nat -> cpair) (f f' : filling) : Prop :=
  f_n f' = f_n f /\ f_period f' = f_period f /\
  forall k' p' i j, f_arr f' k' p' i j = if key_dec k' k then if (p' =? p) && (i <? rows k) && (j <? cols k) then got k (a p i j) else f_arr f k' p' i j else f_arr f k' p' i j.
Lemma read_items_ok k p f a : p < f_n f -> exists f', read_items (key_name k) (dtype_for k) p f (items k p a) = Ok f' /\ filled_with k p a f f'.
Proof.
  intros P. unfold items.
  destruct k; cbn [indexed out_channels in_channels List.length seq combine flat_map map app fst snd read_items].
  all: repeat (erewrite read_item_ok; [|cbn [indexed out_channels in_channels List.length seq combine In]; eauto|cbn [indexed out_channels in_channels List.length seq combine In]; eauto|exact P]; cbn [bindR]).
  all: eexists; split; [reflexivity|]; unfold filled_with; split; [reflexivity|split; [reflexivity|]]; intros k' p' i j; unfold upd; cbn [f_arr rows cols];
    match goal with |- context [key_dec k' ?K] => destruct (key_dec k' K); [|reflexivity] end; destruct (p' =? p); [|reflexivity]; cbn [andb]; destruct i as [|[|i]]; cbn [Nat.eqb Nat.ltb Nat.leb andb]; try reflexivity;
    destruct j as [|[|j]]; reflexivity.
Qed.
Lemma comp_of_low k : replace_char "." (txt "_") (replace_char "_" [] (low_tag k)) = key_name k.
Proof. destruct k; vm_compute; reflexivity. Qed.
Lemma key_not_skipped k : text_eqb (key_name k) (txt "value") = false /\ existsb (text_eqb (key_name k)) derived_keys = false.
Proof. destruct k; split; vm_compute; reflexivity. Qed.
Lemma arr_dtype k p a : dtype_of (arr_value k p a) = Ok (dtype_for k).
Proof. destruct k; reflexivity. Qed.
Lemma read_key_ok k p f a : p < f_n f -> exists f', read_key p f (low_tag k, arr_value k p a) = Ok f' /\ filled_with k p a f f'.
Proof.
  intros P. destruct (read_items_ok k p f a P) as (f' & E & F). exists f'. split; [|exact F]. unfold read_key. cbn [fst snd]. rewrite comp_of_low. destruct (key_not_skipped k) as [-> ->].
  rewrite arr_dtype. cbn [bindR]. change (at_key (txt "value") (arr_value k p a)) with (@Ok xval (one_or_list (items k p a))).
  rewrite <- E. unfold items. destruct k; reflexivity.
Qed.
Lemma read_keys_ok d p l : NoDup l -> forall f, p < f_n f -> exists f', read_keys p f (map (fun k => (low_tag k, arr_value k p (arr_of d k))) l) = Ok f' /\
  f_n f' = f_n f /\ f_period f' = f_period f /\
  forall k' p' i j, f_arr f' k' p' i j = if in_dec key_dec k' l then if (p' =? p) && (i <? rows k') && (j <? cols k') then got k' (arr_of d k' p i j) else f_arr f k' p' i j else f_arr f k' p' i j.
Proof.
  induction 1 as [|k l NI ND IH]; intros f P; [exists f; repeat split|]. cbn [map read_keys].
  destruct (read_key_ok k p f (arr_of d k) P) as (f1 & E & N1 & P1 & A1). rewrite E. cbn [bindR]. destruct (IH f1) as (f' & E' & N' & P' & A'); [rewrite N1; exact P|].
  exists f'. split; [exact E'|]. split; [congruence|]. split; [congruence|]. intros k' p' i j. rewrite A', A1.
  destruct (key_dec k' k) as [E0|NE].
  - subst k'. destruct (in_dec key_dec k l) as [I|_]; [contradiction|]. destruct (in_dec key_dec k (k :: l)) as [_|K]; [reflexivity|]. exfalso. apply K. left. reflexivity.
  - destruct (in_dec key_dec k' l) as [I|I], (in_dec key_dec k' (k :: l)) as [J|J]; try reflexivity; exfalso; [apply J; right; exact I|]. destruct J as [J|J]; [congruence|contradiction].
Qed.
(** * The periods *)
Lemma read_keys_app p f l1 l2 : read_keys p f (l1 ++ l2)%list = bindR (read_keys p f l1) (fun f' => read_keys p f' l2).
Proof. revert f. induction l1 as [|kv l1 IH]; intros f; [reflexivity|]. cbn [app read_keys]. destruct (read_key p f kv) as [f'|e]; [|reflexivity]. cbn [bindR]. apply IH. Qed.
Lemma read_period_ok d p q f : p < f_n f -> exists f', read_period p f (block_value d p q low_tag) = Ok f' /\ f_n f' = f_n f /\
  (forall p', f_period f' p' = if p' =? p then fl (show_sci 12 q) else f_period f p') /\
  forall k p' i j, f_arr f' k p' i j = if has d k then if (p' =? p) && (i <? rows k) && (j <? cols k) then got k (arr_of d k p i j) else f_arr f k p' i j else f_arr f k p' i j.
Proof.
  intros P. unfold read_period. set (f1 := mkFilling (f_n f) (fun p' => if p' =? p then fl (show_sci 12 q) else f_period f p') (f_arr f)).
  destruct (read_keys_ok d p (present d) (present_nodup d) f1 P) as (f' & E & N & PE & A). exists f'.
  assert (V : at_key (txt "value") (block_value d p q low_tag) = Ok (XText (show_sci 12 q))).
  { unfold block_value. cbn [at_key]. assert (G : forall l, dget text_dec (txt "value") (map (fun k => (low_tag k, arr_value k p (arr_of d k))) l ++ [(txt "value", XText (show_sci 12 q))])%list = Some (XText (show_sci 12 q))).
    { induction l as [|k l IH]; [reflexivity|]. cbn [map app dget]. destruct (text_dec (txt "value") (low_tag k)) as [X|_]; [|exact IH]. destruct k; vm_compute in X; discriminate X. }
    unfold block_arrs. rewrite G. reflexivity. }
  rewrite V. cbn [bindR float_of]. rewrite float_sci by lia. cbn [bindR]. destruct (Nat.ltb_spec p (f_n f)) as [_|L]; [|lia]. unfold block_value. fold f1. rewrite read_keys_app. unfold block_arrs. rewrite E. cbn [bindR].
  split; [reflexivity|]. split; [exact N|]. split; [intros p'; rewrite PE; reflexivity|]. intros k p' i j. rewrite A.
  destruct (in_dec key_dec k (present d)) as [I|I].
  - apply filter_In in I as [_ ->]. reflexivity.
  - destruct (has d k) eqn:H; [|reflexivity]. exfalso. apply I. apply filter_In. split; [apply keys_all|exact H].
Qed.
Lemma read_periods_ok d qs : forall p0 f, p0 + List.length qs <= f_n f ->
  exists f', read_periods p0 f (map (fun iq => block_value d (fst iq) (snd iq) low_tag) (combine (seq p0 (List.length qs)) qs)) = Ok f' /\ f_n f' = f_n f /\
  (forall p', f_period f' p' = if p0 <=? p' then match nth_error qs (p' - p0) with Some q => fl (show_sci 12 q) | None => f_period f p' end else f_period f p') /\
  forall k p' i j, f_arr f' k p' i j = if has d k && (p0 <=? p') && (p' <? p0 + List.length qs) && (i <? rows k) && (j <? cols k) then got k (arr_of d k p' i j) else f_arr f k p' i j.
Proof.
  induction qs as [|q qs IH]; intros p0 f L.
  - exists f. split; [reflexivity|]. split; [reflexivity|]. split; [intros p'; destruct (p0 <=? p'); [destruct (p' - p0)|]; reflexivity|].
    intros k p' i j. cbn [List.length]. destruct (Nat.leb_spec p0 p'), (Nat.ltb_spec p' (p0 + 0)); try lia; rewrite ?andb_false_r; reflexivity.
  - cbn [List.length] in *. cbn [seq combine map fst snd read_periods].
    destruct (read_period_ok d p0 q f ltac:(lia)) as (f1 & E & N & P1 & A1). rewrite E. cbn [bindR]. destruct (IH (S p0) f1 ltac:(lia)) as (f' & E' & N' & P' & A').
    exists f'. split; [exact E'|]. split; [congruence|]. split.
    + intros p'. rewrite P', P1. destruct (Nat.leb_spec (S p0) p'), (Nat.leb_spec p0 p'), (Nat.eqb_spec p' p0); try lia; try reflexivity.
      * replace (p' - p0) with (S (p' - S p0)) by lia. reflexivity.
      * subst p'. rewrite Nat.sub_diag. reflexivity.
    + intros k p' i j. rewrite A', A1. destruct (has d k); [|reflexivity]. cbn [andb].
      destruct (Nat.leb_spec (S p0) p'), (Nat.leb_spec p0 p'), (Nat.eqb_spec p' p0), (Nat.ltb_spec p' (S p0 + List.length qs)), (Nat.ltb_spec p' (p0 + S (List.length qs))); try lia; cbn [andb]; try reflexivity.
      all: try (subst p'); destruct ((i <? rows k) && (j <? cols k)); reflexivity.
Qed.
(** What reading the data of [d] gives. *)
Definition reading (d : data) (f : filling) : Prop :=
  f_n f = List.length (e_period d) /\
  (forall p q, nth_error (e_period d) p = Some q -> f_period f p = fl (show_sci 12 q)) /\
  forall k p i j, p < List.length (e_period d) -> i < rows k -> j < cols k -> f_arr f k p i j = match e_arr d k with Some a => got k (a p i j) | None => (Some 0%Q, Some 0%Q) end.
Lemma int_count d : int_of (XText (count_text d)) = Ok (Z.of_nat (List.length (e_period d))).
Proof.
  unfold int_of, count_text. cbn [as_text bindR]. rewrite (strip_word _ (show_int_word _)). destruct (read_show_int (Z.of_nat (List.length (e_period d)))) as (q & E & V). rewrite E.
  assert (L : Qle_bool 0 q = true) by (apply Qle_bool_iff; rewrite V; change 0%Q with (inject_Z 0); rewrite <- Zle_Qle; lia). rewrite L. rewrite V, Qfloor_Z. reflexivity.
Qed.
Lemma read_dict_ok d root : 2 <= List.length (e_period d) -> at_key (txt "data") root = Ok (data_value d) -> exists f, read_dict root = Ok f /\ reading d f.
Proof.
  intros L R. unfold read_dict. rewrite R. cbn [bindR]. unfold data_value. change (at_key (txt "count") (XDict _)) with (@Ok xval (XText (count_text d))). cbv iota beta. rewrite int_count. cbn [bindR].
  destruct (Z.ltb_spec (Z.of_nat (List.length (e_period d))) 0) as [X|_]; [lia|]. change (at_key (txt "period") (XDict _)) with (@Ok xval (one_or_list (blocks d low_tag))). cbn [bindR].
  assert (OL : one_or_list (blocks d low_tag) = XList (blocks d low_tag)).
  { pose proof (blocks_length d low_tag) as BL. unfold one_or_list. destruct (blocks d low_tag) as [|v [|w l]]; try reflexivity. cbn [List.length] in BL. lia. }
  rewrite OL. cbn [iterate bindR]. rewrite Nat2Z.id. unfold blocks, indexed.
  destruct (read_periods_ok d (e_period d) 0 (initialize_arrays (List.length (e_period d))) (le_n _)) as (f & E & N & P & A). exists f. split; [exact E|]. split; [exact N|]. split.
  - intros p q H. rewrite P. cbn [Nat.leb]. rewrite Nat.sub_0_r, H. reflexivity.
  - intros k p i j Hp Hi Hj. rewrite A. unfold has, arr_of. destruct (e_arr d k) as [a|]; [|reflexivity].
    destruct (Nat.ltb_spec p (0 + List.length (e_period d))), (Nat.ltb_spec i (rows k)), (Nat.ltb_spec j (cols k)); try lia. reflexivity.
Qed.
Lemma read_dict_one d root : List.length (e_period d) = 1 -> at_key (txt "data") root = Ok (data_value d) -> read_dict root = Err TypeError.
Proof.
  intros L R. unfold read_dict. rewrite R. cbn [bindR]. unfold data_value. change (at_key (txt "count") (XDict _)) with (@Ok xval (XText (count_text d))). cbv iota beta. rewrite int_count. cbn [bindR].
  destruct (Z.ltb_spec (Z.of_nat (List.length (e_period d))) 0) as [X|_]; [lia|]. change (at_key (txt "period") (XDict _)) with (@Ok xval (one_or_list (blocks d low_tag))). cbn [bindR].
  unfold blocks, indexed. destruct (e_period d) as [|q [|? ?]]; try discriminate L. cbn [List.length seq combine map one_or_list fst snd]. unfold block_value. cbn [iterate bindR]. rewrite map_app. cbn [map fst].
  destruct (map (fun kv : text * xval => XText (fst kv)) (block_arrs d 0 low_tag)) as [|b l] eqn:M; [reflexivity|].
  cbn [app read_periods]. assert (B : exists s, b = XText s). { assert (I : In b (b :: l)) by (left; reflexivity). rewrite <- M in I. apply in_map_iff in I as (kv & <- & _). eexists. reflexivity. }
  destruct B as (s & ->). reflexivity.
Qed.
