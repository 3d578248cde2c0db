(** C92: the data of EMTF XML files. *)
From Coq Require Import Qabs Qpower Lqa.
From Verif Require Import PyBase PyText PyNum PyFloat PySci PyFacts TextFacts PyFloatFacts PySciFacts ValidatorsModel XmlModel XmlProofs EmtfModel EmtfSpec EmtfProofs EmtfRead.
Local Open Scope nat_scope.

Lemma fl_near d q e : 0 < d -> (e == (1 # 2) * ten (- Z.of_nat d))%Q -> exists v, fl (show_sci d q) = Some v /\ (Qabs (v - q) <= e * Qabs q)%Q.
Proof. intros D E. destruct (fl_sci d q D) as (v & F & V). exists v. split; [exact F|]. rewrite V, E. apply sci_value_near. Qed.
Lemma fl_6 q : near (Some q) (fl (show_sci 6 q)).
Proof. apply (fl_near 6 q (5 # 10000000)); [lia|]. vm_compute. reflexivity. Qed.
Lemma fl_6_num c : near c (fl (show_sci 6 (nan_to_num c))).
Proof.
  destruct c as [q|]; [apply fl_6|]. cbn [nan_to_num]. destruct (fl_sci 6 0%Q ltac:(lia)) as (v & F & V). exists v. split; [exact F|]. rewrite V. apply sci_value_zero. reflexivity.
Qed.
Lemma fl_empty : is_1e32 (fl (show_sci 6 empty_value)).
Proof. destruct (fl_sci 6 empty_value ltac:(lia)) as (v & F & V). exists v. split; [exact F|]. rewrite V. vm_compute. reflexivity. Qed.
Lemma blank_num c : Qeq_bool (nan_to_num c) 0 = true <-> blank c.
Proof. destruct c as [q|]; cbn [nan_to_num blank]; [apply Qeq_bool_iff|]. split; [intros _; exact I|reflexivity]. Qed.
Lemma real_complex k : is_complex k = false <-> real_array k.
Proof. unfold real_array. destruct k; cbn [is_complex]; split; intros H; try discriminate H; try reflexivity; try (left; reflexivity); try (right; reflexivity); destruct H as [H|H]; discriminate H. Qed.
Lemma got_back k x : came_back k x (got k x).
Proof.
  unfold came_back, got, filled. rewrite <- real_complex. pose proof (blank_num (fst x)) as B1. pose proof (blank_num (snd x)) as B2.
  destruct (is_complex k); split; intros H; try discriminate H; try (exfalso; apply H; reflexivity).
  - destruct (Qeq_bool (nan_to_num (fst x)) 0), (Qeq_bool (nan_to_num (snd x)) 0); cbn [andb fst snd].
    1: left; split; [apply B1; reflexivity|]; split; [apply B2; reflexivity|]; split; apply fl_empty.
    all: right; split; [intros [X Y]; apply B1 in X; apply B2 in Y; discriminate|]; split; apply fl_6_num.
  - destruct (Qeq_bool (nan_to_num (fst x)) 0); cbn [fst]; [left; split; [apply B1; reflexivity|apply fl_empty]|right; split; [intros X; apply B1 in X; discriminate|apply fl_6_num]].
Qed.
Lemma reading_stored d f : reading d f -> stored d f.
Proof.
  intros (N & P & A). split; [exact N|]. split.
  - intros p q H. rewrite (P p q H). apply (fl_near 12 q (5 # 10000000000000)); [lia|]. vm_compute. reflexivity.
  - intros k p i j Hp Hi Hj. rewrite (A k p i j Hp Hi Hj). destruct (e_arr d k); [apply got_back|reflexivity].
Qed.
Lemma file_data d root x y : e_period d <> [] -> file_of d root -> read root = Ok x -> conv x = Ok y -> at_key (txt "data") y = Ok (data_value d).
Proof.
  intros NE (tag & t & pre & D & post & -> & T & P1 & P2 & S) R C. refine (root_data tag t pre D post _ _ x y T P1 P2 _ _ _ (conv_data d) R C).
  - rewrite (spaced_tag _ _ S). reflexivity.
  - rewrite (spaced_read _ _ S). apply read_data. exact NE.
  - exact I.
Qed.
Lemma file_reading d root : 2 <= List.length (e_period d) -> file_of d root -> readable root -> exists f, read_tree root = Ok f /\ reading d f.
Proof.
  intros L F (x & y & R & C). unfold read_tree. rewrite R. cbn [bindR]. rewrite C. cbn [bindR]. apply read_dict_ok; [exact L|].
  apply (file_data d root x y); try assumption. intros E. rewrite E in L. cbn in L. lia.
Qed.

(** The data of any file with at least two periods are read: periods and entries at their places, to the precision of the file. *)
Theorem C92_file d root : 2 <= List.length (e_period d) -> file_of d root -> readable root -> exists f, read_tree root = Ok f /\ stored d f.
Proof. intros L F R. destruct (file_reading d root L F R) as (f & E & G). exists f. split; [exact E|apply reading_stored; exact G]. Qed.
(** * In particular the element of the data alone. *)
Lemma spaced_self tag a cs : Forall (fun c => spaced c c) cs -> spaced (Elem tag a None cs) (Elem tag a None cs).
Proof. intros F. destruct cs as [|c cs]; [constructor|]. constructor; [discriminate| |discriminate]. induction F; constructor; assumption. Qed.
Lemma to_xml_spaced d : spaced (to_xml d) (to_xml d).
Proof.
  apply spaced_self. apply Forall_forall. intros b I. apply in_map_iff in I as ([p q] & <- & _). apply spaced_self. apply Forall_forall. intros e I. apply in_flat_map in I as (k & _ & I).
  destruct (e_arr d k) as [a|]; [|destruct I]. destruct I as [<-|[]]. apply spaced_self. apply Forall_forall. intros e I. apply in_flat_map in I as (oi & _ & I). apply in_map_iff in I as (ij & <- & _). constructor.
Qed.
Lemma alone_file d tag : file_of d (Elem tag [] None [to_xml d]).
Proof. exists tag, None, [], (to_xml d), []. split; [reflexivity|]. split; [discriminate|]. split; [constructor|]. split; [constructor|apply to_xml_spaced]. Qed.
Lemma alone_readable d tag : readable (Elem tag [] None [to_xml d]).
Proof.
  assert (R : exists v v', read (to_xml d) = Ok (XDict v) /\ conv (XDict v) = Ok v').
  { destruct (e_period d) as [|q qs] eqn:E.
    - exists [(txt "count", XText (txt "0"))], (XDict [(txt "count", XText (txt "0"))]). unfold to_xml. rewrite E. split; reflexivity.
    - eexists _, _. split; [apply read_data; rewrite E; discriminate|apply conv_data]. }
  destruct R as (v & v' & R & C). exists (XDict [(txt "Data", XDict v)]), (XDict [(txt "data", v')]). split.
  - rewrite read_eq. cbn [read_each]. rewrite R. reflexivity.
  - rewrite conv_dict. cbn [conv_each]. rewrite C. reflexivity.
Qed.
Theorem C92_alone d tag : 2 <= List.length (e_period d) -> exists f, read_tree (Elem tag [] None [to_xml d]) = Ok f /\ stored d f.
Proof. intros L. apply C92_file; [exact L|apply alone_file|apply alone_readable]. Qed.

(** * Writing what was read *)
Lemma fl_show d q c : 0 < d -> fl (show_sci d q) = Some c -> show_sci d c = show_sci d q.
Proof.
  intros D F. destruct (fl_sci d q D) as (v & F' & V). rewrite F in F'. injection F' as ->. rewrite <- (show_sci_again d q). unfold show_sci. rewrite V. reflexivity.
Qed.
Lemma fl_zero d q : 0 < d -> Qeq_bool (nan_to_num (fl (show_sci d q))) 0 = Qeq_bool q 0.
Proof.
  intros D. destruct (fl_sci d q D) as (v & -> & V). cbn [nan_to_num]. apply eq_true_iff_eq. rewrite !Qeq_bool_iff, V. apply sci_value_zero.
Qed.
Lemma fl_num d q : 0 < d -> show_sci d (nan_to_num (fl (show_sci d q))) = show_sci d q.
Proof. intros D. destruct (fl_sci d q D) as (v & F & V). pose proof (fl_show d q v D F) as E. rewrite F. exact E. Qed.
Lemma got_text k x : value_text k (got k x) = value_text k x.
Proof.
  unfold value_text. assert (E : exists re im, filled k x = (re, im) /\ got k x = (if is_complex k then (fl (show_sci 6 re), fl (show_sci 6 im)) else (fl (show_sci 6 re), Some 0%Q)) /\ (if is_complex k then (Qeq_bool re 0 && Qeq_bool im 0)%bool = false else Qeq_bool re 0 = false)).
  { unfold got, filled. destruct (is_complex k).
    - destruct (Qeq_bool (nan_to_num (fst x)) 0 && Qeq_bool (nan_to_num (snd x)) 0)%bool eqn:B; eexists _, _; (split; [reflexivity|]); (split; [reflexivity|]); [reflexivity|exact B].
    - destruct (Qeq_bool (nan_to_num (fst x)) 0) eqn:B; eexists _, _; (split; [reflexivity|]); (split; [reflexivity|]); [reflexivity|exact B]. }
  destruct E as (re & im & -> & -> & NZ). unfold filled. destruct (is_complex k); cbn [fst snd].
  - rewrite !fl_zero, NZ by lia. rewrite !fl_num by lia. reflexivity.
  - rewrite !fl_zero, NZ by lia. rewrite !fl_num by lia. reflexivity.
Qed.
Lemma indexed_in {A} (l : list A) i x : In (i, x) (indexed l) -> nth_error l i = Some x /\ i < List.length l.
Proof.
  unfold indexed. assert (G : forall s, In (i, x) (combine (seq s (List.length l)) l) -> s <= i /\ nth_error l (i - s) = Some x).
  { induction l as [|y l IH]; intros s I; [destruct I|]. cbn [List.length seq combine In] in I. destruct I as [I|I]; [injection I as <- <-; rewrite Nat.sub_diag; split; [lia|reflexivity]|].
    apply IH in I as [L E]. split; [lia|]. replace (i - s) with (S (i - S s)) by lia. exact E. }
  intros I. apply G in I as [_ I]. rewrite Nat.sub_0_r in I. split; [exact I|]. apply nth_error_Some. congruence.
Qed.
Lemma map_indexed {A B} (f g : nat * A -> B) (l l' : list A) : List.length l = List.length l' ->
  (forall i x y, nth_error l i = Some x -> nth_error l' i = Some y -> f (i, x) = g (i, y)) -> map f (indexed l) = map g (indexed l').
Proof.
  unfold indexed. intros L H. assert (G : forall s, (forall i x y, nth_error l i = Some x -> nth_error l' i = Some y -> f (s + i, x) = g (s + i, y)) -> map f (combine (seq s (List.length l)) l) = map g (combine (seq s (List.length l')) l')); [|apply (G 0); exact H].
  clear H. revert l' L. induction l as [|x l IH]; intros [|y l'] L s H; try discriminate L; [reflexivity|]. injection L as L. cbn [List.length seq combine map].
  rewrite (IH l' L (S s)); [|intros i u v U V; rewrite Nat.add_succ_comm; apply (H (S i)); assumption].
  assert (E : f (s, x) = g (s, y)) by (specialize (H 0 x y eq_refl eq_refl); rewrite Nat.add_0_r in H; exact H). rewrite E. reflexivity.
Qed.
Lemma array_again k p a b : (forall i j, i < rows k -> j < cols k -> value_text k (b p i j) = value_text k (a p i j)) -> array_element k p b = array_element k p a.
Proof.
  intros H. unfold array_element. f_equal. rewrite !flat_map_concat_map. f_equal. apply map_ext_in. intros [i on] I. apply map_ext_in. intros [j jn] J. cbn [fst snd]. unfold value_element.
  rewrite H; [reflexivity|apply (channel_out k i on I)|apply (channel_in k j jn J)].
Qed.
(** If all the arrays are there, writing what was read gives the same element again. *)
Theorem C92_again d root f d' : 2 <= List.length (e_period d) -> (forall k, e_arr d k <> None) -> file_of d root -> readable root -> read_tree root = Ok f -> as_read f d' -> to_xml d' = to_xml d.
Proof.
  intros L ALL F R E (LEN & PER & ARR). destruct (file_reading d root L F R) as (f0 & E0 & (N & P & A)). rewrite E in E0. injection E0 as <-.
  assert (LL : List.length (e_period d') = List.length (e_period d)) by congruence.
  unfold to_xml. rewrite LL. f_equal. apply map_indexed; [exact LL|]. intros p q q' H H'. cbn [fst snd].
  assert (Hp : p < List.length (e_period d)) by (apply nth_error_Some; congruence).
  unfold write_block. assert (T : show_sci 12 q = show_sci 12 q').
  { apply (fl_show 12 q' q); [lia|]. rewrite <- (P p q' H'). apply PER. exact H. }
  rewrite T. f_equal. rewrite !flat_map_concat_map. f_equal. apply map_ext_in. intros k _. destruct (ARR k) as (b & -> & B). destruct (e_arr d k) as [a|] eqn:EA; [|exfalso; exact (ALL k EA)].
  f_equal. apply array_again. intros i j Hi Hj. rewrite B, (A k p i j Hp Hi Hj), EA. apply got_text.
Qed.

(** * What is not so *)
(** A file with one period cannot be read, nor one with none. *)
Theorem C92_one_refuted d root : List.length (e_period d) = 1 -> file_of d root -> readable root -> read_tree root = Err TypeError.
Proof.
  intros L F (x & y & R & C). unfold read_tree. rewrite R. cbn [bindR]. rewrite C. cbn [bindR]. apply (read_dict_one d); [exact L|].
  apply (file_data d root x y); try assumption. intros E. rewrite E in L. discriminate L.
Qed.
Theorem C92_none_refuted d root : e_period d = [] -> file_of d root -> readable root -> read_tree root = Err KeyError.
Proof.
  intros Z (tag & t & pre & D & post & -> & T & P1 & P2 & S) (x & y & R & C). unfold read_tree. rewrite R. cbn [bindR]. rewrite C. cbn [bindR].
  assert (Y : at_key (txt "data") y = Ok (XDict [(txt "count", XText (txt "0"))])).
  { refine (root_data tag t pre D post (XDict [(txt "count", XText (txt "0"))]) _ x y T P1 P2 _ _ I _ R C); [rewrite (spaced_tag _ _ S); reflexivity| |reflexivity].
    rewrite (spaced_read _ _ S). unfold to_xml. rewrite Z. reflexivity. }
  unfold read_dict. rewrite Y. reflexivity.
Qed.
(** Zeros and nan come back as 1e32, in every file. *)
Theorem C92_zero_refuted d root k a p i j : 2 <= List.length (e_period d) -> file_of d root -> readable root -> e_arr d k = Some a ->
  p < List.length (e_period d) -> i < rows k -> j < cols k -> blank (fst (a p i j)) -> blank (snd (a p i j)) -> exists f, read_tree root = Ok f /\ is_1e32 (fst (f_arr f k p i j)).
Proof.
  intros L F R EA Hp Hi Hj B1 B2. destruct (C92_file d root L F R) as (f & E & _ & _ & A). exists f. split; [exact E|]. specialize (A k p i j Hp Hi Hj). rewrite EA in A. destruct A as [A1 A2].
  destruct (is_complex k) eqn:K.
  - destruct A2 as [(_ & _ & H & _)|(N & _)]; [intros H; apply real_complex in H; congruence|exact H|]. exfalso. apply N. split; assumption.
  - destruct A1 as [(_ & H)|(N & _)]; [apply real_complex; exact K|exact H|contradiction].
Qed.
(** An array that is not there is zero when it was read, and 1e32 when that was written and read again. *)
Theorem C92_absent_refuted d root k p i j f d' root' f' : 2 <= List.length (e_period d) -> file_of d root -> readable root -> e_arr d k = None ->
  p < List.length (e_period d) -> i < rows k -> j < cols k -> read_tree root = Ok f -> as_read f d' -> file_of d' root' -> readable root' -> read_tree root' = Ok f' ->
  all_zero (f_arr f k p i j) /\ is_1e32 (fst (f_arr f' k p i j)).
Proof.
  intros L F R EA Hp Hi Hj E (LEN & PER & ARR) F' R' E'. destruct (C92_file d root L F R) as (f0 & E0 & N & _ & A). rewrite E in E0. injection E0 as <-. specialize (A k p i j Hp Hi Hj). rewrite EA in A.
  split; [exact A|]. destruct (ARR k) as (a & EB & B). assert (BZ : a p i j = (Some 0%Q, Some 0%Q)) by (rewrite B; exact A).
  assert (LL : List.length (e_period d') = List.length (e_period d)) by congruence.
  destruct (C92_zero_refuted d' root' k a p i j) as (f1 & E1 & H); [lia|exact F'|exact R'|exact EB|lia|exact Hi|exact Hj|rewrite BZ; reflexivity|rewrite BZ; reflexivity|]. rewrite E' in E1. injection E1 as <-. exact H.
Qed.
(** Of elements that repeat and hold only text nothing is kept, whatever the texts are. *)
Theorem C92_texts_refuted rt tag n x y : tag <> txt "item" -> validate_attribute tag = Ok n ->
  bindR (read (Elem rt [] None [Elem tag [] (Some x) []; Elem tag [] (Some y) []])) conv = Ok (XDict [(n, XList [XDict []; XDict []])]).
Proof.
  intros NI V. rewrite read_eq. assert (RL : forall s, exists v, read (Elem tag [] (Some s) []) = Ok v /\ conv v = Ok (XDict [])) by (intros [|c s]; eexists; split; reflexivity).
  destruct (RL x) as (vx & RX & CX). destruct (RL y) as (vy & RY & CY). cbn [read_each]. rewrite RX. cbn [bindR]. rewrite RY. cbn [bindR tag_of].
  change [(tag, vx); (tag, vy)] with (map (fun v => (tag, v)) [vx; vy]). rewrite child_value_same by exact NI. cbn [one_or_list List.length set_attribs bindR set_text].
  rewrite conv_dict. cbn [conv_each]. rewrite V. cbn [bindR]. rewrite conv_lst. cbn [conv_list]. rewrite CX, CY. reflexivity.
Qed.

(** * Cases that meet the hypotheses *)
Definition sample : data := mkEmtf [(1 # 8)%Q; (3 # 2)%Q; 100%Q]
  (fun k => match k with KZ => Some (fun p i j => (Some (inject_Z (Z.of_nat (p + i))), Some (- (7 # 3))%Q)) | KZVar => Some (fun p i j => (if i =? j then None else Some (1 # 3)%Q, Some 0%Q)) | KT => Some (fun p i j => (Some 0%Q, Some 0%Q)) | _ => None end).
Definition sample_root : xml := Elem (txt "EM_TF") [] (Some [newline; " "%char]) [Elem (txt "Description") [] (Some (txt "MT")) []; to_xml sample; Elem (txt "Site") [] None []].
Example C92_file_hyp : 2 <= List.length (e_period sample) /\ file_of sample sample_root /\ readable sample_root.
Proof.
  split; [cbn; lia|]. split.
  - exists (txt "EM_TF"), (Some [newline; " "%char]), [Elem (txt "Description") [] (Some (txt "MT")) []], (to_xml sample), [Elem (txt "Site") [] None []].
    split; [reflexivity|]. split; [intros s E; injection E as <-; reflexivity|]. split; [repeat constructor; discriminate|]. split; [repeat constructor; discriminate|apply to_xml_spaced].
  - exists (XDict [(txt "Description", XText (txt "MT")); (txt "Data", XDict [(txt "Period", one_or_list (blocks sample key_tag)); (txt "count", XText (count_text sample))]); (txt "Site", XNone)]).
    exists (XDict [(txt "description", XText (txt "MT")); (txt "data", data_value sample); (txt "site", XNone)]). split.
    + unfold sample_root. rewrite read_eq. cbn [read_each]. rewrite (read_data sample) by discriminate. cbn [bindR tag_of to_xml]. generalize (one_or_list (blocks sample key_tag)), (count_text sample). intros X Y. reflexivity.
    + rewrite conv_dict. cbn [conv_each]. rewrite conv_data. reflexivity.
Qed.
Definition sample_full : data := mkEmtf [(1 # 8)%Q; (3 # 2)%Q] (fun k => Some (fun p i j => (Some (inject_Z (Z.of_nat (p + i + j))), None))).
Example C92_again_hyp : exists f d', read_tree (Elem (txt "EM_TF") [] None [to_xml sample_full]) = Ok f /\ as_read f d' /\ (forall k, e_arr sample_full k <> None).
Proof.
  destruct (file_reading sample_full (Elem (txt "EM_TF") [] None [to_xml sample_full]) ltac:(cbn; lia) (alone_file _ _) (alone_readable _ _)) as (f & E & (N & P & _)).
  destruct (fl_sci 12 (1 # 8)%Q ltac:(lia)) as (v0 & F0 & _). destruct (fl_sci 12 (3 # 2)%Q ltac:(lia)) as (v1 & F1 & _).
  exists f, (mkEmtf [v0; v1] (fun k => Some (f_arr f k))). split; [exact E|]. split; [|discriminate]. split; [rewrite N; reflexivity|]. split.
  - intros [|[|p]] q H; cbn in H.
    + injection H as <-. rewrite (P 0 (1 # 8)%Q eq_refl). exact F0.
    + injection H as <-. rewrite (P 1 (3 # 2)%Q eq_refl). exact F1.
    + destruct p; discriminate H.
  - intros k. exists (f_arr f k). split; reflexivity.
Qed.
Definition sample_one : data := mkEmtf [(1 # 8)%Q] (fun k => None).
Example C92_one_hyp : List.length (e_period sample_one) = 1 /\ file_of sample_one (Elem (txt "EM_TF") [] None [to_xml sample_one]) /\ readable (Elem (txt "EM_TF") [] None [to_xml sample_one]).
Proof. split; [reflexivity|]. split; [apply alone_file|apply alone_readable]. Qed.
Example C92_zero_hyp : exists a, e_arr sample KT = Some a /\ blank (fst (a 1 0 1)) /\ blank (snd (a 1 0 1)) /\ e_arr sample KZRes = None.
Proof. eexists. split; [reflexivity|]. repeat split. Qed.
Example C92_texts_hyp : validate_attribute (txt "RunList") = Ok (txt "run_list").
Proof. vm_compute. reflexivity. Qed.
Print Assumptions C92_file.
Print Assumptions C92_alone.
Print Assumptions C92_again.
Print Assumptions C92_one_refuted.
Print Assumptions C92_none_refuted.
Print Assumptions C92_zero_refuted.
Print Assumptions C92_absent_refuted.
Print Assumptions C92_texts_refuted.
