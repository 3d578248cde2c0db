(** Lemmas for C95: the header as a whole, the file. *)
From Coq Require Import Qabs Lqa Sorting.Sorted.
From Verif Require Import PyBase PyText TextFacts PyNum IsoModel IsoProofs PyFloat PyFloatFacts PySci PySciFacts EdiModel EdiProofs ZmmModel ZmmSpec ZmmProofs ZmmBlock ZmmFile ZheadModel ZheadSpec ZheadProofs.
Local Open Scope list_scope.
Local Open Scope Z_scope.

Lemma Ok_inj {A} (x y : A) : Ok x = Ok y -> x = y.
Proof. intros E. injection E as E. exact E. Qed.
(** ** "period" in lower case *)
Lemma space_lower c : is_space (to_lower c) = is_space c.
Proof. pose proof (ascii_forall (fun c => Bool.eqb (is_space (to_lower c)) (is_space c)) eq_refl c) as X. apply Bool.eqb_prop. exact X. Qed.
Lemma split_ws_lower_from s : forall cur, split_ws_from (lower cur) (lower s) = map lower (split_ws_from cur s).
Proof.
  induction s as [|c s IH]; intros cur.
  - cbn [lower map split_ws_from]. destruct cur as [|x cur]; [reflexivity|]. cbn [map]. unfold lower. rewrite <- map_rev. reflexivity.
  - cbn [lower map split_ws_from]. rewrite space_lower. destruct (is_space c).
    + destruct cur as [|x cur]; [apply (IH [])|]. change (map to_lower (x :: cur)) with (lower (x :: cur)). cbn [map]. apply f_equal2; [unfold lower; rewrite <- map_rev; reflexivity|apply (IH [])].
    + apply (IH (c :: cur)).
Qed.
Lemma split_ws_lower s : split_ws (lower s) = map lower (split_ws s).
Proof. exact (split_ws_lower_from s []). Qed.
Lemma contains_line_lower p sp w l : word p -> spaces sp -> word w -> Forall spaced l ->
  contains p (lower (line_of ((sp, w) :: l))) = existsb (fun x => contains p (lower x)) (w :: map snd l).
Proof.
  intros P S0 W F. rewrite (contains_words p _ P), split_ws_lower, (split_ws_line1 sp w l S0 W F). generalize (w :: map snd l). intros ws. induction ws as [|x ws IH]; [reflexivity|]. cbn [map existsb]. rewrite IH. reflexivity.
Qed.
Definition no_period (s : text) : Prop := contains (txt "period") (lower s) = false.
Lemma num_no_period s : forallb num_char s = true -> contains (txt "period") (lower s) = false.
Proof. intros H. rewrite (lower_num s H). apply (num_contains s "p"%char (txt "eriod") H). reflexivity. Qed.
Lemma channel_no_period station ii c ch : id_like station -> no_period station -> no_period (channel_line station ii c ch).
Proof.
  intros ID N. unfold no_period in *. pose proof (channel_line_words station ii c ch) as L. destruct (channel_words station ii c ch) as [[s n] l] eqn:E. rewrite L.
  destruct (channel_spaced station ii c ch s n l ID E) as (S1 & W1 & F). rewrite (contains_line_lower _ s n l period_word S1 W1 F). unfold channel_words in E. injection E as <- <- <-.
  cbn [existsb map snd]. rewrite (num_no_period _ (show_int_chars _)), !(num_no_period _ (show_fixed_chars _ _)). cbn [orb].
  destruct station as [|y station]; cbn [map snd existsb]; rewrite ?N; destruct c; reflexivity.
Qed.
Lemma coordinate_no_period h : no_period (coordinate_line h).
Proof.
  unfold no_period. rewrite coordinate_line_words. etransitivity; [apply (contains_line_lower _ [] (txt "coordinate") _ period_word eq_refl ltac:(split; [discriminate|reflexivity]) (coordinate_spaced h))|].
  unfold coordinate_words. cbn [existsb map snd]. rewrite !(num_no_period _ (show_fixed_chars _ _)). reflexivity.
Qed.
Lemma number_no_period nc nf : no_period (number_line nc nf).
Proof.
  unfold no_period. rewrite number_line_words. etransitivity; [apply (contains_line_lower _ [] (txt "number") _ period_word eq_refl ltac:(split; [discriminate|reflexivity]) (number_spaced nc nf))|].
  unfold number_words. cbn [existsb map snd]. rewrite !(num_no_period _ (show_int_chars _)). reflexivity.
Qed.
Lemma channel_lines_all (P : text -> Prop) station f : (forall ii c ch, P (channel_line station ii c ch)) -> forall l ii, Forall P (channel_lines station f ii l).
Proof. intros H. induction l as [|c l IH]; intros ii; [constructor|]. cbn [channel_lines]. destruct (f c); [constructor; [apply H|]|]; apply IH. Qed.
Lemma station_no_period s : no_period s -> no_period (txt "station: " ++ s).
Proof.
  intros N. unfold no_period. replace (lower (txt "station: " ++ s)) with (txt "station: " ++ lower s) by reflexivity.
  rewrite station_line_contains by (cbn; intros I; repeat destruct I as [I|I]; try discriminate I; exact I). exact N.
Qed.
Lemma header_no_period h lines : readable h -> write_header h = Ok lines -> Forall no_period lines.
Proof.
  intros (ID & KW & NP & NT & _) E. unfold write_header in E. destruct (zh_channels h), (zh_frequencies h); try discriminate E. apply Ok_inj in E; subst lines. cbn [app header_lines].
  constructor; [reflexivity|]. constructor; [reflexivity|]. constructor; [exact NT|]. constructor.
  { exact (station_no_period _ NP). }
  constructor; [apply coordinate_no_period|]. constructor; [apply number_no_period|]. constructor; [reflexivity|]. apply channel_lines_all. intros. apply channel_no_period; assumption.
Qed.
(** ** No line breaks *)
Lemma id_clean s : id_like s -> ~ In newline s.
Proof. intros ID. apply (id_no _ _ ID). reflexivity. Qed.
Lemma header_clean h lines : readable h -> write_header h = Ok lines -> Forall (fun l => ~ In newline l) lines.
Proof.
  intros (ID & _ & _ & _ & NT & _) E. unfold write_header in E. destruct (zh_channels h), (zh_frequencies h); try discriminate E. apply Ok_inj in E; subst lines. cbn [app header_lines].
  constructor; [apply txt_clean; reflexivity|]. constructor; [apply txt_clean; reflexivity|]. constructor; [exact NT|]. constructor.
  { intros I. apply in_app_or in I as [I|I]; [revert I; apply txt_clean; reflexivity|exact (id_clean _ ID I)]. }
  constructor.
  { rewrite coordinate_line_words. apply line_clean. repeat (apply Forall_cons; [split; cbn [fst snd]; first [exact (fun x => x)|apply txt_clean; reflexivity|apply blank_sp_clean|apply num_clean, show_fixed_chars]|]). constructor. }
  constructor.
  { rewrite number_line_words. apply line_clean. repeat (apply Forall_cons; [split; cbn [fst snd]; first [exact (fun x => x)|apply txt_clean; reflexivity|apply blank_sp_clean|apply (blank_sp_clean (S _))|apply (blank_sp_clean 1)|apply num_clean, show_int_chars]|]). constructor. }
  constructor; [apply txt_clean; reflexivity|]. apply channel_lines_all. intros ii c ch. pose proof (channel_line_words (zh_station h) ii c ch) as L. unfold channel_words in L. rewrite L. apply line_clean.
  cbn [app]. repeat (apply Forall_cons; [split; cbn [fst snd]; first [apply sp_clean|apply blank_sp_clean|apply num_clean, show_fixed_chars|apply num_clean, show_int_chars]|]).
  destruct (zh_station h) as [|x s] eqn:ES.
  - constructor; [|constructor]. split; cbn [fst snd]; [apply txt_clean with (s := "      "%string); reflexivity|destruct c; apply txt_clean with (s := "Xx"%string) || (intros I; cbn in I; repeat destruct I as [I|I]; try discriminate I; exact I)].
  - repeat (apply Forall_cons; [split; cbn [fst snd]; first [apply blank_sp_clean|exact (id_clean _ ID)|apply (blank_sp_clean 1)|destruct c; intros I; cbn in I; repeat destruct I as [I|I]; try discriminate I; exact I]|]). constructor.
Qed.
(** ** The header part of a file *)
Lemma header_part_all l : Forall no_period l -> header_part l = None.
Proof.
  induction l as [|x l IH]; intros F; [reflexivity|]. inversion F; subst. cbn [header_part]. rewrite (contains_lower (txt "period") x eq_refl H1), (IH H2). reflexivity.
Qed.
Lemma header_part_app l p rest : Forall no_period l -> contains (txt "period") p = true -> header_part (l ++ p :: rest) = Some l.
Proof.
  induction l as [|x l IH]; intros F P; cbn [app header_part]; [rewrite P; reflexivity|]. inversion F; subst. rewrite (contains_lower (txt "period") x eq_refl H1), (IH H2 P). reflexivity.
Qed.
Lemma split_front c (l : list text) r : Forall (fun x => ~ In c x) l -> r <> [] -> split_on c (join [c] (l ++ r)) = l ++ split_on c (join [c] r).
Proof.
  induction l as [|x l IH]; intros F R; [reflexivity|]. inversion F; subst. cbn [app]. destruct (l ++ r) as [|y t] eqn:E; [apply app_eq_nil in E as [_ E]; contradiction|].
  change (join [c] (x :: y :: t)) with (x ++ [c] ++ join [c] (y :: t)). cbn [app]. rewrite split_on_app by assumption. rewrite (IH H2 R). reflexivity.
Qed.
Lemma split_head c w r : ~ In c w -> exists x xs, split_on c (w ++ r) = (w ++ x) :: xs.
Proof.
  induction w as [|y w IH]; intros N; cbn [app].
  - destruct (split_on c r) as [|x xs] eqn:E; [exfalso; exact (split_on_nonnil c r E)|]. exists x, xs. reflexivity.
  - destruct IH as (x & xs & E); [intros I; apply N; right; exact I|]. cbn [split_on]. destruct (Ascii.eqb_spec y c) as [->|Y]; [exfalso; apply N; left; reflexivity|]. rewrite E. exists x, xs. reflexivity.
Qed.
Lemma join_cons_head (x : text) l : exists r, join [newline] (x :: l) = x ++ r.
Proof. destruct l as [|y l]; [exists []; cbn [join]; rewrite app_nil_r; reflexivity|]. eexists. reflexivity. Qed.
Lemma block_head d n rest : exists r, join [newline] (write_block n d ++ rest) = txt "period : " ++ r.
Proof.
  unfold write_block. rewrite <- app_assoc. set (t := _ ++ rest). cbn [app]. destruct (join_cons_head (period_line d) (points_line d :: txt " Transfer Functions" :: t)) as (r & E). cbn [app] in *.
  eexists. etransitivity; [exact E|]. unfold period_line. rewrite <- app_assoc. reflexivity.
Qed.
Lemma header_of_file lines n d l : Forall no_period lines -> Forall (fun l => ~ In newline l) lines ->
  header_part (split_on newline (write_file lines n (d :: l))) = Some (lines ++ [[]]).
Proof.
  intros F C. unfold write_file. rewrite app_assoc. rewrite split_front; [|apply Forall_app; split; [exact C|constructor; [intros []|constructor]]|discriminate].
  destruct (block_head d n (concat (map (write_block n) l))) as (r & E). cbn [map concat]. rewrite E.
  destruct (split_head newline (txt "period : ") r) as (x & xs & E2); [apply txt_clean; reflexivity|]. rewrite E2.
  apply header_part_app; [apply Forall_app; split; [exact F|constructor; [reflexivity|constructor]]|reflexivity].
Qed.
Lemma header_of_empty lines n : Forall no_period lines -> Forall (fun l => ~ In newline l) lines -> header_part (split_on newline (write_file lines n [])) = None.
Proof.
  intros F C. unfold write_file. cbn [map concat]. rewrite app_nil_r. rewrite split_join; [|intros E; apply app_eq_nil in E as [_ E]; discriminate E|].
  - apply header_part_all. apply Forall_app. split; [exact F|constructor; [reflexivity|constructor]].
  - intros w I. apply in_app_or in I as [I|[<-|[]]]; [rewrite Forall_forall in C; exact (C w I)|intros []].
Qed.
(** ** Reading the header *)
Lemma read_first st : read_line st 0 (txt "TRANSFER FUNCTIONS IN MEASUREMENT COORDINATES") = Ok st.
Proof. reflexivity. Qed.
Definition with_comments (st : zgot) (c : text) : zgot :=
  mkGot c (zg_type st) (zg_tf_type st) (zg_station st) (zg_run st) (zg_tf st) (zg_latitude st) (zg_longitude st) (zg_declination st) (zg_channels st) (zg_frequencies st) (zg_channel st).
Lemma read_second st : zg_comments st = [] -> read_line st 1 (txt "********* WITH FULL ERROR COVARIANCE ********") = Ok (with_comments st (txt "WITH FULL ERROR COVARIANCE")).
Proof. intros E. unfold read_line. rewrite E. reflexivity. Qed.
Lemma read_orientations st k : k <> 2%nat -> read_line st k (txt " orientations and tilts of each channel") = Ok st.
Proof. intros K. unfold read_line. rewrite (proj2 (Nat.eqb_neq k 2) K). reflexivity. Qed.
Lemma read_empty st k : k <> 2%nat -> read_line st k [] = Ok st.
Proof. intros K. unfold read_line. rewrite (proj2 (Nat.eqb_neq k 2) K). reflexivity. Qed.
Lemma read_type st t : exists st', read_line st 2 t = Ok st' /\
  zg_tf_type st' = zg_tf_type st /\ zg_station st' = zg_station st /\ zg_run st' = zg_run st /\ zg_tf st' = zg_tf st /\
  zg_channels st' = zg_channels st /\ zg_frequencies st' = zg_frequencies st /\ zg_channel st' = zg_channel st /\
  (contains (txt "**") t = false -> zg_type st' = Some (strip (lower t)) /\ zg_comments st' = zg_comments st).
Proof.
  unfold read_line. destruct (contains (txt "**") t) eqn:E; cbv iota; eexists; (split; [reflexivity|]); do 7 (split; [reflexivity|]); intros HS; [discriminate HS|]. split; reflexivity.
Qed.
Lemma read_written h lines : readable h -> (Qabs (zh_longitude h) <= 180 # 1 \/ 180 + (5 # 10000) < zh_longitude h <= 540 # 1)%Q ->
  write_header h = Ok lines -> exists g, read_header_list (lines ++ [[]]) = Ok g /\ kept h g /\ close (5 # 10000) (turned (zh_longitude h)) (zg_longitude g).
Proof.
  intros R LO E. pose proof R as (ID & KW & NP & NT & NN & LA & _). unfold write_header in E.
  destruct (zh_channels h) as [nc|] eqn:NC; [|discriminate E]. destruct (zh_frequencies h) as [nf|] eqn:NF; [|discriminate E]. apply Ok_inj in E; subst lines.
  cbn [app header_lines]. unfold read_header_list. cbn [item nth_error bindR]. rewrite (fourth_station_ok _ ID). cbn [bindR]. rewrite (id_like_valid _ (id_lower _ ID)).
  set (s0 := mkGot _ _ _ _ _ _ _ _ _ _ _ _). cbn [read_lines]. rewrite read_first. cbn [bindR]. rewrite read_second by reflexivity. cbn [bindR].
  set (s1 := with_comments s0 _). destruct (read_type s1 (zh_type h)) as (s2 & R2 & A1 & A2 & A3 & A4 & A5 & A6 & A7 & A8). rewrite R2. cbn [bindR].
  rewrite (read_station s2 3 _ ID) by discriminate. cbn [bindR]. destruct (read_coordinate (with_station s2 (zh_station h)) 4 h ltac:(discriminate) LA LO) as (lat & lon & d & CA & CO & CD & R4). rewrite R4. cbn [bindR].
  rewrite read_number by discriminate. cbn [bindR]. rewrite read_orientations by discriminate. cbn [bindR].
  set (s3 := with_numbers _ nc nf). destruct (read_channels (zh_station h) (zh_channel h) nc [[]] (conj ID KW) channel_order 7%nat 0%nat s3) as (g & k & K & RC & SB & CH & _).
  - unfold channel_order. repeat (constructor; [cbn; intros I; repeat destruct I as [I|I]; try discriminate I; exact I|]). constructor.
  - lia.
  - reflexivity.
  - intros i c I. do 5 (destruct i as [|i]; [injection I as <-; reflexivity|]). destruct i; discriminate I.
  - intros c _. unfold s3, with_numbers, with_location, with_station. cbn [zg_channel]. rewrite A7. reflexivity.
  - rewrite RC. cbn [read_lines]. rewrite (read_empty g k) by lia. cbn [bindR]. exists g. split; [reflexivity|].
    destruct SB as (B1 & B2 & B3 & B4 & B5 & B6 & B7 & B8 & B9 & B10 & B11). cbn [s3 with_numbers with_location with_station zg_comments zg_type zg_tf_type zg_station zg_run zg_tf zg_latitude zg_longitude zg_declination zg_channels zg_frequencies] in B1, B2, B3, B4, B5, B6, B7, B8, B9, B10, B11.
    split; [|rewrite B8; exact CO]. unfold kept. split; [rewrite B3, A1; reflexivity|]. split; [exact B4|]. split; [rewrite B5, A3; reflexivity|]. split; [rewrite B6, A4; reflexivity|].
    split; [intros H; destruct (A8 H) as [A9 A10]; split; [rewrite B2; exact A9|rewrite B1, A10; reflexivity]|]. split; [rewrite B7; exact CA|]. split; [rewrite B9; exact CD|].
    split; [rewrite B10, NC; reflexivity|]. split; [rewrite B11, NF; reflexivity|]. intros c nc' E. assert (nc' = nc) by congruence. subst nc'. apply CH. destruct c; cbn; tauto.
Qed.
(** ** The order of the channels *)
Lemma put_new k c d : ~ In k (map fst d) -> put_index k c d = d ++ [(k, c)].
Proof.
  induction d as [|[k' c'] d IH]; intros N; [reflexivity|]. cbn [put_index map fst app] in *. destruct (Z.eqb_spec k k') as [->|_]; [exfalso; apply N; left; reflexivity|]. rewrite IH; [reflexivity|]. intros I. apply N. right. exact I.
Qed.
Definition indexed {A} (f : comp -> option (zchannel A)) (l : list comp) : list (Z * comp) :=
  flat_map (fun c => match number_of f c with Some n => [(n - 1, c)] | None => [] end) l.
Definition distinct {A} (f : comp -> option (zchannel A)) : Prop := forall c d m, number_of f c = Some m -> number_of f d = Some m -> c = d.
Lemma indexed_In {A} (f : comp -> option (zchannel A)) l k c : In (k, c) (indexed f l) <-> In c l /\ number_of f c = Some (k + 1).
Proof.
  unfold indexed. rewrite in_flat_map. split.
  - intros (d & I & J). destruct (number_of f d) as [n|] eqn:E; [|destruct J]. destruct J as [J|[]]. injection J as <- <-. split; [exact I|]. rewrite E. f_equal. lia.
  - intros [I E]. exists c. split; [exact I|]. rewrite E. left. f_equal. lia.
Qed.
Lemma collect {A} (f : comp -> option (zchannel A)) : distinct f -> forall l d, NoDup l -> (forall k c, In (k, c) d -> number_of f c = Some (k + 1) /\ ~ In c l) ->
  fold_left (fun d c => match f c with Some ch => match zn_number ch with Some n => put_index (n - 1) c d | None => d end | None => d end) l d = d ++ indexed f l.
Proof.
  intros D. induction l as [|c l IH]; intros d ND H; [cbn; rewrite app_nil_r; reflexivity|]. inversion ND as [|? ? NI ND']; subst. cbn [fold_left indexed flat_map]. unfold number_of at 1.
  assert (H' : forall k x, In (k, x) d -> number_of f x = Some (k + 1) /\ ~ In x l) by (intros k x I; destruct (H k x I) as [A1 A2]; split; [exact A1|intros J; apply A2; right; exact J]).
  destruct (f c) as [ch|] eqn:FC; [destruct (zn_number ch) as [n|] eqn:N|]; try exact (IH d ND' H').
  rewrite put_new.
  - rewrite IH; [rewrite <- app_assoc; reflexivity|exact ND'|]. intros k x I. apply in_app_or in I as [I|[I|[]]]; [exact (H' k x I)|]. injection I as <- <-. split; [|exact NI]. unfold number_of. rewrite FC, N. f_equal. lia.
  - intros I. apply in_map_iff in I as ([k x] & K & I). cbn [fst] in K. subst k. destruct (H _ _ I) as [A1 A2]. apply A2. left. apply (D c x n); [unfold number_of; rewrite FC; exact N|]. rewrite A1. f_equal. lia.
Qed.
Lemma insert_In x l y : In y (insert_index x l) <-> y = x \/ In y l.
Proof.
  induction l as [|z l IH]; [cbn; intuition congruence|]. cbn [insert_index]. destruct (fst x <=? fst z); cbn [In]; rewrite ?IH; intuition congruence.
Qed.
Lemma sort_In l y : In y (sort_index l) <-> In y l.
Proof. induction l as [|x l IH]; [reflexivity|]. cbn [sort_index fold_right In]. fold (sort_index l). rewrite insert_In, IH. intuition congruence. Qed.
Lemma insert_sorted x l : StronglySorted (fun a b : Z * comp => fst a < fst b) l -> (forall y, In y l -> fst y <> fst x) -> StronglySorted (fun a b : Z * comp => fst a < fst b) (insert_index x l).
Proof.
  induction l as [|z l IH]; intros S0 N; [constructor; constructor|]. cbn [insert_index]. inversion S0 as [|? ? S1 F]; subst. destruct (Z.leb_spec (fst x) (fst z)) as [L|L].
  - constructor; [exact S0|]. assert (fst x < fst z) by (specialize (N z (or_introl eq_refl)); lia). constructor; [assumption|]. rewrite Forall_forall in *. intros y I. specialize (F y I). lia.
  - constructor; [apply IH; [exact S1|intros y I; apply N; right; exact I]|]. rewrite Forall_forall in *. intros y I. apply insert_In in I as [->|I]; [exact L|exact (F y I)].
Qed.
Lemma sort_sorted l : NoDup (map fst l) -> StronglySorted (fun a b : Z * comp => fst a < fst b) (sort_index l).
Proof.
  induction l as [|x l IH]; intros ND; [constructor|]. cbn [map] in ND. inversion ND as [|? ? NI ND']; subst. cbn [sort_index fold_right]. apply insert_sorted; [exact (IH ND')|].
  intros y I E. apply (sort_In l) in I. apply NI. rewrite <- E. apply in_map, I.
Qed.
Lemma indexed_nodup {A} (f : comp -> option (zchannel A)) : distinct f -> forall l, NoDup l -> NoDup (map fst (indexed f l)).
Proof.
  intros D. induction l as [|c l IH]; intros ND; [constructor|]. inversion ND as [|? ? NI ND']; subst. cbn [indexed flat_map]. destruct (number_of f c) as [n|] eqn:N; [|exact (IH ND')].
  cbn [app map fst]. constructor; [|exact (IH ND')]. intros I. apply in_map_iff in I as ([k x] & K & I). cbn [fst] in K. subst k. apply indexed_In in I as [I E]. apply NI. replace c with x; [exact I|]. apply (D x c n); [rewrite E; f_equal; lia|exact N].
Qed.
Lemma comps_nodup : NoDup comps.
Proof. unfold comps. repeat (constructor; [cbn; intros I; repeat destruct I as [I|I]; try discriminate I; exact I|]). constructor. Qed.
Lemma recorded_sorted {A} (f : comp -> option (zchannel A)) : distinct f -> (forall c, f c <> None -> number_of f c <> None) -> by_number f (channels_recorded f).
Proof.
  intros D ALL. unfold channels_recorded. rewrite (collect f D comps [] comps_nodup) by (intros k c []). cbn [app].
  pose proof (sort_sorted _ (indexed_nodup f D comps comps_nodup)) as S0. pose proof (sort_In (indexed f comps)) as SI. split.
  - assert (H : forall l, (forall y, In y l -> In y (indexed f comps)) -> StronglySorted (fun a b : Z * comp => fst a < fst b) l -> StronglySorted (before f) (map snd l)).
    { induction l as [|[k c] l IH]; intros IN S1; [constructor|]. inversion S1 as [|? ? S2 F]; subst. cbn [map snd]. constructor; [apply IH; [intros y I; apply IN; right; exact I|exact S2]|].
      rewrite Forall_forall in *. intros d I. apply in_map_iff in I as ([k' d'] & E & I). cbn [snd] in E. subst d'. specialize (F _ I). cbn [fst] in F.
      pose proof (proj1 (indexed_In f comps k c) (IN _ (or_introl eq_refl))) as [_ N1]. pose proof (proj1 (indexed_In f comps k' d) (IN _ (or_intror I))) as [_ N2].
      exists (k + 1), (k' + 1). split; [exact N1|]. split; [exact N2|lia]. }
    apply H; [intros y I; apply SI, I|exact S0].
  - intros c. split.
    + intros I. apply in_map_iff in I as ([k c'] & E & I). cbn [snd] in E. subst c'. apply (proj1 (SI _)), indexed_In in I as [_ N]. intros F. unfold number_of in N. rewrite F in N. discriminate N.
    + intros F. specialize (ALL c F). destruct (number_of f c) as [n|] eqn:N; [|contradiction]. apply in_map_iff. exists (n - 1, c). split; [reflexivity|]. apply SI, indexed_In. split; [destruct c; cbn; tauto|]. rewrite N. f_equal. lia.
Qed.
(** Two lists by the same numbers are the same. *)
Lemma by_number_unique {A B} (f : comp -> option (zchannel A)) (g : comp -> option (zchannel B)) : (forall c, number_of f c = number_of g c) -> (forall c, f c <> None <-> g c <> None) ->
  forall l l', by_number f l -> by_number g l' -> l = l'.
Proof.
  intros N E.
  assert (U : forall l l', StronglySorted (before f) l -> StronglySorted (before f) l' -> (forall c, In c l <-> In c l') -> l = l').
  { assert (IR : forall c, ~ before f c c) by (intros c (m & n & E1 & E2 & L); assert (m = n) by congruence; lia).
    assert (AS : forall c d, before f c d -> ~ before f d c) by (intros c d (m & n & E1 & E2 & L) (m' & n' & E3 & E4 & L'); assert (m = n') by congruence; assert (n = m') by congruence; lia).
    induction l as [|x l IH]; intros [|y l'] S1 S2 H; [reflexivity|exfalso; exact (proj2 (H y) (or_introl eq_refl))|exfalso; exact (proj1 (H x) (or_introl eq_refl))|].
    inversion S1 as [|? ? S3 F1]; subst. inversion S2 as [|? ? S4 F2]; subst. rewrite Forall_forall in F1, F2.
    assert (x = y). { destruct (proj1 (H x) (or_introl eq_refl)) as [Q|Q]; [auto|]. destruct (proj2 (H y) (or_introl eq_refl)) as [P|P]; [auto|]. exfalso. exact (AS _ _ (F2 x Q) (F1 y P)). }
    subst y. f_equal. apply IH; [exact S3|exact S4|]. intros c. split; intros I.
    - destruct (proj1 (H c) (or_intror I)) as [<-|J]; [exfalso; exact (IR x (F1 x I))|exact J].
    - destruct (proj2 (H c) (or_intror I)) as [<-|J]; [exfalso; exact (IR x (F2 x I))|exact J]. }
  intros l l' [S1 M1] [S2 M2]. apply U; [exact S1| |intros c; rewrite M1, M2; apply E].
  clear - S2 N. induction S2 as [|c l' S3 IH F]; [constructor|]. constructor; [exact IH|]. rewrite Forall_forall in *. intros d I. destruct (F d I) as (m & n & E1 & E2 & L). exists m, n. rewrite !N. auto.
Qed.
