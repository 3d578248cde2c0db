(** C105: the data section of an EDI file. *)
From Coq Require Import Permutation Sorted.
From Verif Require Import PyBase PyText PyNum PyFloat PyFloatFacts PyRepr PyFacts TextFacts JfileModel JfileData ZmmModel ZmmProofs DsecModel DsecSpec ValidatorsProofs EdiMeasFile EdiProofs DsecProofs.
Local Open Scope nat_scope.

Lemma clean_int z : clean (show_int z).
Proof.
  split.
  - apply strip_trimmed. pose proof (show_int_chars z) as H. rewrite forallb_forall in H.
    split; intros c r E; apply num_char_not; apply H; rewrite E; [left; reflexivity|apply in_or_app; right; left; reflexivity].
  - intros c I. pose proof (show_int_chars z) as H. rewrite forallb_forall in H. specialize (H _ I).
    assert (G : implb (num_char c) (negb (Ascii.eqb c ">") && negb (Ascii.eqb c "=") && negb (Ascii.eqb c """")) = true).
    { clear. revert c. apply ascii_forall. vm_compute. reflexivity. }
    rewrite H in G. cbn [implb] in G. apply andb_true_iff in G as [G G3]. apply andb_true_iff in G as [G1 G2].
    repeat split; intros ->; discriminate.
Qed.
Lemma fields_good d : tidy d -> Forall (fun kv => In (fst kv) names_all /\ clean (snd kv)) (number_fields d ++ written_ids d).
Proof.
  intros [T1 T2]. apply Forall_app. split.
  - assert (N : forall n, In n (map txt ["nfreq"; "sectid"; "nchan"; "maxblocks"]%string) -> In n names_all) by (intros n I; apply in_or_app; left; exact I).
    unfold number_fields. repeat (apply Forall_cons; [split; cbn [fst snd]; [apply N; cbn; tauto|first [apply clean_int|exact T1]]|]). constructor.
  - apply Forall_forall. intros [k v] I. apply written_in in I as (K & E & _). cbn [fst snd]. split.
    + apply in_or_app. right. exact K.
    + exact (T2 _ _ K E).
Qed.
Lemma set_section d0 d : set_all d0 (number_fields d ++ written_ids d) =
  Ok (mkD (d_nfreq d) (blanks_to_underscores (d_sectid d)) (d_nchan d) (d_maxblocks d)
    (fold_left (fun acc kv => dset text_dec (fst kv) (plain_id (snd kv)) acc) (written_ids d) (d_ids d0))).
Proof.
  destruct d0 as [f s n m ids]. unfold number_fields. cbn [app set_all fst snd].
  assert (A : forall z, set_key (mkD f s n m ids) (txt "nfreq") (show_int z) = Ok (mkD z s n m ids)).
  { intro z. unfold set_key. rewrite read_int_show. reflexivity. }
  rewrite A. cbn [bindR]. clear A.
  change (set_key (mkD (d_nfreq d) s n m ids) (txt "sectid") (d_sectid d)) with (Ok (mkD (d_nfreq d) (replace_char " " (txt "_") (d_sectid d)) n m ids)). cbn [bindR].
  assert (A : forall f s z, set_key (mkD f s n m ids) (txt "nchan") (show_int z) = Ok (mkD f s z m ids)).
  { intros f' s' z. unfold set_key. rewrite read_int_show. reflexivity. }
  rewrite A. cbn [bindR]. clear A.
  assert (A : forall f s n z, set_key (mkD f s n m ids) (txt "maxblocks") (show_int z) = Ok (mkD f s n z ids)).
  { intros f' s' n' z. unfold set_key. rewrite read_int_show. reflexivity. }
  rewrite A. cbn [bindR]. clear A.
  unfold blanks_to_underscores. change (txt "_") with ["_"%char]. rewrite replace_char_map.
  rewrite set_channels; [reflexivity|]. apply Forall_forall. intros [k v] I. apply written_in in I. apply I.
Qed.
Lemma read_section d0 num ty d pre x post : tidy d -> Forall (fun l => ~ opens_section l) pre -> opens_block x ->
  exists d', read_data d0 num ty (pre ++ write_data DZ d ++ x :: post) = Ok (d', all_ids d', List.length pre + List.length (write_data DZ d), DZ) /\
    d' = mkD (d_nfreq d) (blanks_to_underscores (d_sectid d)) (d_nchan d) (d_maxblocks d)
    (fold_left (fun acc kv => dset text_dec (fst kv) (plain_id (snd kv)) acc) (written_ids d) (d_ids d0)).
Proof.
  intros T P X. eexists. split; [|reflexivity]. unfold read_data. rewrite gd_pre by exact P.
  rewrite write_shape. cbn [app]. cbn [get_data].
  change (is_head []) with false. cbv iota. rewrite andb_false_r. cbn [get_data andb].
  change (is_head (txt ">=MTSECT")) with true. cbv iota.
  change (contains (txt "spect") (lower (txt ">=MTSECT"))) with false. change (contains (txt "mt") (lower (txt ">=MTSECT"))) with true. cbv iota.
  rewrite gd_body; [|apply Forall_app; split|exact X].
  - rewrite map_app, filter_app. rewrite stripped_fields by (apply fields_good; exact T). change (filter long_enough (map strip [[]])) with (@nil text).
    rewrite read_fields by (apply fields_good; exact T). rewrite set_section. cbn [bindR read_lines fst snd].
    assert (A : forall dd, map snd (with_ids dd channel_names) = all_ids dd).
    { intro dd. unfold with_ids, all_ids. change the_channels with channel_names. induction channel_names as [|n l IH]; [reflexivity|]. cbn [flat_map]. rewrite map_app, IH. destruct (id_of dd n); reflexivity. }
    rewrite A. match goal with |- Ok (_, _, ?a, _) = Ok (_, _, ?b, _) => replace a with b; [reflexivity|cbn [List.length app]; rewrite ?map_app, ?app_length; cbn [List.length app]; try lia] end.
  - apply Forall_forall. intros l I. apply in_map_iff in I as (kv & <- & I). pose proof (fields_good _ T) as F. rewrite Forall_forall in F. destruct (F _ I) as [K C]. apply line_no_gt; assumption.
  - repeat constructor. intros [].
Qed.

(** A section comes back from a file: among any other blocks, the numbers, the name of the station with its blanks as underscores, and the
    ids of the channels; the ids of the channels are listed, and the data begin at the next block. *)
Theorem C105_round_trip d pre x post : tidy d -> Forall (fun l => ~ opens_section l) pre -> opens_block x ->
  exists d', read_data new_dsect 0 DZ (pre ++ write_data DZ d ++ x :: post) = Ok (d', all_ids d', List.length pre + List.length (write_data DZ d), DZ) /\ after_file d d' /\
    nth_error (pre ++ write_data DZ d ++ x :: post) (List.length pre + List.length (write_data DZ d)) = Some x.
Proof.
  intros T P X. destruct (read_section new_dsect 0 DZ d pre x post T P X) as (d' & R & E). exists d'. split; [exact R|]. split.
  - subst d'. repeat split. intros k K. unfold id_of at 1. cbn [d_ids]. rewrite fold_ids by apply written_nodup. rewrite written_get by exact K.
    unfold id_after. destruct (id_of d k) as [v|]; [|reflexivity]. destruct (text_dec v (txt "0")); reflexivity.
  - rewrite app_assoc, nth_error_app2 by (rewrite app_length; lia). rewrite app_length, Nat.sub_diag. reflexivity.
Qed.

Lemma clean_under s : clean s -> clean (blanks_to_underscores s).
Proof.
  intros [A B]. split.
  - apply strip_trimmed. apply trimmed_of_strip in A. destruct A as [A1 A2]. unfold blanks_to_underscores. split; intros c r E.
    + destruct s as [|y s]; [discriminate|]. cbn [map] in E. injection E as E _. specialize (A1 y s eq_refl). destruct (Ascii.eqb y " "); subst c; [reflexivity|exact A1].
    + destruct (rev s) as [|y w] eqn:W.
      * apply (f_equal (@rev _)) in W. rewrite rev_involutive in W. cbn in W. subst s. destruct r; discriminate.
      * apply (f_equal (@rev _)) in W. rewrite rev_involutive in W. cbn in W. subst s. rewrite map_app in E. apply app_inj_tail in E as [_ E].
        specialize (A2 y (rev w) eq_refl). destruct (Ascii.eqb y " "); subst c; [reflexivity|exact A2].
  - intros c I. apply in_map_iff in I as (y & E & I). destruct (Ascii.eqb y " "); subst c; [repeat split; discriminate|exact (B _ I)].
Qed.
Lemma under_twice s : blanks_to_underscores (blanks_to_underscores s) = blanks_to_underscores s.
Proof.
  unfold blanks_to_underscores. rewrite map_map. apply map_ext. intro c. destruct (Ascii.eqb c " ") eqn:E; [reflexivity|]. rewrite E. reflexivity.
Qed.
Lemma tidy_after d d' : tidy d -> after_file d d' -> tidy d'.
Proof.
  intros [T1 T2] (_ & _ & _ & S & I). split; [rewrite S; apply clean_under, T1|]. intros k s K E. rewrite I in E by exact K.
  destruct (id_of d k) as [v|] eqn:V; [|discriminate]. cbn [id_after] in E. destruct (text_dec v (txt "0")); [discriminate|]. injection E as <-.
  destruct (read_int v); [apply clean_int|exact (T2 _ _ K V)].
Qed.
(** What came from a file goes through further files unchanged, when no id is a zero. *)
Theorem C105_again d d' pre x post : tidy d -> (forall k s, In k the_channels -> id_of d k = Some s -> read_int s <> Some 0%Z) -> after_file d d' ->
  Forall (fun l => ~ opens_section l) pre -> opens_block x ->
  exists d'', read_data new_dsect 0 DZ (pre ++ write_data DZ d' ++ x :: post) = Ok (d'', all_ids d', List.length pre + List.length (write_data DZ d'), DZ) /\ same_section d' d''.
Proof.
  intros T Z A P X. destruct (C105_round_trip d' pre x post (tidy_after _ _ T A) P X) as (d'' & R & B & _).
  assert (S : same_section d' d'').
  { destruct A as (A1 & A2 & A3 & A4 & A5). destruct B as (B1 & B2 & B3 & B4 & B5). repeat split; try congruence.
    - rewrite B4, A4. apply under_twice.
    - intros k K. rewrite B5, A5 by exact K. destruct (id_of d k) as [v|] eqn:V; [|reflexivity]. cbn [id_after].
      specialize (Z _ _ K V). destruct (text_dec v (txt "0")) as [-> |N]; [elim Z; reflexivity|]. destruct (read_int v) as [z|] eqn:E.
      + assert (Y : show_int z <> txt "0"). { intro Y. apply Z. pose proof (read_int_show z) as W. rewrite Y in W. rewrite <- W. reflexivity. }
        cbn [id_after]. destruct (text_dec (show_int z) (txt "0")); [congruence|]. rewrite read_int_show. reflexivity.
      + cbn [id_after]. destruct (text_dec v (txt "0")); [congruence|]. rewrite E. reflexivity. }
  exists d''. split; [|exact S]. rewrite R. do 4 f_equal. unfold all_ids. destruct S as (_ & _ & _ & _ & S).
  change the_channels with channel_names in *. revert S. generalize channel_names as l. induction l as [|n l IH]; intro S; [reflexivity|]. cbn [flat_map]. rewrite (S n) by (left; reflexivity). rewrite IH; [reflexivity|].
  intros k K. apply S. right. exact K.
Qed.

(** ** The lines of the channels *)
Definition channel_lines (d : dsect) : list (text * text) := written_ids d.
Lemma insert_sorted z l : Sorted (fun a b : text * text => text_leb (snd a) (snd b) = true) l -> Sorted (fun a b : text * text => text_leb (snd a) (snd b) = true) (insert_id z l).
Proof.
  induction l as [|y l IH]; intro S; [repeat constructor|]. cbn [insert_id]. destruct (text_leb (snd z) (snd y)) eqn:E.
  - constructor; [exact S|]. constructor. exact E.
  - apply Sorted_inv in S as [S1 S2]. constructor; [exact (IH S1)|]. apply text_leb_total in E.
    destruct l as [|w l]; cbn [insert_id]; [constructor; exact E|]. destruct (text_leb (snd z) (snd w)); constructor; [exact E|]. inversion S2; assumption.
Qed.
Lemma sort_sorted' l : Sorted (fun a b : text * text => text_leb (snd a) (snd b) = true) (sort_ids l).
Proof. induction l as [|x l IH]; [constructor|]. unfold sort_ids in *. cbn [fold_right]. apply insert_sorted, IH. Qed.
Lemma filter_sorted (p : text * text -> bool) l : StronglySorted (fun a b : text * text => text_leb (snd a) (snd b) = true) l -> StronglySorted (fun a b : text * text => text_leb (snd a) (snd b) = true) (filter p l).
Proof.
  induction 1 as [|x l S IH F]; [constructor|]. cbn [filter]. destruct (p x); [|exact IH]. constructor; [exact IH|].
  apply Forall_forall. intros y I. apply filter_In in I as [I _]. rewrite Forall_forall in F. exact (F _ I).
Qed.
(** After the four fields come the channels with an id other than "0", each once: those of the station, sorted by the text of the id, and then
    the remote ones, sorted likewise. *)
Theorem C105_lines d : exists main remote,
  write_data DZ d = [[]; txt ">=MTSECT"; txt "    NFREQ=" ++ show_int (d_nfreq d); txt "    SECTID=" ++ d_sectid d; txt "    NCHAN=" ++ show_int (d_nchan d); txt "    MAXBLOCKS=" ++ show_int (d_maxblocks d)] ++
    map (fun kv => txt "    " ++ upper (fst kv) ++ txt "=" ++ snd kv) (main ++ remote) ++ [[]] /\
  NoDup (map fst (main ++ remote)) /\
  (forall k v, In (k, v) main <-> In k local_channels /\ id_of d k = Some v /\ v <> txt "0") /\
  (forall k v, In (k, v) remote <-> In k remote_channels /\ id_of d k = Some v /\ v <> txt "0") /\
  StronglySorted (fun a b => text_leb (snd a) (snd b) = true) main /\ StronglySorted (fun a b => text_leb (snd a) (snd b) = true) remote.
Proof.
  set (p := fun kv : text * text => negb (text_eqb (snd kv) (txt "0"))).
  exists (filter p (sort_ids (with_ids d main_names))), (filter p (sort_ids (with_ids d remote_names))).
  assert (I : forall names k v, In (k, v) (filter p (sort_ids (with_ids d names))) <-> In k names /\ id_of d k = Some v /\ v <> txt "0").
  { intros names k v. rewrite filter_In. unfold p. cbn [snd]. rewrite negb_true_iff.
    assert (A : In (k, v) (sort_ids (with_ids d names)) <-> In (k, v) (with_ids d names)) by (split; apply Permutation_in; [|symmetry]; apply sort_perm').
    rewrite A, with_ids_in. unfold text_eqb. destruct (text_dec v (txt "0")); intuition congruence. }
  assert (S : forall l, StronglySorted (fun a b : text * text => text_leb (snd a) (snd b) = true) (filter p (sort_ids l))).
  { intro l. apply filter_sorted, Sorted_StronglySorted; [|apply sort_sorted']. intros a b c. apply text_leb_trans. }
  split; [|split; [|split; [apply I|split; [apply I|split; apply S]]]].
  - rewrite write_shape. rewrite map_app. unfold written_ids. rewrite filter_app. reflexivity.
  - rewrite <- filter_app. apply written_nodup.
Qed.

(** ** Lists of ids *)
Lemma word_all w : id_word w -> forallb (fun c => negb (is_space c)) w = true.
Proof. intros [_ F]. apply forallb_forall. intros c I. rewrite Forall_forall in F. destruct (F _ I) as [-> _]. reflexivity. Qed.
Lemma split_join_ws ws : Forall id_word ws -> split_ws (join (txt " ") ws) = ws.
Proof.
  induction 1 as [|w ws W F IH]; [reflexivity|]. destruct ws as [|w2 ws].
  - cbn [join]. rewrite <- (app_nil_r w) at 1. rewrite split_ws_cons; [reflexivity|apply W|apply word_all, W|left; reflexivity].
  - change (join (txt " ") (w :: w2 :: ws)) with (w ++ txt " " ++ join (txt " ") (w2 :: ws)).
    rewrite split_ws_cons; [|apply W|apply word_all, W|right; exists " "%char; eexists; split; reflexivity].
    rewrite split_ws_lead by reflexivity. rewrite IH. reflexivity.
Qed.
Lemma join_chars ws c : Forall id_word ws -> In c (join (txt " ") ws) -> c = " "%char \/ (c <> ">"%char /\ c <> "="%char /\ c <> "/"%char).
Proof.
  induction 1 as [|w ws W F IH]; [intros []|]. destruct W as [_ W]. rewrite Forall_forall in W. destruct ws as [|w2 ws].
  - cbn [join]. intro I. right. apply (W _ I).
  - change (join (txt " ") (w :: w2 :: ws)) with (w ++ txt " " ++ join (txt " ") (w2 :: ws)). rewrite !in_app_iff. intros [I|[I|I]].
    + right. apply (W _ I).
    + destruct I as [<- |[]]. left; reflexivity.
    + exact (IH I).
Qed.
Lemma join_strip ws : Forall id_word ws -> strip (join (txt " ") ws) = join (txt " ") ws.
Proof.
  intro F. apply strip_trimmed. split.
  - intros c r E. destruct F as [|w ws [W0 W] F]; [discriminate|]. destruct w as [|y w]; [congruence|]. inversion W as [|? ? [Y _] _]. subst.
    destruct ws; cbn [join app] in E; injection E as <- _; exact Y.
  - revert F. induction ws as [|w ws IH]; intros F c r E; [destruct r; discriminate|]. inversion F as [|? ? [W0 W] F']. subst. destruct ws as [|w2 ws].
    + cbn [join] in E. subst w. apply Forall_app in W as [_ W]. inversion W as [|? ? [Y _] _]. exact Y.
    + change (join (txt " ") (w :: w2 :: ws)) with (w ++ txt " " ++ join (txt " ") (w2 :: ws)) in E.
      destruct (rev (join (txt " ") (w2 :: ws))) as [|y q] eqn:Q.
      * apply (f_equal (@rev _)) in Q. rewrite rev_involutive in Q. cbn [rev] in Q. inversion F' as [|? ? [V0 _] _]. subst. destruct w2; [congruence|]. destruct ws; discriminate.
      * apply (f_equal (@rev _)) in Q. rewrite rev_involutive in Q. cbn [rev] in Q. rewrite Q in E. rewrite !app_assoc in E. apply app_inj_tail in E as [_ <-].
        exact (IH F' _ _ Q).
Qed.
Lemma read_list wss ls : Forall2 id_line wss ls -> forall d cids, read_lines d true cids ls = Ok (d, (cids ++ concat wss)%list).
Proof.
  induction 1 as [|ws l wss ls (F & -> & L) R IH]; intros d cids; cbn [read_lines concat]; [rewrite app_nil_r; reflexivity|].
  assert (E : ~ In "="%char (join (txt " ") ws)) by (intro I; apply join_chars in I as [I|I]; [discriminate|tauto|exact F]).
  assert (S : ~ In "/"%char (join (txt " ") ws)) by (intro I; apply join_chars in I as [I|I]; [discriminate|tauto|exact F]).
  rewrite split_on_no by exact E. rewrite (no_char_contains "/"%char) by (try exact S; left; reflexivity).
  apply Nat.ltb_lt in L. rewrite L. rewrite join_strip by exact F. rewrite split_join_ws by exact F. rewrite IH. rewrite <- app_assoc. reflexivity.
Qed.
Lemma filter_list wss ls : Forall2 id_line wss ls -> filter long_enough (map strip ls) = ls /\ Forall (fun l => ~ In ">"%char l) ls.
Proof.
  induction 1 as [|ws l wss ls (F & -> & L) R [IH1 IH2]]; [repeat constructor|]. cbn [map filter]. rewrite join_strip by exact F.
  replace (long_enough (join (txt " ") ws)) with true by (symmetry; apply Nat.ltb_lt; lia). rewrite IH1. split; [reflexivity|]. constructor; [|exact IH2].
  intro I. apply join_chars in I as [I|I]; [discriminate|tauto|exact F].
Qed.
(** A section that lists its ids on lines of more than ten characters, after a line with "//": these are its ids, in their order. *)
Theorem C105_list fields c0 note wss ls pre x post :
  Forall (fun kv => In (fst kv) the_channels /\ clean (snd kv)) fields -> Forall2 id_line wss ls -> concat wss <> [] -> is_space c0 = false -> ~ In ">"%char (c0 :: note) -> ~ In "="%char (c0 :: note) ->
  Forall (fun l => ~ opens_section l) pre -> opens_block x ->
  exists d', read_data new_dsect 0 DZ (pre ++ [txt ">=MTSECT"] ++ map (fun kv => txt "    " ++ upper (fst kv) ++ txt "=" ++ snd kv) fields ++ [txt "//" ++ c0 :: note] ++ ls ++ x :: post) =
    Ok (d', concat wss, List.length pre + 1 + List.length fields + 1 + List.length ls, DZ).
Proof.
  intros F L N Hc0 G Q P X. unfold read_data. rewrite gd_pre by exact P. cbn [app]. cbn [get_data].
  change (is_head (txt ">=MTSECT")) with true. cbv iota.
  change (contains (txt "spect") (lower (txt ">=MTSECT"))) with false. change (contains (txt "mt") (lower (txt ">=MTSECT"))) with true. cbv iota.
  match goal with |- context [get_data _ _ _ _ ?B] =>
    replace B with ((map (fun kv : text * text => field_line (fst kv) (snd kv)) fields ++ (txt "//" ++ c0 :: note) :: ls) ++ x :: post) by (rewrite <- app_assoc; reflexivity) end.
  assert (F' : Forall (fun kv => In (fst kv) names_all /\ clean (snd kv)) fields).
  { eapply Forall_impl; [|exact F]. intros kv [A B]. split; [apply in_or_app; right; exact A|exact B]. }
  destruct (filter_list _ _ L) as [L1 L2].
  rewrite gd_body; [|apply Forall_app; split; [|constructor; [|exact L2]]|exact X].
  - rewrite map_app, filter_app. rewrite stripped_fields by exact F'. cbn [map filter]. rewrite L1.
    assert (S1 : exists w, strip (txt "//" ++ c0 :: note) = txt "//" ++ c0 :: w /\ ~ In "="%char (c0 :: w)).
    { exists (rstrip note). split.
      - unfold strip. rewrite lstrip_fixed by (intros c r E; injection E as <- _; reflexivity).
        destruct (lstrip_decomp (rev note)) as (sp & D & Hs). unfold rstrip at 1 2.
        replace (txt "//" ++ c0 :: note) with ((txt "//" ++ [c0]) ++ note) by (rewrite <- app_assoc; reflexivity). rewrite rev_app_distr. rewrite D at 1. rewrite <- app_assoc. rewrite lstrip_spaces by exact Hs.
        destruct (lstrip (rev note)) as [|c r] eqn:E.
        + cbn [app]. rewrite lstrip_fixed; [rewrite rev_involutive; reflexivity|]. rewrite rev_app_distr. intros c r E'. injection E' as <- _. exact Hc0.
        + pose proof (lstrip_head _ _ _ E) as Hc. cbn [app]. rewrite lstrip_fixed by (intros c' r' E'; injection E' as <- _; exact Hc).
          change (c :: r ++ rev (txt "//" ++ [c0])) with ((c :: r) ++ rev (txt "//" ++ [c0])). rewrite rev_app_distr, rev_involutive. rewrite <- app_assoc. reflexivity.
      - intros [I|I]; [apply Q; left; exact I|]. apply Q. right. unfold rstrip in I. apply in_rev in I. destruct (lstrip_decomp (rev note)) as (sp & D & _). apply in_rev. rewrite D. apply in_or_app. right. exact I. }
    destruct S1 as (w & -> & Hw). replace (long_enough (txt "//" ++ c0 :: w)) with true by reflexivity.
    rewrite read_fields by exact F'. destruct new_dsect as [f s n m ids]. rewrite set_channels by (eapply Forall_impl; [|exact F]; intros kv [A _]; exact A).
    cbn [bindR]. cbn [read_lines].
    rewrite split_on_no. 2: { intro I. cbn in I. repeat (destruct I as [I|I]; [discriminate|]). exact (Hw I). }
    change (contains (txt "//") (txt "//" ++ c0 :: w)) with true. cbv iota. rewrite (read_list _ _ L). cbn [bindR fst snd app].
    eexists. destruct (concat wss) as [|c cs]; [congruence|].
    match goal with |- Ok (_, _, ?a, _) = Ok (_, _, ?b, _) => replace a with b; [reflexivity|rewrite app_length, map_length; cbn [List.length]; lia] end.
  - apply Forall_forall. intros l I. apply in_map_iff in I as (kv & <- & I). rewrite Forall_forall in F'. destruct (F' _ I) as [K C]. apply line_no_gt; assumption.
  - intro I. cbn in I. repeat (destruct I as [I|I]; [discriminate|]). exact (G I).
Qed.

(** ** Matching *)
Definition says_number (cid : text) (q : Q) : bool := match read_float (bare_id cid) with Some (Fin x) => Qeq_bool x q | _ => false end.
Lemma says_iff cid q : says_number cid q = true <-> names_number cid q.
Proof.
  unfold says_number, names_number. destruct (read_float (bare_id cid)) as [[x|]|].
  - rewrite Qeq_bool_iff. split; [intro H; exists x; tauto|intros (y & E & H); injection E as <-; exact H].
  - split; [discriminate|]. intros (y & E & _). discriminate.
  - split; [discriminate|]. intros (y & E & _). discriminate.
Qed.
Definition others_same (d d' : dsect) : Prop := d_nfreq d' = d_nfreq d /\ d_nchan d' = d_nchan d /\ d_maxblocks d' = d_maxblocks d /\ d_sectid d' = d_sectid d.
Lemma match_one_eq cid d kv : match_one cid d kv = if says_number cid (snd kv) then set_id d (lower (fst kv)) (show_float (snd kv)) else d.
Proof. unfold match_one, says_number. destruct (read_float (bare_id cid)) as [[x|]|]; reflexivity. Qed.
Lemma set_id_same d k v : others_same d (set_id d k v).
Proof. unfold set_id, others_same. destruct (existsb (text_eqb k) channel_names); tauto. Qed.
Lemma others_trans a b c : others_same a b -> others_same b c -> others_same a c.
Proof. unfold others_same. intuition congruence. Qed.
Lemma id_set d k v j : In j channel_names -> id_of (set_id d k v) j = if text_dec j k then Some v else id_of d j.
Proof.
  intro J. unfold set_id. destruct (text_dec j k) as [<- |N].
  - destruct (channel_not _ J) as (_ & _ & _ & _ & ->). unfold id_of. cbn [d_ids]. apply dget_dset_eq.
  - destruct (existsb (text_eqb k) channel_names); [|reflexivity]. unfold id_of. cbn [d_ids]. apply dget_dset_neq. congruence.
Qed.
Lemma match_inner cid chs : NoDup (map (fun kv : text * Q => lower (fst kv)) chs) -> forall d, others_same d (fold_left (match_one cid) chs d) /\
  forall k, In k channel_names ->
  (forall K v, In (K, v) chs -> lower K = k -> says_number cid v = true -> id_of (fold_left (match_one cid) chs d) k = Some (show_float v)) /\
  ((forall K v, In (K, v) chs -> lower K = k -> says_number cid v = false) -> id_of (fold_left (match_one cid) chs d) k = id_of d k).
Proof.
  induction chs as [|[K0 v0] chs IH]; intros N d; cbn [map fst] in N.
  - split; [unfold others_same; tauto|]. intros k _. split; [intros K v []|reflexivity].
  - apply NoDup_cons_iff in N as [N1 N2]. cbn [fold_left]. rewrite match_one_eq. cbn [fst snd].
    set (d1 := if says_number cid v0 then set_id d (lower K0) (show_float v0) else d).
    destruct (IH N2 d1) as [I1 I2]. split.
    + apply (others_trans _ d1); [|exact I1]. subst d1. destruct (says_number cid v0); [apply set_id_same|unfold others_same; tauto].
    + intros k Hk. destruct (I2 k Hk) as [J1 J2]. split.
      * intros K v [E|I] L S.
        -- injection E as <- <-. rewrite J2.
           ++ subst d1. rewrite S. rewrite id_set by exact Hk. destruct (text_dec k (lower K0)); [reflexivity|congruence].
           ++ intros K v I' L'. elim N1. apply in_map_iff. exists (K, v). cbn [fst]. split; [congruence|exact I'].
        -- exact (J1 K v I L S).
      * intros Hn. rewrite J2 by (intros K v I L; apply (Hn K v); [right; exact I|exact L]).
        subst d1. destruct (says_number cid v0) eqn:S; [|reflexivity]. rewrite id_set by exact Hk. destruct (text_dec k (lower K0)) as [E|]; [|reflexivity].
        rewrite (Hn K0 v0) in S; [discriminate|left; reflexivity|congruence].
Qed.
(** The ids of the section matched with the numbers of the measurements: a channel one of whose measurements' number is named by an id gets
    that number, any other channel keeps its id, and nothing else changes. *)
Theorem C105_match d cids chs : NoDup (map (fun kv : text * Q => lower (fst kv)) chs) ->
  (d_nfreq (match_channels d cids chs) = d_nfreq d /\ d_nchan (match_channels d cids chs) = d_nchan d /\ d_maxblocks (match_channels d cids chs) = d_maxblocks d /\ d_sectid (match_channels d cids chs) = d_sectid d) /\
  forall k, In k the_channels ->
  (forall K v cid, In (K, v) chs -> lower K = k -> In cid cids -> names_number cid v -> id_of (match_channels d cids chs) k = Some (show_float v)) /\
  ((forall K v cid, In (K, v) chs -> lower K = k -> In cid cids -> ~ names_number cid v) -> id_of (match_channels d cids chs) k = id_of d k).
Proof.
  intro N. change (others_same d (match_channels d cids chs) /\ forall k, In k channel_names ->
  (forall K v cid, In (K, v) chs -> lower K = k -> In cid cids -> names_number cid v -> id_of (match_channels d cids chs) k = Some (show_float v)) /\
  ((forall K v cid, In (K, v) chs -> lower K = k -> In cid cids -> ~ names_number cid v) -> id_of (match_channels d cids chs) k = id_of d k)).
  assert (U : forall K v K' v', In (K, v) chs -> In (K', v') chs -> lower K = lower K' -> v = v').
  { clear -N. induction chs as [|[a b] chs IH]; intros K v K' v' I J E; [destruct I|]. cbn [map fst] in N. apply NoDup_cons_iff in N as [N1 N2].
    destruct I as [I|I]; destruct J as [J|J].
    - congruence.
    - injection I as <- <-. elim N1. apply in_map_iff. exists (K', v'). cbn [fst]. split; [congruence|exact J].
    - injection J as <- <-. elim N1. apply in_map_iff. exists (K, v). cbn [fst]. split; [congruence|exact I].
    - exact (IH N2 _ _ _ _ I J E). }
  unfold match_channels. revert d. induction cids as [|c cids IH]; intro d; cbn [fold_left].
  - split; [unfold others_same; tauto|]. intros k _. split; [intros K v cid _ _ []|reflexivity].
  - destruct (match_inner c chs N d) as [A1 A2]. set (d1 := fold_left (match_one c) chs d) in *. destruct (IH d1) as [B1 B2]. split; [exact (others_trans _ _ _ A1 B1)|].
    intros k Hk. destruct (A2 k Hk) as [A3 A4]. destruct (B2 k Hk) as [B3 B4]. split.
    + intros K v cid I L [<- |J] S; [|exact (B3 K v cid I L J S)].
      assert (D : (exists cid, In cid cids /\ says_number cid v = true) \/ forall cid, In cid cids -> says_number cid v = false).
      { clear. induction cids as [|x l IH]; [right; intros y []|]. destruct (says_number x v) eqn:E; [left; exists x; split; [left; reflexivity|exact E]|].
        destruct IH as [(y & I & F)|F]; [left; exists y; split; [right; exact I|exact F]|right; intros y [<- |I]; [exact E|exact (F _ I)]]. }
      destruct D as [(c2 & J & E)|D].
      * apply (B3 K v c2 I L J). apply says_iff. exact E.
      * rewrite B4; [apply (A3 K v I L); apply says_iff; exact S|]. intros K' v' c2 I' L' J' S'. apply says_iff in S'.
        rewrite (U K' v' K v I' I) in S' by congruence. rewrite D in S' by exact J'. discriminate.
    + intros Hn. rewrite B4 by (intros K v cid I L J; apply (Hn K v cid I L); right; exact J). apply A4. intros K v I L.
      destruct (says_number c v) eqn:E; [|reflexivity]. apply says_iff in E. elim (Hn K v c I L); [left; reflexivity|exact E].
Qed.

(** ** What is not so *)
(** A section written for spectra is not found again, whatever it holds. *)
Theorem C105_spectra_refuted d pre post : tidy d -> Forall (fun l => ~ opens_section l) pre -> Forall (fun l => ~ opens_section l) post ->
  read_data new_dsect 0 DZ (pre ++ write_data DSpectra d ++ post) = Ok (new_dsect, [], 0, DZ).
Proof.
  intros T P Q. unfold read_data. rewrite gd_none; [reflexivity|]. apply Forall_app. split; [exact P|]. apply Forall_app. split; [|exact Q].
  rewrite write_shape. constructor; [|constructor].
  - intros [H _]. discriminate.
  - intros [H _]. discriminate.
  - apply Forall_app. split; [|constructor; [intros [H _]; discriminate|constructor]].
    apply Forall_forall. intros l I [H _]. apply in_map_iff in I as (kv & <- & I). pose proof (fields_good _ T) as F. rewrite Forall_forall in F. destruct (F _ I) as [K C].
    rewrite (no_char_contains ">"%char) in H; [discriminate|left; reflexivity|apply line_no_gt; assumption].
Qed.
Definition ids_of (l : list (string * string)) : list (text * text) := map (fun kv => (txt (fst kv), txt (snd kv))) l.
Definition the_section : dsect := mkD 16 (txt "site 1") 7 999 (ids_of [("hx", "1.001"); ("hy", "1.002"); ("ex", "14"); ("ey", "9"); ("rrhx", "site b")]%string).
Definition block : list text := [txt ">FREQ //1"; txt " 1.0"].
(** The channels are not written in the order of their numbers: 14 comes before 9. *)
Theorem C105_order_refuted : exists d k k' (m n : Z) a b c, tidy d /\ id_of d k = Some (show_int m) /\ id_of d k' = Some (show_int n) /\ (m < n)%Z /\
  write_data DZ d = a ++ [field_line k' (show_int n)] ++ b ++ [field_line k (show_int m)] ++ c.
Proof.
  exists (mkD 1 [] 0 999 (ids_of [("ex", "14"); ("ey", "9")]%string)), (txt "ey"), (txt "ex"), 9%Z, 14%Z. do 3 eexists.
  split; [|split; [reflexivity|split; [reflexivity|split; [reflexivity|]]]].
  - split; [split; [reflexivity|intros c []]|]. intros k s _ E. unfold id_of in E. cbn in E.
    assert (S : s = txt "14" \/ s = txt "9") by (destruct (text_dec k ["e"; "x"]%char); [injection E as <-; left; reflexivity|]; destruct (text_dec k ["e"; "y"]%char); [injection E as <-; right; reflexivity|discriminate]).
    destruct S as [-> | ->]; [exact (clean_int 14)|exact (clean_int 9)].
  - change (write_data DZ (mkD 1 [] 0 999 (ids_of [("ex", "14"); ("ey", "9")]%string))) with
      ([[]; txt ">=MTSECT"; txt "    NFREQ=1"; txt "    SECTID="; txt "    NCHAN=0"; txt "    MAXBLOCKS=999"] ++ [field_line (txt "ex") (show_int 14)] ++ [] ++ [field_line (txt "ey") (show_int 9)] ++ [[]]). reflexivity.
Qed.
(** An id "0" is lost, leading zeros are lost, and what a second file loses the first one made. *)
Theorem C105_zero_refuted : exists d d' d'', tidy d /\ id_of d (txt "ex") = Some (txt "00") /\
  read_data new_dsect 0 DZ (write_data DZ d ++ block) = Ok (d', [txt "0"], 8, DZ) /\ id_of d' (txt "ex") = Some (txt "0") /\
  read_data new_dsect 0 DZ (write_data DZ d' ++ block) = Ok (d'', [], 7, DZ) /\ id_of d'' (txt "ex") = None.
Proof.
  exists (mkD 1 [] 0 999 (ids_of [("ex", "00")]%string)). do 2 eexists. split.
  - split; [split; [reflexivity|intros c []]|]. intros k s _ E. unfold id_of in E. cbn in E.
    destruct (text_dec k ["e"; "x"]%char); [|discriminate]. injection E as <-. split; [reflexivity|]. intros c [<- |[<- |[]]]; repeat split; discriminate.
  - split; [reflexivity|]. split; [vm_compute; reflexivity|]. split; [reflexivity|]. split; vm_compute; reflexivity.
Qed.
(** A section read into an object that was read into before keeps the ids of channels that the new section does not have. *)
Theorem C105_stale_refuted : exists d0 d d' cids n, id_of d (txt "ey") = None /\
  read_data d0 0 DZ (write_data DZ d ++ block) = Ok (d', cids, n, DZ) /\ id_of d' (txt "ey") = Some (txt "5") /\ In (txt "5") cids.
Proof.
  exists (mkD 1 [] 0 999 (ids_of [("ey", "5")]%string)), (mkD 1 [] 0 999 (ids_of [("ex", "4")]%string)). do 3 eexists.
  split; [reflexivity|]. split; [vm_compute; reflexivity|]. split; [reflexivity|]. right; left; reflexivity.
Qed.
(** Ids listed on a short line are taken for one id, and one of two characters is lost. *)
Theorem C105_short_list_refuted : exists d,
  read_data new_dsect 0 DZ ([txt ">=MTSECT"; txt "//3"; txt "1.01 1.02"; txt "11"] ++ block) = Ok (d, [txt "1.01 1.02"], 4, DZ).
Proof. eexists. vm_compute. reflexivity. Qed.

(** ** The hypotheses are met *)
Lemma section_tidy : tidy the_section.
Proof.
  split; [split; [reflexivity|]|].
  - intros c I. cbn in I. repeat (destruct I as [<- |I]; [repeat split; discriminate|]). destruct I.
  - intros k s K E. repeat (destruct K as [<- |K]; [vm_compute in E; first [discriminate E | injection E as <-; split; [reflexivity|]; intros c I; cbn in I; repeat (destruct I as [<- |I]; [repeat split; discriminate|]); destruct I]|]). destruct K.
Qed.
Lemma block_opens : opens_block (txt ">FREQ //1").
Proof. split; [left; reflexivity|]. intros [H _]. discriminate. Qed.
Example C105_hyp : tidy the_section /\ Forall (fun l => ~ opens_section l) [txt ">HEAD"; txt "  DATAID=""x"""; txt ">=DEFINEMEAS"] /\ opens_block (txt ">FREQ //1") /\
  (forall k s, In k the_channels -> id_of the_section k = Some s -> read_int s <> Some 0%Z) /\
  exists d', read_data new_dsect 0 DZ ([txt ">HEAD"; txt "  DATAID=""x"""; txt ">=DEFINEMEAS"] ++ write_data DZ the_section ++ block) =
    Ok (d', [txt "14"; txt "9"; txt "1.001"; txt "1.002"; txt "site b"], 15, DZ) /\ d_sectid d' = txt "site_1" /\ d_nfreq d' = 16%Z /\ id_of d' (txt "ex") = Some (txt "14").
Proof.
  split; [exact section_tidy|]. split; [repeat constructor; intros [H K]; discriminate|]. split; [exact block_opens|]. split.
  - intros k s K E. repeat (destruct K as [<- |K]; [vm_compute in E; first [discriminate E | injection E as <-; vm_compute; discriminate]|]). destruct K.
  - eexists. split; [vm_compute; reflexivity|]. repeat split; reflexivity.
Qed.
Example C105_match_hyp : let chs := [(txt "HX", 1001 # 1000); (txt "EX", 14 # 1); (txt "HZ", 3 # 1)]%Q in
  NoDup (map (fun kv : text * Q => lower (fst kv)) chs) /\ names_number (txt "CH14") (14 # 1) /\
  match_channels the_section [txt "CH14"; txt "1.001"; txt "site b"] chs = mkD 16 (txt "site 1") 7 999 (ids_of [("hx", "1.001"); ("hy", "1.002"); ("ex", "14.0"); ("ey", "9"); ("rrhx", "site b")]%string).
Proof.
  cbv zeta. split; [repeat constructor; cbn; intro H; repeat (destruct H as [H|H]; [discriminate|]); destruct H|]. split; [apply says_iff; vm_compute; reflexivity|]. vm_compute. reflexivity.
Qed.
Example C105_list_hyp : Forall2 id_line [[txt "1001.001"; txt "1002.001"]; [txt "1003.00000001"]] [txt "1001.001 1002.001"; txt "1003.00000001"] /\
  exists d, read_data new_dsect 0 DZ ([txt ">=MTSECT"; txt "    EX=4"; txt "//#3"; txt "1001.001 1002.001"; txt "1003.00000001"] ++ block) = Ok (d, [txt "1001.001"; txt "1002.001"; txt "1003.00000001"], 5, DZ).
Proof.
  split; [|eexists; vm_compute; reflexivity]. repeat constructor; try discriminate; cbn; lia.
Qed.
Print Assumptions C105_round_trip.
Print Assumptions C105_again.
Print Assumptions C105_match.
Print Assumptions C105_list.
