From Coq Require Import Permutation.
From Verif Require Import PyBase PyText PyNum PyFloat PyRepr PyFacts TextFacts JfileModel JfileData ZmmModel ZmmProofs DsecModel DsecSpec ValidatorsProofs EdiMeasFile EdiProofs.
Local Open Scope nat_scope.

(** ** The lines *)
Lemma is_head_iff l : is_head l = true <-> opens_section l.
Proof. unfold is_head, opens_section. rewrite andb_true_iff. tauto. Qed.
Lemma not_head l : ~ opens_section l -> is_head l = false.
Proof. intro H. destruct (is_head l) eqn:E; [|reflexivity]. apply is_head_iff in E. tauto. Qed.
Lemma no_gt_head l : ~ In ">"%char l -> is_head l = false /\ contains (txt ">") l = false.
Proof.
  intro H. assert (A : contains (txt ">=") l = false) by (apply (no_char_contains ">"); [left; reflexivity|exact H]).
  assert (B : contains (txt ">") l = false) by (apply (no_char_contains ">"); [left; reflexivity|exact H]).
  unfold is_head. rewrite A. split; [reflexivity|exact B].
Qed.
Lemma gt_contains l : In ">"%char l -> contains (txt ">") l = true.
Proof. intro H. apply in_split in H as (a & b & ->). apply contains_spec. exists a, b. reflexivity. Qed.

Lemma gd_pre pre : Forall (fun l => ~ opens_section l) pre -> forall i num ty rest,
  get_data false i num ty (pre ++ rest) = get_data false (i + List.length pre) num ty rest.
Proof.
  induction 1 as [|l pre H F IH]; intros i num ty rest; cbn [app List.length].
  - rewrite Nat.add_0_r. reflexivity.
  - cbn [get_data]. rewrite (not_head _ H). rewrite andb_false_r. rewrite IH.
    replace (S i + List.length pre) with (i + S (List.length pre)) by lia.
    destruct (get_data false (i + S (List.length pre)) num ty rest) as [[a b] c]. reflexivity.
Qed.
Definition long_enough (l : text) : bool := 2 <? List.length l.
Lemma gd_body L : Forall (fun l => ~ In ">"%char l) L -> forall i num ty x post, opens_block x ->
  get_data true i num ty (L ++ x :: post) = (filter long_enough (map strip L), i + List.length L, ty).
Proof.
  induction 1 as [|l L H F IH]; intros i num ty x post [X N]; cbn [app List.length get_data map filter].
  - rewrite (not_head _ N), (gt_contains _ X). rewrite Nat.add_0_r. reflexivity.
  - destruct (no_gt_head _ H) as [-> ->]. cbn [andb]. rewrite IH by (split; assumption). change (2 <? List.length (strip l)) with (long_enough (strip l)).
    replace (S i + List.length L) with (i + S (List.length L)) by lia. destruct (long_enough (strip l)); reflexivity.
Qed.
Lemma gd_none L : Forall (fun l => ~ opens_section l) L -> forall i num ty, get_data false i num ty L = ([], num, ty).
Proof.
  induction 1 as [|l L H F IH]; intros i num ty; cbn [get_data]; [reflexivity|].
  rewrite (not_head _ H), andb_false_r, IH. reflexivity.
Qed.

(** ** A field *)
Definition names_all : list text := (map txt ["nfreq"; "sectid"; "nchan"; "maxblocks"]%string ++ channel_names)%list.
Definition bare_line (kv : text * text) : text := (upper (fst kv) ++ txt "=" ++ snd kv)%list.
Lemma names_good k : In k names_all -> (k <> [] /\ Forall (fun c => is_space c = false) (upper k) /\ ~ In ">"%char (upper k) /\ ~ In "="%char (upper k) /\ lower (upper k) = k /\ 2 <= List.length (upper k)).
Proof.
  intro H. repeat (destruct H as [<- |H]; [split; [discriminate|]; split; [repeat constructor|]; split; [intros K; repeat (destruct K as [K|K]; [discriminate|]); destruct K|]; split;
    [intros K; repeat (destruct K as [K|K]; [discriminate|]); destruct K|]; split; [reflexivity|cbn; lia]|]). destruct H.
Qed.
Lemma trimmed_of_strip s : strip s = s -> trimmed s.
Proof. intro H. rewrite <- H. apply trimmed_strip. Qed.
Lemma strip_field k v : In k names_all -> strip v = v -> strip (field_line k v) = bare_line (k, v).
Proof.
  intros K V. destruct (names_good _ K) as (Kn & Ks & _). apply trimmed_of_strip in V.
  unfold field_line, bare_line. cbn [fst snd].
  replace (txt "    " ++ upper k ++ txt "=" ++ v) with (txt "    " ++ (upper k ++ txt "=" ++ v) ++ []) by (rewrite app_nil_r; reflexivity).
  rewrite strip_pad; [reflexivity| | |]; try reflexivity.
  destruct V as [V1 V2]. split.
  - intros c r E. destruct (upper k) as [|u ur] eqn:U; [destruct k; [congruence|discriminate]|]. injection E as <- <-. inversion Ks; assumption.
  - intros c r E. destruct (rev v) as [|y w] eqn:W.
    + apply (f_equal (@rev _)) in W. rewrite rev_involutive in W. cbn in W. subst v. rewrite app_nil_r in E. apply app_inj_tail in E as [_ <-]. reflexivity.
    + apply (f_equal (@rev _)) in W. rewrite rev_involutive in W. cbn in W. subst v. rewrite !app_assoc in E. apply app_inj_tail in E as [_ <-]. apply (V2 y (rev w)). reflexivity.
Qed.
Lemma unquote_clean s : clean s -> unquote s = s.
Proof. intros [_ H]. apply replace_char_absent. intro I. destruct (H _ I) as (_ & _ & K). congruence. Qed.
Lemma line_split k v : In k names_all -> clean v -> split_on "=" (bare_line (k, v)) = [upper k; v].
Proof.
  intros K [_ C]. destruct (names_good _ K) as (_ & _ & _ & E & _). unfold bare_line. cbn [fst snd].
  change (upper k ++ txt "=" ++ v) with (upper k ++ "="%char :: v). rewrite split_on_app by exact E. rewrite split_on_no; [reflexivity|].
  intro I. destruct (C _ I) as (_ & X & _). congruence.
Qed.
Lemma line_length k v : In k names_all -> long_enough (bare_line (k, v)) = true.
Proof.
  intro K. destruct (names_good _ K) as (_ & _ & _ & _ & _ & L). unfold long_enough, bare_line. cbn [fst snd]. apply Nat.ltb_lt. rewrite !app_length. cbn. lia.
Qed.
Lemma line_no_gt k v : In k names_all -> clean v -> ~ In ">"%char (field_line k v).
Proof.
  intros K [_ C] I. destruct (names_good _ K) as (_ & _ & G & _). unfold field_line in I. rewrite !in_app_iff in I.
  destruct I as [I|[I|[I|I]]].
  - cbn in I. repeat (destruct I as [I|I]; [discriminate|]). destruct I.
  - tauto.
  - cbn in I. destruct I as [I|I]; [discriminate|destruct I].
  - destruct (C _ I) as (X & _). congruence.
Qed.
Fixpoint set_all (d : dsect) (l : list (text * text)) : result dsect :=
  match l with [] => Ok d | kv :: r => bindR (set_key d (fst kv) (snd kv)) (fun d' => set_all d' r) end.
Lemma read_fields l : Forall (fun kv => In (fst kv) names_all /\ clean (snd kv)) l -> forall d channels cids rest,
  read_lines d channels cids (map bare_line l ++ rest) = bindR (set_all d l) (fun d' => read_lines d' channels cids rest).
Proof.
  induction 1 as [|[k v] l [K C] F IH]; intros d channels cids rest; [reflexivity|]. cbn [fst snd] in K, C.
  cbn [map app read_lines set_all fst snd]. rewrite (line_split _ _ K C).
  destruct (names_good _ K) as (_ & _ & _ & _ & -> & _). destruct C as [C1 C2]. rewrite C1, unquote_clean by (split; assumption).
  destruct (set_key d k v) as [d'|e]; cbn [bindR]; [apply IH|reflexivity].
Qed.
Lemma stripped_fields l : Forall (fun kv => In (fst kv) names_all /\ clean (snd kv)) l ->
  filter long_enough (map strip (map (fun kv => field_line (fst kv) (snd kv)) l)) = map bare_line l.
Proof.
  induction 1 as [|[k v] l [K C] F IH]; [reflexivity|]. cbn [fst snd] in K, C. cbn [map filter fst snd].
  rewrite strip_field by (try exact K; apply C). rewrite line_length by exact K. rewrite IH. reflexivity.
Qed.

(** ** The channels *)
Lemma channel_not k : In k channel_names -> text_eqb k (txt "sectid") = false /\ text_eqb k (txt "nfreq") = false /\ text_eqb k (txt "nchan") = false /\ text_eqb k (txt "maxblocks") = false /\ existsb (text_eqb k) channel_names = true.
Proof. intro H. repeat (destruct H as [<- |H]; [repeat split; reflexivity|]). destruct H. Qed.
Definition plain_id (s : text) : text := match read_int s with Some z => show_int z | None => s end.
Lemma set_channels l : Forall (fun kv => In (fst kv) channel_names) l -> forall f s n m ids,
  set_all (mkD f s n m ids) l = Ok (mkD f s n m (fold_left (fun acc kv => dset text_dec (fst kv) (plain_id (snd kv)) acc) l ids)).
Proof.
  induction 1 as [|[k v] l K F IH]; intros f s n m ids; [reflexivity|]. cbn [fst] in K.
  destruct (channel_not _ K) as (A & B & C & D & E). cbn [set_all fst snd set_key]. rewrite A, B, C, D, E. cbn [bindR]. rewrite IH. reflexivity.
Qed.
Lemma fold_ids l : NoDup (map fst l) -> forall acc k,
  dget text_dec k (fold_left (fun acc kv => dset text_dec (fst kv) (plain_id (snd kv)) acc) l acc) =
  match dget text_dec k l with Some v => Some (plain_id v) | None => dget text_dec k acc end.
Proof.
  induction l as [|[a v] l IH]; intros N acc k; [reflexivity|]. cbn [map fst] in N. apply NoDup_cons_iff in N as [N1 N2].
  cbn [fold_left fst snd]. rewrite IH by exact N2. cbn [dget]. destruct (text_dec k a) as [-> |D].
  - assert (X : dget text_dec a l = None).
    { destruct (dget text_dec a l) eqn:E; [|reflexivity]. apply dget_In in E. elim N1. apply (in_map fst) in E. exact E. }
    rewrite X. apply dget_dset_eq.
  - destruct (dget text_dec k l); [reflexivity|]. apply dget_dset_neq. congruence.
Qed.
Lemma insert_perm x l : Permutation (insert_id x l) (x :: l).
Proof.
  induction l as [|y l IH]; [reflexivity|]. cbn [insert_id]. destruct (text_leb (snd x) (snd y)); [reflexivity|].
  rewrite IH. apply perm_swap.
Qed.
Lemma sort_perm' l : Permutation (sort_ids l) l.
Proof. induction l as [|x l IH]; [reflexivity|]. unfold sort_ids in *. cbn [fold_right]. rewrite insert_perm, IH. reflexivity. Qed.
Lemma with_ids_in d names k v : In (k, v) (with_ids d names) <-> In k names /\ id_of d k = Some v.
Proof.
  unfold with_ids. rewrite in_flat_map. split.
  - intros (n & I & J). destruct (id_of d n) as [w|] eqn:E; [|destruct J]. destruct J as [J|[]]. injection J as <- <-. tauto.
  - intros [I E]. exists k. rewrite E. split; [exact I|left; reflexivity].
Qed.
Lemma with_ids_nodup d names : NoDup names -> NoDup (map fst (with_ids d names)).
Proof.
  induction 1 as [|n names N F IH]; [constructor|]. unfold with_ids. cbn [flat_map]. fold (with_ids d names).
  destruct (id_of d n); [|exact IH]. cbn. constructor; [|exact IH]. intro I. apply in_map_iff in I as ([a b] & E & J). cbn in E. subst a.
  apply with_ids_in in J. tauto.
Qed.
Definition written_ids (d : dsect) : list (text * text) :=
  filter (fun kv => negb (text_eqb (snd kv) (txt "0"))) (sort_ids (with_ids d main_names) ++ sort_ids (with_ids d remote_names))%list.
Lemma written_perm d : Permutation (sort_ids (with_ids d main_names) ++ sort_ids (with_ids d remote_names)) (with_ids d channel_names).
Proof.
  rewrite !sort_perm'. unfold with_ids, channel_names. rewrite flat_map_app. reflexivity.
Qed.
Lemma channel_nodup : NoDup channel_names.
Proof. repeat constructor; intro H; repeat (destruct H as [H|H]; [discriminate|]); destruct H. Qed.
Lemma nodup_filter {A B} (f : A -> B) p l : NoDup (map f l) -> NoDup (map f (filter p l)).
Proof.
  induction l as [|x l IH]; intro N; [constructor|]. cbn [map] in N. apply NoDup_cons_iff in N as [N1 N2]. cbn [filter].
  destruct (p x); [|exact (IH N2)]. cbn [map]. constructor; [|exact (IH N2)]. intro I. apply N1. apply in_map_iff in I as (y & E & J).
  apply filter_In in J as [J _]. apply in_map_iff. exists y. tauto.
Qed.
Lemma written_nodup d : NoDup (map fst (written_ids d)).
Proof.
  apply nodup_filter. apply (Permutation_NoDup (l := map fst (with_ids d channel_names))).
  - apply Permutation_map. symmetry. apply written_perm.
  - apply with_ids_nodup, channel_nodup.
Qed.
Lemma written_in d k v : In (k, v) (written_ids d) <-> In k channel_names /\ id_of d k = Some v /\ v <> txt "0".
Proof.
  unfold written_ids. rewrite filter_In. cbn [snd]. rewrite negb_true_iff.
  assert (A : In (k, v) (sort_ids (with_ids d main_names) ++ sort_ids (with_ids d remote_names)) <-> In (k, v) (with_ids d channel_names)).
  { split; apply Permutation_in; [|symmetry]; apply written_perm. }
  rewrite A, with_ids_in. unfold text_eqb. destruct (text_dec v (txt "0")); intuition congruence.
Qed.
Lemma written_get d k : In k channel_names -> dget text_dec k (written_ids d) = match id_of d k with Some v => if text_dec v (txt "0") then None else Some v | None => None end.
Proof.
  intro K. destruct (dget text_dec k (written_ids d)) as [w|] eqn:E.
  - apply dget_In in E. apply written_in in E as (_ & -> & N). destruct (text_dec w (txt "0")); [congruence|reflexivity].
  - destruct (id_of d k) as [v|] eqn:I; [|reflexivity]. destruct (text_dec v (txt "0")) as [|N]; [reflexivity|].
    assert (J : In (k, v) (written_ids d)) by (apply written_in; tauto). apply (In_dget text_dec) in J; [congruence|apply written_nodup].
Qed.

(** ** The section *)
Definition number_fields (d : dsect) : list (text * text) :=
  [(txt "nfreq", show_int (d_nfreq d)); (txt "sectid", d_sectid d); (txt "nchan", show_int (d_nchan d)); (txt "maxblocks", show_int (d_maxblocks d))].
Lemma write_shape out d : write_data out d = [] :: (match out with DZ => txt ">=MTSECT" | DSpectra => txt ">SPECTRASECT" end) ::
  map (fun kv => field_line (fst kv) (snd kv)) (number_fields d ++ written_ids d) ++ [[]].
Proof. unfold write_data. rewrite map_app. cbn [app]. rewrite <- ?app_assoc. reflexivity. Qed.
