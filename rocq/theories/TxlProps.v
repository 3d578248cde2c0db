(** C136: names given as a text with commas, as a list or as an array. *)
From Verif Require Import PyBase PyText TextFacts RrefModel TxlModel TxlSpec TxlProofs.
From Coq Require Import Lia.
Local Open Scope list_scope.

Section C136.
Variable show : given -> text.
Notation validate := (validate show).

(** The names of a text come one by one, in order and without the blanks around them. *)
Theorem C136_text : forall k t ns, In k [RunChannels; StationNames; Areas; Funding; Estimates] -> ~ nothing k t ->
  (validate k (GText t) = Ok (OList ns) <-> Forall clean ns /\ listing t ns).
Proof.
  intros k t ns Hk Hn.
  assert (E : validate k (GText t) = Ok (OList (cut t))).
  { destruct k; cbn [In] in Hk; try (exfalso; intuition discriminate); try reflexivity;
      cbn [TxlModel.validate list_of_strings]; rewrite is_in_false; try reflexivity; exact Hn. }
  rewrite E. split.
  - intros [= <-]. split; [apply cut_clean|apply listing_cut].
  - intros [Hc Hl]. now rewrite (cut_listing t ns Hc Hl).
Qed.
(** Such a text always gives a list. *)
Theorem C136_text_always : forall k t, In k [RunChannels; StationNames; Areas; Funding; Estimates; FcNames] -> ~ nothing k t ->
  exists ns, validate k (GText t) = Ok (OList ns) /\ ns <> [].
Proof.
  intros k t Hk Hn.
  assert (E : exists ns, ns <> [] /\ validate k (GText t) = Ok (OList ns)).
  { assert (K : cut t <> []) by (unfold cut; pose proof (split_on_nonnil "," t); destruct (split_on "," t); [contradiction|discriminate]).
    destruct k; cbn [In] in Hk; try (exfalso; intuition discriminate); try (exists (cut t); split; [exact K|reflexivity]);
      cbn [TxlModel.validate list_of_strings]; rewrite is_in_false by exact Hn; (eexists; split; [|reflexivity]); [exact K|exact K|apply split_on_nonnil]. }
  destruct E as (ns & H1 & H2). eauto.
Qed.
(** The channels and levels of an FC keep the blanks: they are exactly what stands between the commas. *)
Theorem C136_fc : forall t ns, ~ nothing FcNames t ->
  (validate FcNames (GText t) = Ok (OList ns) <-> ns <> [] /\ Forall (fun n => ~ In ","%char n) ns /\ t = join (txt ",") ns).
Proof.
  intros t ns Hn. cbn [TxlModel.validate]. rewrite is_in_false by exact Hn. split.
  - intros [= <-]. split; [apply split_on_nonnil|]. split; [|symmetry; apply join_split].
    apply Forall_forall. intros x. apply split_on_parts.
  - intros (H1 & H2 & ->). change (txt ",") with [","%char]. rewrite split_join; [reflexivity|exact H1|]. now apply Forall_forall.
Qed.
(** The fields of a Zonge channel: two or more names with none missing come back. *)
Theorem C136_zonge : forall t ns, Forall clean ns -> Forall (fun n => n <> []) ns -> 2 <= length ns -> listing t ns ->
  validate ZongeCh (GText t) = Ok (OList ns).
Proof.
  intros t ns Hc Hne Hlen Hl. cbn [TxlModel.validate].
  assert (Hcomma : has_char "," t = true).
  { destruct Hl as (ps & _ & H2 & ->). destruct H2 as [|n p ns ps Hp H2]; [cbn in Hlen; lia|].
    destruct H2 as [|n' p' ns ps Hp' H2]; [cbn in Hlen; lia|].
    change (join (txt ",") (p :: p' :: ps)) with (p ++ txt "," ++ join (txt ",") (p' :: ps)).
    unfold has_char. rewrite !existsb_app. cbn [txt list_ascii_of_string existsb]. rewrite Ascii.eqb_refl. cbn. apply orb_true_r. }
  rewrite Hcomma, (cut_listing t ns Hc Hl).
  assert (E : filter nonempty ns = ns).
  { clear Hc Hlen Hl. induction Hne as [|n ns Hn H IH]; [reflexivity|]. cbn [filter]. destruct n; [congruence|]. cbn [nonempty]. now rewrite IH. }
  rewrite E. destruct ns as [|a [|b r]]; cbn in Hlen; try lia. reflexivity.
Qed.
(** A list of texts and numbers gives their texts; a tuple does too, except for statistical estimates and Zonge channels. *)
Theorem C136_list : forall k l ns, Forall2 entry l ns ->
  validate k (GList l) = Ok (OList ns) /\ (~ In k [Estimates; ZongeCh] -> validate k (GTuple l) = Ok (OList ns)).
Proof.
  intros k l ns H. pose proof (entries_coerce l ns H) as E1. pose proof (entries_shown l ns H) as E2.
  destruct k; cbn [TxlModel.validate list_of_strings In]; unfold as_names; rewrite ?E1, ?E2; cbn [bindR]; (split; [reflexivity|intros K]);
    try reflexivity; exfalso; tauto.
Qed.
(** So a list that came out goes in again unchanged. *)
Theorem C136_again : forall k v ns, validate k v = Ok (OList ns) -> validate k (GList (map IText ns)) = Ok (OList ns).
Proof.
  intros k v ns _. apply C136_list. induction ns as [|n ns IH]; cbn [map]; constructor; [constructor|exact IH].
Qed.
(** What stands for nothing gives an empty list. *)
Theorem C136_nothing : forall k t, In k [RunChannels; FcNames] -> nothing k t ->
  validate k (GText t) = Ok (OList []) /\ validate k GNone = Ok (OList []).
Proof.
  intros k t Hk Hn. destruct k; cbn [In] in Hk; try (exfalso; intuition discriminate); (split; [|reflexivity]);
    cbn [TxlModel.validate list_of_strings]; rewrite is_in_true by exact Hn; reflexivity.
Qed.
(** The runs and the channels of a station refuse it instead ... *)
Theorem C136_station_nothing_refuted : forall t, nothing StationNames t ->
  validate StationNames (GText t) = Err ValueError /\ validate StationNames GNone = Err ValueError.
Proof. intros t Hn. split; [|reflexivity]. cbn [TxlModel.validate list_of_strings]. now rewrite is_in_true by exact Hn. Qed.
(** ... and the empty text and "Null" are names of channels of a run. *)
Theorem C136_run_nothing_refuted : validate RunChannels (GText (txt "")) = Ok (OList [txt ""]) /\
  validate RunChannels (GText (txt "Null")) = Ok (OList [txt "Null"]).
Proof. split; reflexivity. Qed.

(** An array of texts and numbers is taken by an FC; with two or more elements it raises ValueError in a run or a station. *)
Theorem C136_array : forall x l ns, Forall2 entry (x :: l) ns -> validate FcNames (GArray x l) = Ok (OList ns).
Proof. intros x l ns H. cbn [TxlModel.validate]. unfold as_names. now rewrite (entries_coerce _ _ H). Qed.
Theorem C136_array_refuted : forall k x y l, In k [RunChannels; StationNames; Areas] -> validate k (GArray x (y :: l)) = Err ValueError.
Proof. intros k x y l Hk. destruct k; cbn [In] in Hk; try (exfalso; intuition discriminate); reflexivity. Qed.
(** With one element it is taken. *)
Theorem C136_array_one : forall k s, In k [RunChannels; StationNames] -> ~ nothing k s ->
  validate k (GArray (IText s) []) = Ok (OList [s]).
Proof.
  intros k s Hk Hn. destruct k; cbn [In] in Hk; try (exfalso; intuition discriminate);
    cbn [TxlModel.validate list_of_strings array_in bindR]; rewrite is_in_false by exact Hn; reflexivity.
Qed.
(** Blanks after a comma stay in the names of an FC. *)
Theorem C136_fc_refuted : validate FcNames (GText (txt "ex, ey")) = Ok (OList [txt "ex"; txt " ey"]).
Proof. reflexivity. Qed.
(** A missing first value of a Zonge channel puts the second in its place, as a text and no list. *)
Theorem C136_zonge_refuted : forall n, clean n -> n <> [] -> validate ZongeCh (GText (txt "," ++ n)) = Ok (OText n).
Proof.
  intros n Hc Hn. cbn [TxlModel.validate]. change (has_char "," (txt "," ++ n)) with true.
  assert (E : cut (txt "," ++ n) = [[]; n]).
  { apply cut_listing.
    - constructor; [split; [split; intros c r K; [discriminate|destruct r; discriminate]|intros []]|]. constructor; [exact Hc|constructor].
    - exists [[]; n]. split; [discriminate|]. split; [|reflexivity].
      constructor; [exists [], []; repeat split|]. constructor; [exists [], []; rewrite app_nil_r; repeat split|constructor]. }
  rewrite E. cbn [filter nonempty]. destruct n; [congruence|]. reflexivity.
Qed.
End C136.

(** The indices of a block: non-negative numbers, in brackets or not, come one by one. *)
Theorem C136_indices : forall t ts ns, listing t ts -> Forall2 number ts ns ->
  indices_of_text t = ns /\ indices_of_text (txt "[" ++ t ++ txt "]") = ns.
Proof.
  intros t ts ns Hl Hn. pose proof (listing_no_bracket t ts ns Hl Hn) as Hb. unfold indices_of_text. split.
  - rewrite (strip_brackets_plain t Hb). now apply indices_plain with (ts := ts).
  - change (txt "[" ++ t ++ txt "]") with ("["%char :: t ++ ["]"%char]). rewrite (strip_brackets_around t Hb). now apply indices_plain with (ts := ts).
Qed.
(** In general, of a text without brackets: the numbers among the parts between commas, in order. *)
Theorem C136_indices_all : forall t ps, Forall clean ps -> listing t ps -> ~ In "["%char t -> ~ In "]"%char t ->
  numbers_of ps (indices_of_text t).
Proof.
  intros t ps Hc Hl H1 H2. unfold indices_of_text. rewrite strip_brackets_plain.
  - rewrite <- (cut_listing t ps Hc Hl) at 1. apply numbers_strip.
  - apply forallb_forall. intros c Hx. unfold is_bracket. destruct (Ascii.eqb_spec c "["); [subst; contradiction|].
    destruct (Ascii.eqb_spec c "]"); [subst; contradiction|reflexivity].
Qed.
(** Numbers with a sign or a point are left out without a word. *)
Theorem C136_indices_refuted : indices_of_text (txt "1,-2,3.0,+4,5") = [1; 5]%N.
Proof. reflexivity. Qed.

Example C136_text_hyp : Forall clean [txt "ex"; txt "hy 1"] /\ listing (txt " ex ,hy 1") [txt "ex"; txt "hy 1"] /\
  ~ nothing RunChannels (txt " ex ,hy 1").
Proof.
  assert (H : forall sh, validate sh RunChannels (GText (txt " ex ,hy 1")) = Ok (OList [txt "ex"; txt "hy 1"])) by reflexivity.
  assert (N : ~ nothing RunChannels (txt " ex ,hy 1")) by (cbn; intuition discriminate).
  destruct (proj1 (C136_text (fun _ => []) RunChannels _ _ (or_introl eq_refl) N) (H _)) as [H1 H2]. now repeat split.
Qed.
Example C136_station_nothing_hyp : nothing StationNames (txt "none"). Proof. cbn. tauto. Qed.
Example C136_zonge_hyp : forall sh, validate sh ZongeCh (GText (txt "0, 90")) = Ok (OList [txt "0"; txt "90"]) /\
  validate sh ZongeCh (GText (txt ",90")) = Ok (OText (txt "90")).
Proof. intros sh. split; reflexivity. Qed.
Example C136_list_hyp : Forall2 entry [IText (txt "ex"); INum (txt "4")] [txt "ex"; txt "4"].
Proof. repeat constructor. Qed.
Example C136_array_hyp : forall sh, validate sh RunChannels (GArray (IText (txt "ex")) [IText (txt "ey")]) = Err ValueError /\
  validate sh FcNames (GArray (IText (txt "ex")) [IText (txt "ey")]) = Ok (OList [txt "ex"; txt "ey"]).
Proof. intros sh; split; reflexivity. Qed.
Example C136_indices_hyp : listing (txt "12, 7") [txt "12"; txt "7"] /\ Forall2 number [txt "12"; txt "7"] [12; 7]%N.
Proof.
  split; [exact (listing_cut (txt "12, 7"))|]. constructor; [|constructor; [|constructor]].
  - apply (nu_more [ascii_of_N (48 + 1)] 1 (ascii_of_N (48 + 2)) 2).
    + apply nu_one. split; [lia|reflexivity].
    + split; [lia|reflexivity].
  - apply nu_one. split; [lia|reflexivity].
Qed.
Print Assumptions C136_text. Print Assumptions C136_indices. Print Assumptions C136_zonge_refuted.
