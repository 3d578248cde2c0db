(** Proofs for C121. *)
From Coq Require Import Permutation Sorted.
From Verif Require Import PyBase PyFacts PyText TextFacts JfileModel ManyModel ManySpec.
From Coq Require Import Lia.
Local Open Scope list_scope.

Lemma dots_app a b : dots (a ++ b) = (dots a + dots b)%nat. Proof. apply count_occ_app. Qed.
Lemma dots_0 s : dots s = 0%nat <-> no_dot s. Proof. unfold dots, no_dot. symmetry. apply count_occ_not_In. Qed.
Lemma first_dot s : In "."%char s -> exists a b, s = a ++ "."%char :: b /\ no_dot a.
Proof.
  induction s as [|x s IH]; [intros []|]. destruct (ascii_dec x "."%char) as [-> | N].
  - intros _. exists [], s. split; [reflexivity|intros []].
  - intros [E|I]; [congruence|]. destruct (IH I) as (a & b & -> & NA). exists (x :: a), b. split; [reflexivity|]. intros [E|J]; [congruence|exact (NA J)].
Qed.
Lemma dots_pos s : (0 < dots s)%nat -> exists a b, s = a ++ "."%char :: b /\ no_dot a /\ dots s = S (dots b).
Proof.
  intros P. assert (I : In "."%char s) by (apply (count_occ_In ascii_dec); exact P). destruct (first_dot s I) as (a & b & -> & NA). exists a, b. split; [reflexivity|]. split; [exact NA|].
  rewrite dots_app. apply dots_0 in NA. rewrite NA. reflexivity.
Qed.
Lemma in_names s l : existsb (text_eqb s) l = true <-> In s l.
Proof. rewrite existsb_exists. split; [intros (x & I & E); apply text_eqb_eq in E; subst; exact I|]. intros I. exists s. split; [exact I|apply text_eqb_eq; reflexivity]. Qed.
Lemma is_filter_spec f : is_filter f = true <-> filter_file f.
Proof. unfold is_filter. rewrite in_names. unfold filter_file. cbn [In]. split; [intros [E|[E|[]]]; [left|right]; symmetry; exact E|intros [-> | ->]; tauto]. Qed.
Lemma is_survey_spec f : is_survey f = true <-> survey_file f.
Proof. unfold is_survey. rewrite in_names. unfold survey_file. cbn [In]. split; [intros [E|[E|[]]]; [left|right]; symmetry; exact E|intros [-> | ->]; tauto]. Qed.
Lemma is_station_spec f : is_station f = true <-> station_file (f_stem f) f.
Proof.
  unfold is_station, station_file. match goal with |- context [existsb ?a ?l] => destruct (existsb a l) eqn:E end.
  - split; [discriminate|]. intros (_ & _ & R). exfalso. apply R. apply in_names in E. unfold reserved. cbn [In] in *. tauto.
  - rewrite Nat.eqb_eq, dots_0. split; [|tauto]. intros N. split; [reflexivity|]. split; [exact N|]. intros R. assert (T : existsb (text_eqb (f_stem f)) [txt "filters"; txt "_filters"; txt "_survey"; txt "survey"] = true) by (apply in_names; unfold reserved in R; cbn [In] in *; tauto). congruence.
Qed.
Lemma is_run_spec f : is_run f = true <-> exists s r, run_file s r f.
Proof.
  unfold is_run. rewrite Nat.eqb_eq. split.
  - intros D. destruct (dots_pos (f_stem f)) as (a & b & E & NA & DB); [lia|]. exists a, b. split; [exact E|]. split; [exact NA|]. apply dots_0. lia.
  - intros (s & r & E & NS & NR). rewrite E, !dots_app. apply dots_0 in NS. apply dots_0 in NR. rewrite NS, NR. reflexivity.
Qed.
Lemma is_channel_spec f : is_channel f = true <-> exists s r, channel_file s r f.
Proof.
  unfold is_channel. rewrite Nat.ltb_lt. split.
  - intros D. destruct (dots_pos (f_stem f)) as (a & b & E & NA & DB); [lia|]. destruct (dots_pos b) as (r & k & E2 & NR & _); [lia|]. exists a, r, k. split; [rewrite E, E2; reflexivity|]. split; assumption.
  - intros (s & r & k & E & _). rewrite E, !dots_app. change (dots (txt ".")) with 1%nat. lia.
Qed.
Lemma part_dot s r : no_dot s -> part 0 (s ++ txt "." ++ r) = s.
Proof. intros N. unfold part. change (txt "." ++ r) with ("."%char :: r). rewrite (split_on_app _ _ _ N). reflexivity. Qed.
Lemma part_none s : no_dot s -> part 0 s = s.
Proof. intros N. unfold part. rewrite (split_on_no _ _ N). reflexivity. Qed.
Lemma part_run s r : no_dot s -> no_dot r -> part 1 (s ++ txt "." ++ r) = r.
Proof. intros N R. unfold part. change (txt "." ++ r) with ("."%char :: r). rewrite (split_on_app _ _ _ N), (split_on_no _ _ R). reflexivity. Qed.
Lemma part_channel s r k : no_dot s -> no_dot r -> part 1 (s ++ txt "." ++ r ++ txt "." ++ k) = r.
Proof. intros N R. unfold part. change (txt "." ++ r ++ txt "." ++ k) with ("."%char :: r ++ "."%char :: k). rewrite (split_on_app _ _ _ N), (split_on_app _ _ _ R). reflexivity. Qed.

(** Rows *)
Lemma station_row s f : text_eqb (w_station (make_row f)) s && w_is_station (make_row f) = true <-> station_file s f.
Proof.
  cbn [make_row w_station w_is_station]. rewrite andb_true_iff, text_eqb_eq, is_station_spec. split.
  - intros (E & S). destruct S as (_ & N & R). rewrite (part_none _ N) in E. rewrite <- E. split; [reflexivity|]. split; assumption.
  - intros (E & N & R). rewrite E. split; [exact (part_none s N)|]. split; [exact E|]. split; assumption.
Qed.
Lemma run_row s f : text_eqb (w_station (make_row f)) s && w_is_run (make_row f) = true <-> exists r, run_file s r f.
Proof.
  cbn [make_row w_station w_is_run]. rewrite andb_true_iff, text_eqb_eq, is_run_spec. split.
  - intros (E & s' & r & R & NS & NR). rewrite R, (part_dot _ _ NS) in E. subst s'. exists r. split; [exact R|]. split; assumption.
  - intros (r & R & NS & NR). split; [rewrite R; exact (part_dot _ _ NS)|]. exists s, r. split; [exact R|]. split; assumption.
Qed.
Lemma run_of s r f : run_file s r f -> w_run (make_row f) = Some r.
Proof.
  intros H. pose proof (proj2 (is_run_spec f) (ex_intro _ s (ex_intro _ r H))) as E. destruct H as (R & NS & NR). cbn [make_row w_run]. rewrite E. cbn [orb]. rewrite R, (part_run _ _ NS NR). reflexivity.
Qed.
Lemma channel_row s r f : text_eqb (w_station (make_row f)) s && same_run (w_run (make_row f)) r && w_is_channel (make_row f) = true <-> channel_file s r f.
Proof.
  cbn [make_row w_station w_run w_is_channel]. rewrite !andb_true_iff, text_eqb_eq, is_channel_spec. split.
  - intros ((E & W) & s' & r' & k & R & NS & NR).
    assert (C : is_channel f = true) by (apply is_channel_spec; exists s', r', k; split; [exact R|]; split; assumption).
    rewrite C, orb_true_r in W. cbn [same_run] in W. apply text_eqb_eq in W. rewrite R, (part_channel _ _ _ NS NR) in W. rewrite R, (part_dot _ _ NS) in E. subst. exists k. split; [exact R|]. split; assumption.
  - intros (k & R & NS & NR). assert (C : is_channel f = true) by (apply is_channel_spec; exists s, r, k; split; [exact R|]; split; assumption).
    rewrite C, orb_true_r. cbn [same_run]. rewrite text_eqb_eq. split; [split; [rewrite R; exact (part_dot _ _ NS)|rewrite R; exact (part_channel _ _ _ NS NR)]|]. exists s, r, k. split; [exact R|]. split; assumption.
Qed.

(** Runs *)
Lemma text_leb_earlier a : forall b, text_leb a b = true -> earlier a b.
Proof.
  induction a as [|x a IH]; intros b; [intros _; left; exists b; reflexivity|]. destruct b as [|y b]; [discriminate|]. cbn [text_leb].
  destruct (N.ltb_spec (code x) (code y)) as [L|L]; [intros _; right; exists [], x, y, a, b; repeat split; exact L|].
  destruct (N.ltb_spec (code y) (code x)) as [L2|L2]; [discriminate|]. assert (E : x = y). { assert (C : code x = code y) by lia. unfold code in C. rewrite <- (ascii_N_embedding x), <- (ascii_N_embedding y), C. reflexivity. }
  subst y. intros H. destruct (IH b H) as [(r & ->)|(p & x' & y' & u & v & -> & -> & LT)]; [left; exists r; reflexivity|]. right. exists (x :: p), x', y', u, v. repeat split. exact LT.
Qed.
Lemma text_leb_or a : forall b, text_leb a b = false -> text_leb b a = true.
Proof.
  induction a as [|x a IH]; intros b; [discriminate|]. destruct b as [|y b]; [reflexivity|]. cbn [text_leb]. destruct (N.ltb_spec (code x) (code y)); [discriminate|]. destruct (N.ltb_spec (code y) (code x)); [reflexivity|]. apply IH.
Qed.
Lemma run_leb_or a b : run_leb a b = false -> run_leb b a = true.
Proof. unfold run_leb. destruct (w_run a), (w_run b); try discriminate. apply text_leb_or. Qed.
Lemma insert_run_perm x l : Permutation (x :: l) (insert_run x l).
Proof. induction l as [|y l IH]; [reflexivity|]. cbn [insert_run]. destruct (run_leb x y); [reflexivity|]. rewrite perm_swap. apply perm_skip. exact IH. Qed.
Lemma sort_runs_perm l : Permutation l (fold_right insert_run [] l).
Proof. induction l as [|x l IH]; [reflexivity|]. cbn [fold_right]. rewrite <- insert_run_perm. apply perm_skip. exact IH. Qed.
Lemma insert_run_sorted x l : Sorted (fun a b => run_leb a b = true) l -> Sorted (fun a b => run_leb a b = true) (insert_run x l).
Proof.
  induction l as [|y l IH]; intro S0; [repeat constructor|]. cbn [insert_run]. destruct (run_leb x y) eqn:E.
  - constructor; [exact S0|constructor; exact E].
  - apply Sorted_inv in S0 as [S1 S2]. constructor; [exact (IH S1)|]. apply run_leb_or in E. destruct l as [|w l]; cbn [insert_run]; [constructor; exact E|].
    destruct (run_leb x w); constructor; [exact E|]. inversion S2; assumption.
Qed.
Lemma sort_runs_sorted l : Sorted (fun a b => run_leb a b = true) (fold_right insert_run [] l).
Proof. induction l as [|x l IH]; [constructor|]. cbn [fold_right]. apply insert_run_sorted, IH. Qed.
Lemma get_runs_In files s x : In x (get_runs (make_df files) s) <-> exists f, x = make_row f /\ In f files /\ exists r, run_file s r f.
Proof.
  unfold get_runs. match goal with |- context [fold_right insert_run [] ?l] => assert (P : In x (fold_right insert_run [] l) <-> In x l) by (split; [apply Permutation_in, Permutation_sym, sort_runs_perm|apply Permutation_in, sort_runs_perm]); rewrite P end.
  rewrite filter_In. unfold make_df. rewrite in_map_iff. split.
  - intros ((f & <- & I) & T). exists f. split; [reflexivity|]. split; [exact I|]. apply run_row. exact T.
  - intros (f & -> & I & R). split; [exists f; split; [reflexivity|exact I]|]. apply run_row. exact R.
Qed.
Lemma filter_map {A B} (g : A -> B) P l : filter P (map g l) = map g (filter (fun x => P (g x)) l).
Proof. induction l as [|x l IH]; [reflexivity|]. cbn [map filter]. destruct (P (g x)); cbn [map]; rewrite IH; reflexivity. Qed.
Lemma get_runs_nodup files s : NoDup files -> NoDup (map w_fn (get_runs (make_df files) s)).
Proof.
  intros N. unfold get_runs, make_df. rewrite filter_map. eapply Permutation_NoDup; [apply Permutation_map, sort_runs_perm|]. rewrite map_map. cbn [make_row w_fn]. rewrite map_id. apply NoDup_filter, N.
Qed.

(** Channels *)
Definition of_run (files : list file) (s r : text) : list file :=
  map w_fn (filter (fun x => text_eqb (w_station x) s && same_run (w_run x) r && w_is_channel x) (make_df files)).
Lemma of_run_In files s r f : In f (of_run files s r) <-> In f files /\ channel_file s r f.
Proof.
  unfold of_run, make_df. rewrite filter_map, map_map. cbn [make_row w_fn]. rewrite map_id, filter_In. split; intros (I & H); (split; [exact I|]); [apply channel_row; exact H|apply channel_row in H; exact H].
Qed.
Lemma get_channels_In files s r f : In f (get_channels (make_df files) s r) -> In f files /\ channel_file s r f.
Proof.
  unfold get_channels. cbv zeta. fold (of_run files s r). rewrite in_flat_map. intros (c & _ & H). destruct (List.find _ (of_run files s r)) as [g|] eqn:E; [|destruct H]. destruct H as [<-|[]]. apply find_some in E as [I _]. apply of_run_In in I. exact I.
Qed.
(** What stands between dots *)
Lemma contains_dot p u v : no_dot p -> p <> [] -> contains p (u ++ "."%char :: v) = (contains p u || contains p v)%bool.
Proof.
  intros N NE. apply eq_true_iff_eq. rewrite orb_true_iff, !contains_spec. split.
  - intros (a & b & E). apply app_eq_app in E as (l & [[-> E]|[-> E]]).
    + left. symmetry in E. apply app_eq_app in E as (m & [[-> E]|[-> E]]).
      * exists a, m. reflexivity.
      * destruct m as [|x m]; [exists a, []; rewrite !app_nil_r; reflexivity|]. cbn [app] in E. injection E as <- _. exfalso. apply N, in_or_app. right. left. reflexivity.
    + right. destruct l as [|x l]; [cbn [app] in E; destruct p as [|y p]; [congruence|]; injection E as <- _; exfalso; apply N; left; reflexivity|]. cbn [app] in E. injection E as _ ->. exists l, b. reflexivity.
  - intros [(a & b & ->)|(a & b & ->)]; [exists a, (b ++ "."%char :: v); rewrite <- !app_assoc; reflexivity|exists (u ++ "."%char :: a), b; rewrite <- !app_assoc; reflexivity].
Qed.
Lemma lower_dot u v : lower (u ++ "."%char :: v) = lower u ++ "."%char :: lower v.
Proof. rewrite lower_app. reflexivity. Qed.
Lemma component_dot c : In c components -> no_dot c /\ c <> [] /\ contains c (txt "xml") = false /\ contains c [] = false.
Proof. intros [<-|[<-|[<-|[<-|[<-|[]]]]]]; (split; [intros [E|[E|[]]]; discriminate E|split; [discriminate|split; reflexivity]]). Qed.
Lemma components_apart c d : In c components -> In d components -> contains c d = true -> c = d.
Proof. intros [<-|[<-|[<-|[<-|[<-|[]]]]]] [<-|[<-|[<-|[<-|[<-|[]]]]]] E; (reflexivity || discriminate E). Qed.
Lemma contains_self c : contains c c = true. Proof. apply contains_spec. exists [], []. rewrite app_nil_r. reflexivity. Qed.
Lemma component_found s r c f d : component_file s r c f -> In d components -> (contains d (after_station s f) = true <-> d = c).
Proof.
  intros (k & cc & E & NS & NR & CR & CK & LC & IC) ID. destruct (component_dot d ID) as (ND & NE & NX & N0).
  assert (A : after_station s f = lower ([] ++ "."%char :: r ++ "."%char :: k ++ "."%char :: cc ++ "."%char :: txt "xml")).
  { unfold after_station, f_name. rewrite E. f_equal. rewrite <- !app_assoc. rewrite skipn_app, skipn_all, Nat.sub_diag. reflexivity. }
  rewrite A, !lower_dot, !(contains_dot d _ _ ND NE), LC. change (lower (txt "xml")) with (txt "xml"). change (lower []) with (@nil ascii).
  rewrite (CR d ID), (CK d ID), NX, N0. cbn [orb]. rewrite orb_false_r. split; [exact (components_apart d c ID IC)|intros ->; apply contains_self].
Qed.
Lemma component_channel s r c f : component_file s r c f -> channel_file s r f.
Proof. intros (k & cc & E & NS & NR & _). exists (k ++ txt "." ++ cc). split; [exact E|]. split; assumption. Qed.
Lemma component_one s r c d f : component_file s r c f -> component_file s r d f -> c = d.
Proof.
  intros C D. destruct C as (k & cc & EC) eqn:Q. clear Q. pose proof (ex_intro _ k (ex_intro _ cc EC) : component_file s r c f) as C'.
  assert (ID : In d components) by (destruct D as (? & ? & _ & _ & _ & _ & _ & _ & I); exact I).
  pose proof (proj2 (component_found s r d f d D ID) eq_refl) as T. apply (component_found s r c f d C' ID) in T. symmetry. exact T.
Qed.
Lemma channels_clean files s r cs : clean_run files s r -> incl cs components ->
  exists ds, picked ds cs
    /\ Forall2 (component_file s r) ds (flat_map (fun ch => match List.find (fun f => contains ch (after_station s f)) (of_run files s r) with Some f => [f] | None => [] end) cs)
    /\ (forall c, In c cs -> (exists f, In f files /\ component_file s r c f) -> In c ds).
Proof.
  intros (CL & UN). induction cs as [|c cs IH]; intros INC.
  - exists []. split; [constructor|]. split; [constructor|]. intros ? [].
  - destruct IH as (ds & P & F & A); [intros x I; apply INC; right; exact I|]. assert (IC : In c components) by (apply INC; left; reflexivity). cbn [flat_map].
    destruct (List.find (fun f => contains c (after_station s f)) (of_run files s r)) as [f|] eqn:E.
    + apply find_some in E as [I T]. apply of_run_In in I as [I CF]. destruct (CL f I CF) as (d & D). apply (component_found s r d f c D IC) in T. subst d.
      exists (c :: ds). split; [constructor; exact P|]. split; [constructor; [exact D|exact F]|]. intros x [<-|J] X; [left; reflexivity|right; exact (A x J X)].
    + exists ds. split; [constructor; exact P|]. split; [exact F|]. intros x [<-|J] X; [|exact (A x J X)]. exfalso. destruct X as (f & I & D).
      assert (IF : In f (of_run files s r)) by (apply of_run_In; split; [exact I|exact (component_channel _ _ _ _ D)]).
      pose proof (find_none _ _ E f IF) as T. cbv beta in T. rewrite (proj2 (component_found s r c f c D IC) eq_refl) in T. discriminate T.
Qed.
Lemma Forall2_In_l {A B} (R : A -> B -> Prop) l m x : Forall2 R l m -> In x l -> exists y, In y m /\ R x y.
Proof. intros F. induction F as [|a b l m R0 F IH]; [intros []|]. intros [<-|I]; [exists b; split; [left; reflexivity|exact R0]|]. destruct (IH I) as (y & J & Y). exists y. split; [right; exact J|exact Y]. Qed.

(** Stations *)
Lemma first_station files s : match first_fn (filter (fun r => text_eqb (w_station r) s && w_is_station r) (make_df files)) with
  | Ok f => In f files /\ station_file s f
  | Err e => e = IndexError /\ forall f, In f files -> ~ station_file s f
  end.
Proof.
  unfold make_df. rewrite filter_map. match goal with |- context [map make_row ?l] => remember l as m eqn:E end. destruct m as [|f m]; cbn [map first_fn].
  - split; [reflexivity|]. intros f I S0. assert (J : In f []) by (rewrite E; apply filter_In; split; [exact I|]; apply station_row; exact S0). destruct J.
  - assert (J : In f (f :: m)) by (left; reflexivity). rewrite E in J. apply filter_In in J as [I T]. split; [exact I|]. apply station_row. exact T.
Qed.
Lemma stations_In files s : In s (stations (make_df files)) <-> exists f, In f files /\ station_file s f.
Proof.
  unfold stations, make_df. rewrite filter_map, map_map. cbn [make_row w_is_station w_station]. rewrite in_map_iff. split.
  - intros (f & E & I). apply filter_In in I as [I T]. apply is_station_spec in T. exists f. split; [exact I|]. pose proof T as (_ & N & R). rewrite (part_none _ N) in E. rewrite <- E. exact T.
  - intros (f & I & S0). exists f. destruct S0 as (E & N & R). split; [rewrite E; apply part_none, N|]. apply filter_In. split; [exact I|]. apply is_station_spec. rewrite E. split; [exact E|]. split; assumption.
Qed.
