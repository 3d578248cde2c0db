(** What the lines of an Empower section write. *)
From Verif Require Import PyBase PyFacts PyText TextFacts PyNum PyFloat PyRepr ValidatorsProofs EdiProofs EdiMetaModel EdiMetaSpec HeadSpec HeadProofs InfoModel InfoSpec InfoProofs InfoProps PhxSpec PhxProofs PhxProofs2 EmpSpec EmpProofs.
From Coq Require Import Lia.
Local Open Scope list_scope.

Definition earlier : list string := ["general"; "stations"; "editing_workbench"]%string.
Definition at_place (s : spot) (p : place) : Prop :=
  match s with
  | Early b => p = mkPlace (txt b) None None /\ In b earlier
  | Block b c => p = mkPlace (txt b) (option_map txt c) (Some (txt b)) /\ In b blocks /\ given_channel c
  end.
(** The dictionary after some writes. *)
Definition shape (w : write) : Prop := match w with Put K _ => contains (txt "comments") K = false | Note K _ => contains (txt "comments") K = true end.
Definition holds (d : info) (ws : list write) : Prop :=
  NoDup (map fst d) /\ Forall shape ws /\ forall K, dget text_dec K d = match remarks K ws with [] => option_map IText (last_put K ws) | l => Some (ITexts l) end.
Lemma remarks_app K a b : remarks K (a ++ b) = remarks K a ++ remarks K b.
Proof. induction a as [|[k v|k s] a IH]; cbn [app remarks]; [reflexivity|exact IH|]. destruct (text_eqb k K); [cbn [app]; f_equal; exact IH|exact IH]. Qed.
Lemma last_put_app K a b : last_put K (a ++ b) = match last_put K b with Some x => Some x | None => last_put K a end.
Proof. induction a as [|[k v|k s] a IH]; cbn [app last_put]; [destruct (last_put K b); reflexivity| |exact IH]. rewrite IH. destruct (last_put K b); [reflexivity|]. reflexivity. Qed.
Lemma remarks_put K ws : contains (txt "comments") K = false -> Forall shape ws -> remarks K ws = [].
Proof. intros C. induction 1 as [|[k v|k s] ws H F IH]; cbn [remarks]; [reflexivity|exact IH|]. destruct (text_eqb k K) eqn:E; [|exact IH]. apply text_eqb_eq in E. subst k. unfold shape in H. rewrite C in H. discriminate H. Qed.
Lemma puts_note K ws : contains (txt "comments") K = true -> Forall shape ws -> last_put K ws = None.
Proof. intros C. induction 1 as [|[k v|k s] ws H F IH]; cbn [last_put]; [reflexivity| |exact IH]. rewrite IH. destruct (text_eqb k K) eqn:E; [|reflexivity]. apply text_eqb_eq in E. subst k. unfold shape in H. rewrite C in H. discriminate H. Qed.
Lemma text_eqb_neq (a b : text) : a <> b -> text_eqb a b = false.
Proof. intros N. destruct (text_eqb a b) eqn:E; [apply text_eqb_eq in E; contradiction|reflexivity]. Qed.
Lemma holds_put d ws K v : holds d ws -> contains (txt "comments") K = false -> holds (dset text_dec K (IText v) d) (ws ++ [Put K v]).
Proof.
  intros (N & F & G) C. split; [apply NoDup_dset; exact N|]. split; [apply Forall_app; split; [exact F|constructor; [exact C|constructor]]|]. intros X. rewrite remarks_app, last_put_app. cbn [remarks last_put]. rewrite app_nil_r. destruct (text_dec X K) as [->|NE].
  - rewrite dget_dset_eq, text_eqb_refl, (remarks_put K ws C F). reflexivity.
  - rewrite dget_dset_neq by exact NE. rewrite (text_eqb_neq K X) by (intros E; apply NE; symmetry; exact E). apply G.
Qed.
Lemma holds_note d ws K s : holds d ws -> contains (txt "comments") K = true -> forall p key v, s = key ++ txt "=" ++ v -> holds (act p key v (ANote false K) d) (ws ++ [Note K s]).
Proof.
  intros (N & F & G) C p key v ->. cbn [act]. set (old := match dget text_dec K d with None => [] | Some (ITexts l) => l | Some (IText []) | Some INone => [] | Some x => [show_ival x] end).
  assert (OLD : old = remarks K ws). { unfold old. rewrite (G K), (puts_note K ws C F). destruct (remarks K ws); reflexivity. }
  split; [apply NoDup_dset; exact N|]. split; [apply Forall_app; split; [exact F|constructor; [exact C|constructor]]|]. intros X. rewrite remarks_app, last_put_app. cbn [remarks last_put]. destruct (text_dec X K) as [->|NE].
  - rewrite dget_dset_eq, text_eqb_refl, OLD. destruct (remarks K ws); reflexivity.
  - rewrite dget_dset_neq by exact NE. rewrite (text_eqb_neq K X) by (intros E; apply NE; symmetry; exact E). rewrite app_nil_r. apply G.
Qed.
Lemma holds_nil d ws : holds d ws -> holds d (ws ++ []).
Proof. rewrite app_nil_r. exact (fun H => H). Qed.

(** ** The tables *)
Lemma table_keys k : ~ names known_keys k -> dget text_dec k empower_names = None.
Proof.
  intros A. destruct (dget text_dec k empower_names) as [x|] eqn:E; [|reflexivity]. exfalso. apply dget_In in E.
  assert (P : forallb (fun p => existsb (fun n => text_eqb (fst p) (txt n)) known_keys) empower_names = true) by (vm_compute; reflexivity).
  rewrite forallb_forall in P. specialize (P _ E). apply existsb_exists in P as (n & I & X). cbn [fst] in X. apply text_eqb_eq in X. apply A. exists n. split; assumption.
Qed.
Definition does (p : place) (a : string) (x : action) : bool := match empower_key p (txt a) with Some std => action_eqb (target std) x | None => false end.
Definition at_block (b : string) (c : option string) : place := mkPlace (txt b) (option_map txt c) (Some (txt b)).
Definition any_channel : list (option string) := None :: map Some (map fst channels).
Lemma given_any c : given_channel c -> In c any_channel.
Proof. destruct c as [c|]; [intros H; right; apply in_map; exact H|intros _; left; reflexivity]. Qed.
Lemma does_run b c a K : In b blocks -> b <> "reference"%string -> given_channel c -> In (a, K) run_names -> does (at_block b c) a (APut false (txt K)) = true.
Proof.
  intros B NB G I. assert (P : forallb (fun b => forallb (fun c => forallb (fun e => does (at_block b c) (fst e) (APut false (txt (snd e)))) run_names) any_channel) ["electrics"; "magnetics"]%string = true) by (vm_compute; reflexivity).
  rewrite forallb_forall in P. specialize (P b ltac:(destruct B as [<-|[<-|[<-|[]]]]; [left; reflexivity|right; left; reflexivity|contradiction])). rewrite forallb_forall in P. specialize (P c (given_any c G)). rewrite forallb_forall in P. exact (P _ I).
Qed.
Lemma does_remote c a : given_channel c -> (a = "station name"%string -> does (at_block "reference" c) a (APut false (txt "transfer_function.remote_references.geographic_name")) = true) /\
  (a = "recording id"%string -> does (at_block "reference" c) a (APut false (txt "run.id")) = true) /\ (a = "instrument type"%string \/ a = "operator"%string -> does (at_block "reference" c) a ASkip = true).
Proof.
  intros G. assert (P : forallb (fun c => does (at_block "reference" c) "station name" (APut false (txt "transfer_function.remote_references.geographic_name")) && does (at_block "reference" c) "recording id" (APut false (txt "run.id")) && does (at_block "reference" c) "instrument type" ASkip && does (at_block "reference" c) "operator" ASkip)%bool any_channel = true) by (vm_compute; reflexivity).
  rewrite forallb_forall in P. specialize (P c (given_any c G)). rewrite !andb_true_iff in P. destruct P as (((A & B) & C) & D). repeat split; [intros ->; exact A|intros ->; exact B|intros [->| ->]; assumption].
Qed.
Lemma does_azimuth b : In b blocks -> does (at_block b None) "azimuth" (APut false (txt (home b ++ "measured_azimuth"))) = true.
Proof. intros [<-|[<-|[<-|[]]]]; vm_compute; reflexivity. Qed.
Lemma does_attribute b c n a K : In b blocks -> In (c, n) channels -> In (a, K) channel_names -> does (at_block b (Some c)) a (APut false (txt (home b ++ n ++ "." ++ K))) = true.
Proof.
  intros B C I. assert (P : forallb (fun b => forallb (fun c => forallb (fun e => does (at_block b (Some (fst c))) (fst e) (APut false (txt (home b ++ snd c ++ "." ++ snd e)))) channel_names) channels) blocks = true) by (vm_compute; reflexivity).
  rewrite forallb_forall in P. specialize (P b B). rewrite forallb_forall in P. specialize (P _ C). rewrite forallb_forall in P. exact (P _ I).
Qed.
Lemma does_tag b c n : In b blocks -> In (c, n) channels -> does (at_block b (Some c)) "tag" (APut true (txt (home b ++ n ++ ".component"))) = true.
Proof.
  intros B C. assert (P : forallb (fun b => forallb (fun c => does (at_block b (Some (fst c))) "tag" (APut true (txt (home b ++ snd c ++ ".component")))) channels) blocks = true) by (vm_compute; reflexivity).
  rewrite forallb_forall in P. specialize (P b B). rewrite forallb_forall in P. exact (P _ C).
Qed.
Lemma does_electric b c n a K : In b blocks -> In (c, n) electric_channels -> In (a, K) electric_names -> does (at_block b (Some c)) a (APut false (txt (home b ++ n ++ "." ++ K))) = true.
Proof.
  intros B C I. assert (P : forallb (fun b => forallb (fun c => forallb (fun e => does (at_block b (Some (fst c))) (fst e) (APut false (txt (home b ++ snd c ++ "." ++ snd e)))) electric_names) electric_channels) blocks = true) by (vm_compute; reflexivity).
  rewrite forallb_forall in P. specialize (P b B). rewrite forallb_forall in P. specialize (P _ C). rewrite forallb_forall in P. exact (P _ I).
Qed.
Lemma does_magnetic b c n a : In b blocks -> In (c, n) magnetic_channels -> a = "ac"%string \/ a = "dc"%string -> does (at_block b (Some c)) a (ANote false (txt (home b ++ n ++ ".comments.end"))) = true.
Proof.
  intros B C I. assert (P : forallb (fun b => forallb (fun c => forallb (fun e => does (at_block b (Some (fst c))) e (ANote false (txt (home b ++ snd c ++ ".comments.end")))) ["ac"; "dc"]%string) magnetic_channels) blocks = true) by (vm_compute; reflexivity).
  rewrite forallb_forall in P. specialize (P b B). rewrite forallb_forall in P. specialize (P _ C). rewrite forallb_forall in P. apply P. destruct I as [->| ->]; cbn; tauto.
Qed.
Lemma does_remark b c n a : In b blocks -> In (c, n) channels -> In a remark_names -> does (at_block b (Some c)) a (ANote false (txt (home b ++ n ++ ".comments"))) = true.
Proof.
  intros B C I. assert (P : forallb (fun b => forallb (fun c => forallb (fun e => does (at_block b (Some (fst c))) e (ANote false (txt (home b ++ snd c ++ ".comments")))) remark_names) channels) blocks = true) by (vm_compute; reflexivity).
  rewrite forallb_forall in P. specialize (P b B). rewrite forallb_forall in P. specialize (P _ C). rewrite forallb_forall in P. exact (P _ I).
Qed.
Lemma does_general a K : In (a, K) general_names -> does (mkPlace (txt "general") None None) a (APut false (txt K)) = true.
Proof. intros I. assert (P : forallb (fun e => does (mkPlace (txt "general") None None) (fst e) (APut false (txt (snd e)))) general_names = true) by (vm_compute; reflexivity). rewrite forallb_forall in P. exact (P _ I). Qed.
(** Known keys elsewhere: what is done, to a name without or with remarks. *)
Definition puts (p : place) (a K : string) : bool := (does p a (APut false (txt K)) && negb (contains (txt "comments") (txt K)))%bool.
Definition notes (p : place) (a K : string) : bool := (does p a (ANote false (txt K)) && contains (txt "comments") (txt K))%bool.
Lemma puts_early b a K : In b earlier -> In (a, K) early_names -> puts (mkPlace (txt b) None None) a K = true.
Proof. intros B I. assert (P : forallb (fun b => forallb (fun e => puts (mkPlace (txt b) None None) (fst e) (snd e)) early_names) earlier = true) by (vm_compute; reflexivity). rewrite forallb_forall in P. specialize (P b B). rewrite forallb_forall in P. exact (P _ I). Qed.
Lemma notes_early b a : In b earlier -> In a remark_names -> notes (mkPlace (txt b) None None) a "comments" = true.
Proof. intros B I. assert (P : forallb (fun b => forallb (fun a => notes (mkPlace (txt b) None None) a "comments") remark_names) earlier = true) by (vm_compute; reflexivity). rewrite forallb_forall in P. specialize (P b B). rewrite forallb_forall in P. exact (P _ I). Qed.
Lemma puts_block b a K : In b blocks -> In (a, K) (channel_names ++ electric_names) -> puts (at_block b None) a (home b ++ K) = true.
Proof. intros B I. assert (P : forallb (fun b => forallb (fun e => puts (at_block b None) (fst e) (home b ++ snd e)) (channel_names ++ electric_names)) blocks = true) by (vm_compute; reflexivity). rewrite forallb_forall in P. specialize (P b B). rewrite forallb_forall in P. exact (P _ I). Qed.
Lemma notes_block b a : In b blocks -> In a remark_names -> notes (at_block b None) a (home b ++ "comments") = true.
Proof. intros B I. assert (P : forallb (fun b => forallb (fun a => notes (at_block b None) a (home b ++ "comments")) remark_names) blocks = true) by (vm_compute; reflexivity). rewrite forallb_forall in P. specialize (P b B). rewrite forallb_forall in P. exact (P _ I). Qed.
Lemma puts_site b c : In b blocks -> given_channel c -> puts (at_block b c) "sitename" (if String.eqb b "reference" then "transfer_function.remote_references.geographic_name" else "station.geographic_name") = true.
Proof. intros B G. assert (P : forallb (fun b => forallb (fun c => puts (at_block b c) "sitename" (if String.eqb b "reference" then "transfer_function.remote_references.geographic_name" else "station.geographic_name")) any_channel) blocks = true) by (vm_compute; reflexivity). rewrite forallb_forall in P. specialize (P b B). rewrite forallb_forall in P. exact (P _ (given_any c G)). Qed.
Definition less_site : list (string * string) := filter (fun e => negb (String.eqb (fst e) "sitename")) general_names.
Lemma in_less a K : In (a, K) general_names -> a <> "sitename"%string -> In (a, K) less_site.
Proof. intros I N. apply filter_In. split; [exact I|]. apply negb_true_iff, String.eqb_neq. exact N. Qed.
Lemma puts_block_general b a K : In b blocks -> In (a, K) general_names -> a <> "sitename"%string -> puts (at_block b None) a (home b ++ K) = true.
Proof. intros B I N. assert (P : forallb (fun b => forallb (fun e => puts (at_block b None) (fst e) (home b ++ snd e)) less_site) blocks = true) by (vm_compute; reflexivity). rewrite forallb_forall in P. specialize (P b B). rewrite forallb_forall in P. exact (P _ (in_less a K I N)). Qed.
Lemma puts_channel_general b c n a K : In b blocks -> In (c, n) channels -> In (a, K) general_names -> a <> "sitename"%string -> puts (at_block b (Some c)) a (home b ++ n ++ "." ++ K) = true.
Proof. intros B C I N. assert (P : forallb (fun b => forallb (fun c => forallb (fun e => puts (at_block b (Some (fst c))) (fst e) (home b ++ snd c ++ "." ++ snd e)) less_site) channels) blocks = true) by (vm_compute; reflexivity). rewrite forallb_forall in P. specialize (P b B). rewrite forallb_forall in P. specialize (P _ C). rewrite forallb_forall in P. exact (P _ (in_less a K I N)). Qed.
(** The names that are written have no remarks in them. *)
Lemma calm_name b n K : In b blocks -> In n (map snd channels) -> In K (["component"]%string ++ map snd (channel_names ++ electric_names)) -> contains (txt "comments") (txt (home b ++ n ++ "." ++ K)) = false.
Proof.
  intros B C I. assert (P : forallb (fun b => forallb (fun n => forallb (fun K => negb (contains (txt "comments") (txt (home b ++ n ++ "." ++ K)))) (["component"]%string ++ map snd (channel_names ++ electric_names))) (map snd channels)) blocks = true) by (vm_compute; reflexivity).
  rewrite forallb_forall in P. specialize (P b B). rewrite forallb_forall in P. specialize (P n C). rewrite forallb_forall in P. specialize (P K I). apply negb_true_iff in P. exact P.
Qed.
Lemma noted_name b n : In b blocks -> In n (map snd channels) -> contains (txt "comments") (txt (home b ++ n ++ ".comments")) = true /\ contains (txt "comments") (txt (home b ++ n ++ ".comments.end")) = true.
Proof.
  intros B C. assert (P : forallb (fun b => forallb (fun n => contains (txt "comments") (txt (home b ++ n ++ ".comments")) && contains (txt "comments") (txt (home b ++ n ++ ".comments.end")))%bool (map snd channels)) blocks = true) by (vm_compute; reflexivity).
  rewrite forallb_forall in P. specialize (P b B). rewrite forallb_forall in P. specialize (P n C). apply andb_true_iff in P. exact P.
Qed.
Lemma other_names a K : In (a, K) general_names \/ In (a, K) run_names -> contains (txt "comments") (txt K) = false.
Proof. assert (P : forallb (fun e => negb (contains (txt "comments") (txt (snd e)))) (general_names ++ run_names) = true) by (vm_compute; reflexivity). rewrite forallb_forall in P. intros H. specialize (P (a, K) ltac:(apply in_or_app; exact H)). apply negb_true_iff in P. exact P. Qed.

(** ** Other keys of a channel *)
Lemma dot_word w q k : contains (txt w) (txt q) = false -> ~ In "."%char (txt w) -> contains (txt w) k = false -> contains (txt w) (txt q ++ "."%char :: k) = false.
Proof. intros A N B. rewrite contains_parted by exact N. rewrite A, B. reflexivity. Qed.
Lemma txt_app a b : txt (a ++ b) = txt a ++ txt b.
Proof. induction a as [|c a IH]; [reflexivity|]. cbn [String.append]. change (txt (String c (a ++ b))) with (c :: txt (a ++ b)). rewrite IH. reflexivity. Qed.
Definition special : list string := ["azimuth"; "component"; "comments"; "data_logger"; "geographic_name"; "author"; "acquired_by"; "ac"; "dc"]%string.
Lemma other_target b n k : In b blocks -> In n (map snd channels) -> plain_key k -> target (txt (home b ++ n) ++ "."%char :: k) = APut false (txt (home b ++ n) ++ "."%char :: k).
Proof.
  intros B C (P & NI & NE). set (std := txt (home b ++ n) ++ "."%char :: k).
  assert (W : forall w, In w special -> contains (txt w) std = false).
  { intros w I. apply dot_word.
    - assert (Q : forallb (fun b => forallb (fun n => forallb (fun w => negb (contains (txt w) (txt (home b ++ n)))) special) (map snd channels)) blocks = true) by (vm_compute; reflexivity). rewrite forallb_forall in Q. specialize (Q b B). rewrite forallb_forall in Q. specialize (Q n C). rewrite forallb_forall in Q. specialize (Q w I). apply negb_true_iff in Q. exact Q.
    - assert (Q : forallb (fun w => negb (has_char "." (txt w))) special = true) by (vm_compute; reflexivity). rewrite forallb_forall in Q. specialize (Q w I). apply negb_true_iff in Q. apply has_char_notIn. exact Q.
    - apply mentions_no, P. exact I. }
  assert (MV : moved std = std). { unfold moved, has. rewrite (W "acquired_by"%string) by (cbn; tauto). rewrite (W "data_logger"%string), (W "ac"%string), (W "dc"%string) by (cbn; tauto). cbn [orb]. destruct (_ || _ || _)%bool; reflexivity. }
  assert (DM : contains (txt "data_logger.model") std = false). { destruct (contains (txt "data_logger.model") std) eqn:E; [|reflexivity]. exfalso. apply contains_spec in E as (x & y & E). assert (X : contains (txt "data_logger") std = true) by (apply contains_spec; exists x, (txt ".model" ++ y); rewrite E; reflexivity). rewrite (W "data_logger"%string) in X by (cbn; tauto). discriminate X. }
  assert (ID : (ends_with "d" std && prefix_of (rev (txt ".id")) (rev std) && negb (has "sensor.id" std))%bool = false).
  { destruct (prefix_of (rev (txt ".id")) (rev std)) eqn:E; [|rewrite andb_false_r; reflexivity]. exfalso. apply prefix_of_spec in E as (t & E). assert (E2 : std = rev t ++ txt ".id"). { rewrite <- (rev_involutive std), E, rev_app_distr, rev_involutive. reflexivity. }
    unfold std in E2. change (txt ".id") with (["."; "i"; "d"]%char) in E2. destruct k as [|c1 k1] eqn:EK using rev_ind.
    - apply (f_equal (@rev ascii)) in E2. rewrite !rev_app_distr in E2. cbn in E2. discriminate E2.
    - clear IHk1. change (txt (home b ++ n) ++ "."%char :: k1 ++ [c1]) with (txt (home b ++ n) ++ ("."%char :: k1) ++ [c1]) in E2. rewrite app_assoc in E2. change ["."%char; "i"%char; "d"%char] with (["."%char; "i"%char] ++ ["d"%char]) in E2. rewrite (app_assoc (rev t)) in E2. apply app_inj_tail in E2 as [E2 ->].
      destruct k1 as [|c2 k2] eqn:EK1 using rev_ind.
      + change ["."%char; "i"%char] with (["."%char] ++ ["i"%char]) in E2. rewrite app_assoc in E2. apply app_inj_tail in E2 as [_ E2]. discriminate E2.
      + clear IHk2. change ("."%char :: k2 ++ [c2]) with (("."%char :: k2) ++ [c2]) in E2. rewrite app_assoc in E2. change ["."%char; "i"%char] with (["."%char] ++ ["i"%char]) in E2. rewrite app_assoc in E2. apply app_inj_tail in E2 as [E2 ->].
        destruct k2 as [|c3 k3] eqn:EK2 using rev_ind; [apply NI; reflexivity|]. clear IHk3. change ("."%char :: k3 ++ [c3]) with (("."%char :: k3) ++ [c3]) in E2. rewrite app_assoc in E2. apply app_inj_tail in E2 as [_ ->]. apply NE. exists k3. rewrite <- !app_assoc. reflexivity. }
  unfold target. rewrite MV. unfold has in *. rewrite (W "acquired_by"%string), (W "data_logger"%string), (W "author"%string), (W "azimuth"%string), (W "component"%string), (W "comments"%string), (W "geographic_name"%string) by (cbn; tauto). cbn [orb andb]. rewrite andb_false_r. cbv zeta. rewrite DM, ID. reflexivity.
Qed.
