(** Whole Empower sections. *)
From Verif Require Import PyBase PyFacts PyText TextFacts PyNum PyFloat PyRepr ValidatorsProofs EdiProofs EdiMetaModel EdiMetaSpec HeadSpec HeadProofs InfoModel InfoSpec InfoProofs InfoProps PhxSpec PhxProofs PhxProofs2 EmpSpec EmpProofs EmpProofs2.
From Coq Require Import Lia.
Local Open Scope list_scope.

Definition context (p : place) (key : text) : text :=
  match component p with
  | Some c => section p ++ "."%char :: c ++ "."%char :: key
  | None =>
      match subsection p with
      | Some s => if negb (text_eqb s (section p)) then s ++ "."%char :: key
                  else if negb (text_eqb (section p) (txt "general")) then section p ++ "."%char :: key else key
      | None => if negb (text_eqb (section p) (txt "general")) then section p ++ "."%char :: key else key
      end
  end.
Definition entry_step (p : place) (key value : text) (d : info) : info :=
  match empower_key p key with Some std => empower_entry p key std value d | None => dset text_dec (context p key) (IText value) d end.
Lemma does_step p a x v d : does p a x = true -> entry_step p (txt a) v d = act p (txt a) v x d.
Proof. unfold does, entry_step. destruct (empower_key p (txt a)) as [std|]; [|discriminate]. intros H. apply action_eqb_eq in H. rewrite entry_act, H. reflexivity. Qed.
Lemma blocks_not_general b : In b blocks -> text_eqb (txt b) (txt "general") = false.
Proof. intros [<-|[<-|[<-|[]]]]; reflexivity. Qed.
Lemma channel_std c n : In (c, n) channels -> dget text_dec (txt c) components = Some (txt n).
Proof.
  intros I. assert (P : forallb (fun e => match dget text_dec (txt (fst e)) components with Some x => text_eqb x (txt (snd e)) | None => false end) channels = true) by (vm_compute; reflexivity). rewrite forallb_forall in P. specialize (P _ I). cbn [fst snd] in P. destruct (dget text_dec (txt c) components); [|discriminate P]. apply text_eqb_eq in P. subst. reflexivity.
Qed.
Lemma dotted_comments q k : ~ mentions "comments" k -> contains (txt "comments") (txt q) = false -> contains (txt "comments") (txt q ++ "."%char :: k) = false.
Proof. intros M Q. apply dot_word; [exact Q|intros I; cbn in I; repeat (destruct I as [I|I]; [discriminate I|]); exact I|apply mentions_no; exact M]. Qed.
Lemma puts_holds p a K v d ws0 : puts p a K = true -> holds d ws0 -> holds (entry_step p (txt a) v d) (ws0 ++ [Put (txt K) v]).
Proof. intros P H. apply andb_true_iff in P as (D & C). apply negb_true_iff in C. rewrite (does_step p a _ v d D). cbn [act own_value]. apply holds_put; assumption. Qed.
Lemma notes_holds p a K v d ws0 : notes p a K = true -> holds d ws0 -> holds (entry_step p (txt a) v d) (ws0 ++ [Note (txt K) (txt a ++ txt "=" ++ v)]).
Proof. intros P H. apply andb_true_iff in P as (D & C). rewrite (does_step p a _ v d D). apply holds_note; [exact H|exact C|reflexivity]. Qed.
Lemma entry_holds s p key v ws : at_place s p -> entry_says s key v ws -> forall d ws0, holds d ws0 -> holds (entry_step p key v d) (ws0 ++ ws).
Proof.
  intros A E d ws0 H. destruct E as [a K v I|k v N C|b k v NB N C|b c a K v NB G I|c v G|c v G|c a v G O|b v|b k v N C|b c n a K v IC I|b c n v IC|b c n a K v IC I|b c n a v IC O|b c n a v IC I|b c n k v IC N P|b a K v I|b a v I|b a K v I|b a v I|b c v G|b a K v I N|b c n a K v IC I N].
  - destruct A as [-> _]. rewrite (does_step _ _ _ v d (does_general a K I)). cbn [act own_value]. apply holds_put; [exact H|apply (other_names a); left; exact I].
  - destruct A as [-> _]. unfold entry_step, empower_key. cbn [section]. change (text_eqb (txt "general") (txt "general")) with true. cbv iota zeta. rewrite (table_keys k N). unfold context. cbn [component subsection section]. change (text_eqb (txt "general") (txt "general")) with true. cbn [negb]. apply holds_put; [exact H|apply mentions_no; exact C].
  - destruct A as [-> IB]. unfold entry_step, empower_key. cbn [section component subsection]. assert (X : text_eqb (txt b) (txt "general") = false) by (destruct IB as [<-|[<-|[<-|[]]]]; [contradiction|reflexivity|reflexivity]). rewrite X. cbv iota zeta. rewrite (table_keys k N). unfold context. cbn [component subsection section]. rewrite X. cbn [negb]. apply holds_put; [exact H|]. change (txt "." ++ k) with ("."%char :: k). apply dotted_comments; [exact C|]. destruct IB as [<-|[<-|[<-|[]]]]; reflexivity.
  - destruct A as (-> & B & _). change (mkPlace (txt b) (option_map txt c) (Some (txt b))) with (at_block b c). rewrite (does_step (at_block b c) _ _ v d (does_run b c a K B NB G I)). cbn [act own_value]. apply holds_put; [exact H|apply (other_names a); right; exact I].
  - destruct A as (-> & B & _). change (mkPlace (txt "reference") (option_map txt c) (Some (txt "reference"))) with (at_block "reference" c). rewrite (does_step (at_block "reference" c) _ _ v d (proj1 (does_remote c _ G) eq_refl)). cbn [act own_value]. apply holds_put; [exact H|reflexivity].
  - destruct A as (-> & B & _). change (mkPlace (txt "reference") (option_map txt c) (Some (txt "reference"))) with (at_block "reference" c). rewrite (does_step (at_block "reference" c) _ _ v d (proj1 (proj2 (does_remote c _ G)) eq_refl)). cbn [act own_value]. apply holds_put; [exact H|reflexivity].
  - destruct A as (-> & B & _). change (mkPlace (txt "reference") (option_map txt c) (Some (txt "reference"))) with (at_block "reference" c). rewrite (does_step (at_block "reference" c) _ _ v d (proj2 (proj2 (does_remote c _ G)) O)). cbn [act]. apply holds_nil. exact H.
  - destruct A as (-> & B & _). change (mkPlace (txt b) (option_map txt None) (Some (txt b))) with (at_block b None). rewrite (does_step (at_block b None) _ _ v d (does_azimuth b B)). cbn [act own_value]. apply holds_put; [exact H|]. destruct B as [<-|[<-|[<-|[]]]]; reflexivity.
  - destruct A as (-> & B & _). unfold entry_step, empower_key. cbn [section component subsection option_map]. rewrite (blocks_not_general b B). cbv iota zeta. rewrite (table_keys k N). unfold context. cbn [component subsection section]. rewrite text_eqb_refl, (blocks_not_general b B). cbn [negb]. apply holds_put; [exact H|]. change (txt "." ++ k) with ("."%char :: k). apply dotted_comments; [exact C|]. destruct B as [<-|[<-|[<-|[]]]]; reflexivity.
  - destruct A as (-> & B & _). change (mkPlace (txt b) (option_map txt (Some c)) (Some (txt b))) with (at_block b (Some c)). rewrite (does_step (at_block b (Some c)) _ _ v d (does_attribute b c n a K B IC I)). cbn [act own_value]. apply holds_put; [exact H|]. apply calm_name; [exact B|apply in_map_iff; exists (c, n); split; [reflexivity|exact IC]|]. right. apply in_map_iff. exists (a, K). split; [reflexivity|apply in_or_app; left; exact I].
  - destruct A as (-> & B & _). change (mkPlace (txt b) (option_map txt (Some c)) (Some (txt b))) with (at_block b (Some c)). rewrite (does_step (at_block b (Some c)) _ _ v d (does_tag b c n B IC)). unfold at_block. cbn [act own_value component option_map]. apply holds_put; [exact H|]. apply (calm_name b n "component"); [exact B|apply in_map_iff; exists (c, n); split; [reflexivity|exact IC]|left; reflexivity].
  - destruct A as (-> & B & _). change (mkPlace (txt b) (option_map txt (Some c)) (Some (txt b))) with (at_block b (Some c)). rewrite (does_step (at_block b (Some c)) _ _ v d (does_electric b c n a K B IC I)). cbn [act own_value]. apply holds_put; [exact H|]. apply calm_name; [exact B|apply in_map_iff; exists (c, n); split; [reflexivity|apply in_or_app; left; exact IC]|]. right. apply in_map_iff. exists (a, K). split; [reflexivity|apply in_or_app; right; exact I].
  - destruct A as (-> & B & _). change (mkPlace (txt b) (option_map txt (Some c)) (Some (txt b))) with (at_block b (Some c)). rewrite (does_step (at_block b (Some c)) _ _ v d (does_magnetic b c n a B IC O)). apply holds_note; [exact H| |reflexivity]. apply noted_name; [exact B|apply in_map_iff; exists (c, n); split; [reflexivity|apply in_or_app; right; exact IC]].
  - destruct A as (-> & B & _). change (mkPlace (txt b) (option_map txt (Some c)) (Some (txt b))) with (at_block b (Some c)). rewrite (does_step (at_block b (Some c)) _ _ v d (does_remark b c n a B IC I)). apply holds_note; [exact H| |reflexivity]. apply noted_name; [exact B|apply in_map_iff; exists (c, n); split; [reflexivity|exact IC]].
  - destruct A as (-> & B & _). assert (IN : In n (map snd channels)) by (apply in_map_iff; exists (c, n); split; [reflexivity|exact IC]). 
    assert (K : txt (home b ++ n ++ ".") ++ k = txt (home b ++ n) ++ "."%char :: k) by (rewrite !txt_app, <- !app_assoc; reflexivity). rewrite K.
    unfold entry_step, empower_key. cbn [section component subsection option_map]. rewrite (blocks_not_general b B). cbv iota zeta. rewrite (channel_std c n IC), (table_keys k N).
    assert (K2 : (if text_eqb (txt b) (txt "reference") then txt "transfer_function.remote_references." else txt "run.") ++ txt n ++ "."%char :: k = txt (home b ++ n) ++ "."%char :: k) by (rewrite txt_app, <- app_assoc; destruct B as [<-|[<-|[<-|[]]]]; reflexivity).
    rewrite K2, entry_act, (other_target b n k B IN P). cbn [act own_value]. apply holds_put; [exact H|]. apply dotted_comments; [apply P; cbn; tauto|].
    assert (Q : forallb (fun b => forallb (fun n => negb (contains (txt "comments") (txt (home b ++ n)))) (map snd channels)) blocks = true) by (vm_compute; reflexivity). rewrite forallb_forall in Q. specialize (Q b B). rewrite forallb_forall in Q. specialize (Q n IN). apply negb_true_iff in Q. exact Q.
  - destruct A as [-> IB]. apply puts_holds; [apply puts_early; assumption|exact H].
  - destruct A as [-> IB]. apply (notes_holds _ a "comments"); [apply notes_early; assumption|exact H].
  - destruct A as (-> & B & _). apply (puts_holds (at_block b None)); [apply puts_block; assumption|exact H].
  - destruct A as (-> & B & _). apply (notes_holds (at_block b None) a (home b ++ "comments")); [apply notes_block; assumption|exact H].
  - destruct A as (-> & B & _). apply (puts_holds (at_block b c)); [apply puts_site; assumption|exact H].
  - destruct A as (-> & B & _). apply (puts_holds (at_block b None)); [apply puts_block_general; assumption|exact H].
  - destruct A as (-> & B & _). apply (puts_holds (at_block b (Some c))); [apply puts_channel_general; assumption|exact H].
Qed.
(** ** Lines *)
Lemma entry_line p k c x d : In c separators -> ~ separated k -> empower_line (p, d) (k ++ c :: x) = (p, entry_step p (lower (strip k)) (empower_value (strip x)) d).
Proof.
  intros C N. unfold empower_line. assert (IE : In c (lower (k ++ c :: x))). { rewrite lower_app. apply in_or_app. right. left. destruct C as [<-|[<-|[]]]; reflexivity. }
  assert (E : forall w, has_separator (txt w) = false -> text_eqb (lower (k ++ c :: x)) (txt w) = false). { intros w X. apply (eqb_with_char c); [exact IE|]. intros I. assert (Y : has_separator (txt w) = true) by (apply has_separator_spec; exists c; split; assumption). rewrite Y in X. discriminate X. }
  rewrite (E "stations"%string) by reflexivity. unfold one_of, sections. cbn [existsb]. rewrite !E by reflexivity. cbn [orb]. destruct (column_separator k c x C N) as [-> ->]. unfold entry_step. destruct (empower_key p (lower (strip k))); reflexivity.
Qed.
Lemma lower_separator s w : lower s = txt w -> has_separator (txt w) = false -> separator s = None.
Proof.
  intros E H. assert (N : ~ separated s). { intros (c & C & I). assert (X : has_separator (txt w) = true) by (apply has_separator_spec; exists c; split; [exact C|]; rewrite <- E; apply in_map_iff; exists c; split; [destruct C as [<-|[<-|[]]]; reflexivity|exact I]). rewrite X in H. discriminate H. }
  apply not_separated in N as [N1 N2]. apply separator_key; assumption.
Qed.
Lemma line_holds s p l s' ws : at_place s p -> line_says s l s' ws -> forall d ws0, holds d ws0 -> exists p' d', empower_line (p, d) l = (p', d') /\ at_place s' p' /\ holds d' (ws0 ++ ws).
Proof.
  intros A L d ws0 H. destruct L as [b0 b l B E|b0 c b l B E|b0 l E|b0 l E|b c0 c l C E|s l N NH|s k c x v ws C N V ES].
  - destruct A as [-> _]. eexists _, d. split; [unfold empower_line; rewrite E; destruct B as [<-|[<-|[<-|[]]]]; reflexivity|]. split; [split; [reflexivity|split; [exact B|exact I]]|apply holds_nil; exact H].
  - destruct A as (-> & _ & G). eexists _, d. split; [unfold empower_line; rewrite E; destruct B as [<-|[<-|[<-|[]]]]; reflexivity|]. split; [split; [reflexivity|split; [exact B|exact G]]|apply holds_nil; exact H].
  - destruct A as [-> _]. eexists _, d. split; [unfold empower_line; rewrite E; reflexivity|]. split; [split; [reflexivity|cbn; tauto]|apply holds_nil; exact H].
  - destruct A as [-> IB]. eexists _, d. split; [unfold empower_line; rewrite E, (lower_separator l "editing workbench" E eq_refl); cbn [section component subsection]; destruct IB as [<-|[<-|[<-|[]]]]; reflexivity|]. split; [split; [reflexivity|cbn; tauto]|apply holds_nil; exact H].
  - destruct A as (-> & B & _). exists (at_block b (Some c)), d. split; [|split; [split; [reflexivity|split; [exact B|exact C]]|apply holds_nil; exact H]].
    assert (P : forallb (fun b => forallb (fun c => negb (text_eqb (txt c) (txt "stations")) && negb (one_of sections (txt c)) && negb (has_separator (txt c)) && one_of (map fst components) (txt c) && one_of sections (txt b))%bool (map fst channels)) blocks = true) by (vm_compute; reflexivity).
    rewrite forallb_forall in P. specialize (P b B). rewrite forallb_forall in P. specialize (P c C). rewrite !andb_true_iff in P. destruct P as ((((P1 & P2) & P3) & P4) & P5). apply negb_true_iff in P1, P2, P3.
    unfold empower_line. rewrite E, P1, P2, (lower_separator l c E P3), P4. cbn [section component subsection]. rewrite P5. reflexivity.
  - exists p, d. split; [|split; [exact A|apply holds_nil; exact H]]. assert (X : forall w, In w headings -> text_eqb (lower l) (txt w) = false). { intros w I. apply text_eqb_neq. intros E. apply NH. exists w. split; assumption. }
    pose proof (not_separated l N) as [N1 N2]. unfold empower_line. rewrite (X "stations"%string) by (cbn; tauto). unfold one_of at 1, sections at 1. cbn [existsb]. rewrite (X "electrics"%string), (X "magnetics"%string), (X "reference"%string) by (cbn; tauto). cbn [orb]. rewrite (separator_key l N1 N2). rewrite (X "editing workbench"%string) by (cbn; tauto).
    assert (Y : one_of (map fst components) (lower l) = false). { unfold one_of. destruct (existsb (text_eqb (lower l)) (map fst components)) eqn:E; [|reflexivity]. exfalso. apply existsb_exists in E as (w & I & E). apply text_eqb_eq in E. assert (Q : forallb (fun w => existsb (fun h => text_eqb w (txt h)) headings) (map fst components) = true) by (vm_compute; reflexivity). rewrite forallb_forall in Q. specialize (Q w I). apply existsb_exists in Q as (h & IH & EH). apply text_eqb_eq in EH. apply NH. exists h. split; [exact IH|]. rewrite E, EH. reflexivity. }
    rewrite Y, andb_false_r. reflexivity.
  - exists p, (entry_step p (lower (strip k)) v d). split; [|split; [exact A|apply (entry_holds s); assumption]]. rewrite (entry_line p k c x d C N), (value_reads _ _ V). reflexivity.
Qed.
Lemma lines_hold s ls s' ws : lines_say s ls s' ws -> forall p d ws0, at_place s p -> holds d ws0 -> exists p' d', fold_left empower_line ls (p, d) = (p', d') /\ at_place s' p' /\ holds d' (ws0 ++ ws).
Proof.
  induction 1 as [s|s l q ws ls r ws' L LS IH]; intros p d ws0 A H.
  - exists p, d. split; [reflexivity|]. split; [exact A|apply holds_nil; exact H].
  - destruct (line_holds s p l q ws A L d ws0 H) as (p1 & d1 & E1 & A1 & H1). destruct (IH p1 d1 _ A1 H1) as (p2 & d2 & E2 & A2 & H2). exists p2, d2. cbn [fold_left]. rewrite E1. split; [exact E2|]. split; [exact A2|]. rewrite app_assoc. exact H2.
Qed.
Lemma comment_sub K : contains (txt "comments") K = true -> contains (txt "comment") K = true.
Proof. intros C. apply contains_spec in C as (a & b & ->). apply contains_spec. exists a, ("s"%char :: b). reflexivity. Qed.
Lemma notes_shape K ws x l : Forall shape ws -> remarks K ws = x :: l -> contains (txt "comments") K = true.
Proof. induction 1 as [|[k v|k s] ws H F IH]; cbn [remarks]; intros E; [discriminate E|exact (IH E)|]. destruct (text_eqb k K) eqn:EK; [|exact (IH E)]. apply text_eqb_eq in EK. subst k. exact H. Qed.
Lemma holds_final d ws : holds d ws -> NoDup (map fst (comments_to_string d)) /\ forall K, dget text_dec K (comments_to_string d) = option_map IText (found_in ws K).
Proof.
  intros (N & F & G). split; [rewrite keys_comments; exact N|]. intros K. rewrite dget_comments, G. unfold found_in. destruct (remarks K ws) as [|x l] eqn:E; [destruct (last_put K ws); reflexivity|]. cbn [option_map]. unfold cm. rewrite (comment_sub K (notes_shape K ws x l F E)). reflexivity.
Qed.
(** ** Sections *)
Lemma empower_rows post lines : after_info post -> Forall (fun s => strip s = [] \/ empower_row s) lines -> section_lines true (lines ++ post) = filter nonempty (map strip lines).
Proof.
  intros P. induction 1 as [|s lines H F IH]; [apply (section_after post P)|]. cbn [app map filter]. destruct H as [H|(NE & G)].
  - rewrite H. cbn [nonempty]. rewrite <- IH. cbn [section_lines]. cbv zeta. rewrite H. reflexivity.
  - rewrite (section_line s _ G NE). destruct (strip s) as [|c t] eqn:E; [contradiction|]. cbn [nonempty]. rewrite IH. reflexivity.
Qed.
Lemma word_back w s : forallb (fun c => negb (is_space c)) (txt w) = true -> txt w <> [] -> says w s -> contains (txt w) (lower (strip s)) = true.
Proof. intros F N. apply says_back; [|exact N]. rewrite forallb_forall in F. split; intros c r E; (specialize (F c ltac:(rewrite E; first [left; reflexivity|apply in_or_app; right; left; reflexivity])); apply negb_true_iff in F; exact F). Qed.
Lemma empower_reads pre heading lines post : Forall no_info pre -> says ">info" heading -> Forall (fun s => strip s = [] \/ empower_row s) lines -> Exists of_empower lines -> after_info post ->
  read_info (pre ++ heading :: lines ++ post) = Ok (comments_to_string (snd (fold_left empower_line (filter nonempty (map strip lines)) (mkPlace (txt "general") None None, [])))).
Proof.
  intros P H F X Q. unfold read_info.
  assert (SEC : section_lines false (pre ++ heading :: lines ++ post) = filter nonempty (map strip lines)).
  { rewrite (section_before pre _ P). cbn [section_lines]. cbv zeta. rewrite (word_back ">info" heading eq_refl ltac:(discriminate) H). apply empower_rows; assumption. }
  rewrite SEC.
  assert (EM : existsb empower_mark (filter nonempty (map strip lines)) = true).
  { apply Exists_exists in X as (s & I & NP & X). apply existsb_exists. exists (strip s).
    assert (M : empower_mark (strip s) = true). { unfold empower_mark. assert (PM : phoenix_mark (strip s) = false) by (unfold phoenix_mark; destruct (contains _ _) eqn:E; [contradiction NP; apply says_strip; exact E|reflexivity]). rewrite PM. cbn [negb andb]. destruct X as [X|[X|[X1 X2]]].
      - rewrite (word_back "electrics" s eq_refl ltac:(discriminate) X), orb_true_r. reflexivity.
      - rewrite (word_back "magnetics" s eq_refl ltac:(discriminate) X), orb_true_r. reflexivity.
      - rewrite (word_back "empower" s eq_refl ltac:(discriminate) X1), (word_back "v" s eq_refl ltac:(discriminate) X2). reflexivity. }
    split; [|exact M]. apply filter_In. split; [apply in_map; exact I|]. destruct (strip s); [discriminate M|reflexivity]. }
  rewrite EM. reflexivity.
Qed.
