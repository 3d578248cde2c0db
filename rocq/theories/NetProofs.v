From Coq Require Import NArith.
From Verif Require Import PyBase PyFacts PyText TextFacts SxmlModel NetModel NetSpec EdiMeasFile.
From Coq Require Import Lia.
Local Open Scope list_scope.

Lemma truthy_nonempty o v : truthy o = Some v -> o = Some v /\ v <> [].
Proof. destruct o as [[|c s]|]; cbn; try discriminate. intros H. injection H as <-. split; [reflexivity|discriminate]. Qed.
Lemma truthy_some v : v <> [] -> truthy (Some v) = Some v.
Proof. destruct v; [congruence|reflexivity]. Qed.

(** ** Identifiers *)
Lemma contains_cons p c s : prefix_of p (c :: s) = false -> contains p (c :: s) = contains p s.
Proof. intros H. unfold contains. cbn [find]. rewrite H. destruct (find p s); reflexivity. Qed.
Lemma replace_absent p q s : p <> [] -> contains p s = false -> replace p q s = s.
Proof.
  intros NE. unfold replace. induction s as [|c s IH]; intros H; [reflexivity|]. cbn [replace_from].
  assert (P : prefix_of p (c :: s) = false).
  { destruct (prefix_of p (c :: s)) eqn:E; [|reflexivity]. apply prefix_of_spec in E. destruct E as (r & E).
    assert (contains p (c :: s) = true) by (apply contains_spec; exists [], r; exact E). congruence. }
  rewrite P. rewrite (contains_cons _ _ _ P) in H. rewrite (IH H). reflexivity.
Qed.
Lemma replace_doi d : contains (txt "DOI:") d = false -> replace (txt "DOI:") doi_head (txt "DOI:" ++ d) = doi_head ++ d.
Proof.
  intros H. assert (E : replace (txt "DOI:") doi_head (txt "DOI:" ++ d) = doi_head ++ replace (txt "DOI:") doi_head d) by reflexivity.
  rewrite E, replace_absent; [reflexivity|discriminate|exact H].
Qed.
Lemma path_char_space c : path_char c = true -> is_space c = false.
Proof.
  revert c. assert (A : forall c, (negb (path_char c) || negb (is_space c))%bool = true) by (apply ascii_forall; vm_compute; reflexivity).
  intros c H. specialize (A c). rewrite H in A. cbn in A. apply Bool.negb_true_iff in A. exact A.
Qed.
Lemma plain_parts d : plain_url d = true -> exists p, d = doi_head ++ p /\ forallb path_char p = true /\
  forallb (fun w => negb (existsb (text_eqb w) [txt "."; txt ".."])) (split_on "/" p) = true /\ (N.of_nat (List.length d) <= 2083)%N.
Proof.
  unfold plain_url. intros H. apply andb_prop in H. destruct H as [H L]. apply andb_prop in H. destruct H as [H D]. apply andb_prop in H. destruct H as [P C].
  apply prefix_of_spec in P. destruct P as (p & ->). exists p. split; [reflexivity|]. rewrite skipn_app, skipn_all, Nat.sub_diag in C, D. cbn [app skipn] in C, D.
  split; [exact C|]. split; [exact D|]. apply N.leb_le. exact L.
Qed.
Lemma plain_make p : forallb path_char p = true -> forallb (fun w => negb (existsb (text_eqb w) [txt "."; txt ".."])) (split_on "/" p) = true ->
  (N.of_nat (List.length (doi_head ++ p)) <= 2083)%N -> plain_url (doi_head ++ p) = true.
Proof.
  intros C D L. unfold plain_url. rewrite skipn_app, skipn_all, Nat.sub_diag. cbn [app skipn]. rewrite C, D.
  apply N.leb_le in L. rewrite L. rewrite !Bool.andb_true_r. apply prefix_of_spec. exists p. reflexivity.
Qed.
Lemma plain_again d : plain_url d = true -> (N.of_nat (List.length d) + 16 <= 2083)%N -> plain_url (doi_head ++ d) = true.
Proof.
  intros P L. destruct (plain_parts d P) as (p & -> & C & D & _). apply plain_make.
  - rewrite forallb_app, C. reflexivity.
  - assert (S : split_on "/" (doi_head ++ p) = txt "https:" :: [] :: txt "doi.org" :: split_on "/" p).
    { change (doi_head ++ p) with (txt "https:" ++ "/"%char :: ([] ++ "/"%char :: (txt "doi.org" ++ "/"%char :: p))).
      rewrite !split_on_app; [reflexivity| | |]; apply has_char_notIn; reflexivity. }
    rewrite S. cbn [forallb]. rewrite D. reflexivity.
  - rewrite app_length, Nat2N.inj_add. change (N.of_nat (List.length doi_head)) with 16%N. rewrite N.add_comm. exact L.
Qed.
Lemma none_doi d : contains (txt "DOI:") (doi_head ++ d) = contains (txt "DOI:") d.
Proof. unfold doi_head. cbn [txt list_ascii_of_string app]. rewrite !contains_cons by reflexivity. reflexivity. Qed.
Lemma plain_strip d : plain_url d = true -> strip (txt "DOI:" ++ d) = txt "DOI:" ++ d.
Proof.
  intros P. destruct (plain_parts d P) as (p & -> & C & _). apply strip_trimmed. split.
  - intros c r E. injection E as <- _. reflexivity.
  - intros c r E. destruct p as [|p0 p'] eqn:PE.
    + rewrite app_nil_r in E. assert (exists q, txt "DOI:" ++ doi_head = q ++ ["/"%char]) as (q & Q) by (exists (txt "DOI:https://doi.org"); reflexivity).
      assert (c = "/"%char) as -> by (rewrite Q in E; apply app_inj_tail in E; destruct E; congruence). reflexivity.
    + rewrite <- PE in *. assert (NE : p <> []) by (rewrite PE; discriminate). destruct (exists_last NE) as (q & z & Q). clear PE NE. subst p.
      rewrite !app_assoc in E. apply app_inj_tail in E. destruct E as [_ <-]. apply path_char_space. rewrite forallb_app in C. apply andb_prop in C. destruct C as [_ C]. cbn [forallb] in C.
      apply andb_prop in C. exact (proj1 C).
Qed.

Section Proofs.
Variables (url : text -> option text) (bar : text -> result text) (other : text -> cvalue -> survey -> result survey) (show_dict : cdict -> text).
Notation take_comments := (take_comments url bar other show_dict).
Notation take_comment := (take_comment url bar other show_dict).

Lemma doi_plain u : plain_url u = true -> validate_doi url u = Ok (Some u).
Proof.
  intros P. destruct (plain_parts u P) as (p & E & _). unfold validate_doi.
  assert (HD : u = doi_head ++ p) by exact E. assert (CE : exists c r, u = c :: r) by (rewrite HD; do 2 eexists; reflexivity).
  assert (P1 : prefix_of (txt "10.") u = false) by (rewrite HD; reflexivity).
  assert (P2 : prefix_of (txt "doi:") u = false) by (rewrite HD; reflexivity). destruct CE as (c & r & CE). rewrite CE at 1. cbv iota. rewrite P1, P2. cbv zeta.
  unfold http_url. rewrite P. cbn [bindR]. assert (P3 : prefix_of doi_head u = true) by (apply prefix_of_spec; exists p; exact HD). rewrite P3. reflexivity.
Qed.
Lemma trip_doi s : doi_ok 16 s -> validate_doi url (read_identifiers [txt "DOI:" ++ doi_text s]) = Ok (Some (doi_head ++ doi_text s)).
Proof.
  intros H. unfold read_identifiers. cbn [map join]. unfold doi_text. destruct (v_doi s) as [d|] eqn:E.
  - destruct (H d E) as (P & N & L). rewrite (plain_strip d P), (replace_doi d N). apply doi_plain. apply plain_again; assumption.
  - change (replace (txt "DOI:") doi_head (strip (txt "DOI:" ++ txt "None"))) with (doi_head ++ txt "None"). apply doi_plain. vm_compute. reflexivity.
Qed.

(** ** Comments *)
Lemma read_text k v : carried v -> read_comment (Some k) v = Ok (comment_key (Some k), CText v).
Proof. intros H. unfold read_comment, comment_value. apply has_char_notIn in H. rewrite H. reflexivity. Qed.

Lemma acquirer_taken v s : carried v -> take_comment (Some (txt "mt.survey." ++ txt "acquired_by.author"), v) s = Ok (set_acquirer v s).
Proof. intros H. unfold NetModel.take_comment. cbn [fst snd]. rewrite (read_text _ _ H). reflexivity. Qed.
Lemma acq_comment_taken v s : carried v -> ~ In "|"%char v -> take_comment (Some (txt "mt.survey." ++ txt "acquired_by.comments.value"), v) s =
  Ok (mkSurvey (v_id s) (v_network s) (v_name s) (v_summary s) (v_comment s) (v_doi s) (v_author s) (v_email s) (v_org s) (v_country s)
          (v_place s) (v_journal s) (v_project s) (v_acquirer s) (Some v)).
Proof.
  intros H B. unfold NetModel.take_comment. cbn [fst snd]. rewrite (read_text _ _ H). apply has_char_notIn in B.
  assert (E : set_acq_comment bar v s = Ok (mkSurvey (v_id s) (v_network s) (v_name s) (v_summary s) (v_comment s) (v_doi s) (v_author s) (v_email s) (v_org s) (v_country s)
          (v_place s) (v_journal s) (v_project s) (v_acquirer s) (Some v))) by (unfold set_acq_comment, comment_text; rewrite B; reflexivity).
  rewrite <- E. reflexivity.
Qed.
Lemma place_taken v s : carried v -> take_comment (Some (txt "mt.survey." ++ txt "geographic_name"), v) s = Ok (set_place v s).
Proof. intros H. unfold NetModel.take_comment. cbn [fst snd]. rewrite (read_text _ _ H). reflexivity. Qed.
Lemma project_taken v s : carried v -> take_comment (Some (txt "mt.survey." ++ txt "project"), v) s = Ok (set_project v s).
Proof. intros H. unfold NetModel.take_comment. cbn [fst snd]. rewrite (read_text _ _ H). reflexivity. Qed.
Lemma id_taken v s : carried v -> take_comment (Some (txt "mt.survey." ++ txt "id"), v) s = set_id v s.
Proof. intros H. unfold NetModel.take_comment. cbn [fst snd]. rewrite (read_text _ _ H). reflexivity. Qed.
Lemma country_taken v s : carried v -> take_comment (Some (txt "mt.survey.country"), v) s = Ok (set_country (map strip (split_on "," v)) s).
Proof. intros H. unfold NetModel.take_comment. cbn [fst snd]. rewrite (read_text _ _ H). reflexivity. Qed.

Lemma comments_app a b s : take_comments (a ++ b) s = bindR (take_comments a s) (take_comments b).
Proof. revert s. induction a as [|c a IH]; intros s; [reflexivity|]. cbn [app NetModel.take_comments]. destruct (take_comment c s) as [x|e]; [cbn [bindR]; apply IH|reflexivity]. Qed.

Lemma note_taken key o f s : (forall v, truthy o = Some v -> take_comment (Some (txt "mt.survey." ++ txt key), v) s = Ok (f v)) ->
  take_comments (note key o) s = Ok (match truthy o with Some v => f v | None => s end).
Proof. intros H. unfold note. destruct (truthy o) as [v|] eqn:E; [|reflexivity]. cbn [NetModel.take_comments]. rewrite (H v eq_refl). reflexivity. Qed.

Lemma areas l : l <> [] -> Forall area l -> carried (join (txt ", ") l) /\ map strip (split_on "," (join (txt ", ") l)) = l.
Proof.
  induction l as [|x l IH]; intros NE F; [congruence|]. inversion F as [|? ? (ST & NC & CA) F']; subst. destruct l as [|y l].
  - cbn [join]. split; [exact CA|]. rewrite split_on_no by exact NC. cbn [map]. rewrite ST. reflexivity.
  - destruct (IH ltac:(discriminate) F') as [C S]. change (join (txt ", ") (x :: y :: l)) with (x ++ ","%char :: " "%char :: join (txt ", ") (y :: l)). split.
    + intros I. apply in_app_or in I. destruct I as [I|[I|[I|I]]]; [exact (CA I)|discriminate I|discriminate I|exact (C I)].
    + rewrite split_on_app by exact NC. cbn [map]. rewrite ST. f_equal. rewrite <- S at 2.
      change (split_on "," (" "%char :: join (txt ", ") (y :: l))) with (match split_on "," (join (txt ", ") (y :: l)) with w :: ws => (" "%char :: w) :: ws | [] => [[" "%char]] end).
      destruct (split_on "," (join (txt ", ") (y :: l))) as [|w ws] eqn:E; [destruct (split_on_nonnil "," _ E)|]. reflexivity.
Qed.

Lemma id_carried i : forallb id_char i = true -> carried i.
Proof. intros F I. rewrite forallb_forall in F. specialize (F _ I). discriminate F. Qed.

(** The comments of a survey without a journal *)
Lemma comments_back s t : survey_ok s -> v_journal s = None -> v_id t = v_id s ->
  take_comments (make_comments s) t = Ok (mkSurvey (v_id t) (v_network t) (v_name t) (v_summary t) (v_comment t) (v_doi t) (v_author t) (v_email t) (v_org t)
    (match v_country s with Some (c :: l) => Some (c :: l) | _ => v_country t end) (match v_place s with [] => v_place t | p => p end) (v_journal t)
    (match v_project s with [] => v_project t | p => p end)
    (match truthy (v_acquirer s) with Some a => Some a | None => v_acquirer t end) (match truthy (v_acq_comment s) with Some a => Some a | None => v_acq_comment t end)).
Proof.
  intros (NI & IC & _ & _ & CO & PL & PR & AQ & AC) J ID. unfold make_comments. rewrite comments_app.
  rewrite (note_taken _ _ (fun v => set_acquirer v t)).
  2:{ intros v T. apply truthy_nonempty in T. apply acquirer_taken. apply AQ. exact (proj1 T). }
  cbn [bindR]. rewrite comments_app. set (t1 := match truthy (v_acquirer s) with Some v => set_acquirer v t | None => t end).
  rewrite (note_taken _ _ (fun v => mkSurvey (v_id t1) (v_network t1) (v_name t1) (v_summary t1) (v_comment t1) (v_doi t1) (v_author t1) (v_email t1) (v_org t1) (v_country t1)
          (v_place t1) (v_journal t1) (v_project t1) (v_acquirer t1) (Some v))).
  2:{ intros v T. apply truthy_nonempty in T. destruct (AC v (proj1 T)). apply acq_comment_taken; assumption. }
  cbn [bindR]. rewrite comments_app. set (t2 := match truthy (v_acq_comment s) with Some v => _ | None => t1 end).
  rewrite J. change (note "citation_journal.doi" None) with (@nil (option text * text)). cbn [NetModel.take_comments bindR]. rewrite comments_app.
  assert (E3 : take_comments (match v_country s with Some (c :: l) => [(Some (txt "mt.survey.country"), join (txt ", ") (c :: l))] | _ => [] end) t2 =
    Ok (match v_country s with Some (c :: l) => set_country (c :: l) t2 | _ => t2 end)).
  { destruct (v_country s) as [[|c l]|] eqn:E; try reflexivity. destruct (areas (c :: l) ltac:(discriminate) (CO _ eq_refl)) as [CA SP].
    cbn [NetModel.take_comments]. rewrite (country_taken _ _ CA). cbn [bindR]. rewrite SP. reflexivity. }
  rewrite E3. cbn [bindR]. rewrite comments_app. set (t3 := match v_country s with Some (c :: l) => set_country (c :: l) t2 | _ => t2 end).
  rewrite (note_taken _ _ (fun v => set_place v t3)).
  2:{ intros v T. apply truthy_nonempty in T. apply place_taken. destruct T as [T _]. injection T as <-. exact PL. }
  cbn [bindR]. rewrite comments_app. set (t4 := match truthy (Some (v_place s)) with Some v => set_place v t3 | None => t3 end).
  assert (ID4 : v_id t4 = v_id s).
  { unfold t4, t3, t2, t1. destruct (truthy (Some (v_place s))), (v_country s) as [[|? ?]|], (truthy (v_acq_comment s)), (truthy (v_acquirer s)); exact ID. }
  assert (E5 : take_comments (note "id" (Some (v_id s))) t4 = Ok t4).
  { rewrite (note_taken _ _ (fun v => t4)).
    - rewrite truthy_some by exact NI. reflexivity.
    - intros v T. apply truthy_nonempty in T. destruct T as [T _]. injection T as <-. rewrite (id_taken _ _ (id_carried _ IC)). unfold set_id. rewrite IC.
      rewrite <- ID4. destruct t4; reflexivity. }
  rewrite E5. cbn [bindR]. rewrite (note_taken _ _ (fun v => set_project v t4)).
  2:{ intros v T. apply truthy_nonempty in T. apply project_taken. destruct T as [T _]. injection T as <-. exact PR. }
  f_equal. unfold t4, t3, t2, t1. clear. destruct t as [i nw nm su co doi au em og cy pl jo pr aq ac]. destruct (v_project s), (v_place s), (v_country s) as [[|? ?]|], (truthy (v_acq_comment s)), (truthy (v_acquirer s)); reflexivity.
Qed.

Lemma trip_back code s : survey_ok s -> v_journal s = None -> doi_ok 16 s -> trip url bar other show_dict code s = Ok (back s).
Proof.
  intros OK J D. pose proof OK as (NI & IC & NW & LD & _). unfold trip, mt_to_xml.
  assert (MO : exists ops, make_operators s = Ok ops /\ forall t, v_author t = Some [] -> v_email t = None -> v_org t = None ->
    read_operators ops t = let '(a, m, o) := match truthy (v_org s) with
                    | None => (Some [], None, None)
                    | Some org => match truthy (v_author s) with Some a => (Some a, v_email s, Some org) | None => (Some [], None, Some org) end
                    end in set_lead a m o t).
  { unfold make_operators. destruct (truthy (v_org s)) as [org|] eqn:O.
    - destruct (truthy (v_author s)) as [a|] eqn:A.
      + destruct (v_email s) as [m|] eqn:M.
        * eexists. split; [reflexivity|]. intros t T1 T2 T3. reflexivity.
        * exfalso. apply LD; [rewrite O; discriminate|rewrite A; discriminate|exact M].
      + eexists. split; [reflexivity|]. intros t T1 T2 T3. unfold read_operators. cbn. rewrite T1, T2. reflexivity.
    - eexists. split; [reflexivity|]. intros t T1 T2 T3. unfold read_operators. cbn. rewrite T1, T2, T3. reflexivity. }
  destruct MO as (ops & MO & RO). rewrite MO. cbn [bindR].
  unfold xml_to_mt. cbn [w_alternate w_code w_comments w_description w_identifiers w_operators if_given]. unfold set_id at 1. rewrite IC. cbn [bindR].
  set (s1 := mkSurvey (v_id s) (v_network new_survey) _ _ _ _ _ _ _ _ _ _ _ _ _).
  assert (E2 : if_given (v_network s) set_network s1 = Ok (mkSurvey (v_id s) (v_network s) [] [] None None (Some []) None None None [] None [] (Some []) None)).
  { destruct (v_network s) as [c|] eqn:C; [|reflexivity]. cbn [if_given]. unfold set_network. rewrite (NW c eq_refl). reflexivity. }
  rewrite E2. cbn [bindR]. rewrite comments_back; [|exact OK|exact J|reflexivity]. cbn [bindR if_given]. unfold set_summary. cbn [bindR].
  unfold set_doi. match goal with |- context [validate_doi url ?x] => replace (validate_doi url x) with (@Ok (option text) (Some (doi_head ++ doi_text s))) by (symmetry; exact (trip_doi s D)) end. cbn [bindR]. rewrite RO by reflexivity. cbn [v_id v_network v_name v_summary v_comment v_doi v_author v_email v_org v_country v_place v_journal v_project v_acquirer v_acq_comment].
  unfold back. destruct (truthy (v_org s)) as [org|]; [destruct (truthy (v_author s)) as [a|]|]; unfold set_lead, set_name; cbn; destruct (v_id s) eqn:IE; try congruence;
    destruct (v_place s), (v_project s), (truthy (v_acq_comment s)); reflexivity.
Qed.

Lemma back_ok s : survey_ok s -> survey_ok (back s) /\ v_journal (back s) = None.
Proof.
  intros (NI & IC & NW & LD & CO & PL & PR & AQ & AC). unfold back.
  destruct (match truthy (v_org s) with None => (Some [], None, None) | Some org => match truthy (v_author s) with Some a => (Some a, v_email s, Some org) | None => (Some [], None, Some org) end end) as [[a m] o] eqn:E.
  split; [|reflexivity]. split; [exact NI|]. split; [exact IC|]. split; [exact NW|]. split.
  { unfold lead_ok. cbn. intros O A. destruct (truthy (v_org s)) as [org|] eqn:EO.
    - destruct (truthy (v_author s)) as [b|] eqn:EA; injection E as <- <- <-.
      + apply LD; [rewrite EO; discriminate|rewrite EA; discriminate].
      + exfalso. apply A. reflexivity.
    - injection E as <- <- <-. exfalso. apply O. reflexivity. }
  split. { cbn. intros l L. apply CO. destruct (v_country s) as [[|? ?]|]; try discriminate L. exact L. }
  split; [exact PL|]. split; [exact PR|]. split.
  - cbn. intros b B. destruct (truthy (v_acquirer s)) as [c|] eqn:T.
    + apply truthy_nonempty in T. apply AQ. rewrite (proj1 T). exact B.
    + injection B as <-. intros [].
  - cbn. intros c C. apply truthy_nonempty in C. exact (AC c (proj1 C)).
Qed.

Lemma back_doi n s : doi_ok (16 + n) s -> (n <= 2063)%N -> doi_ok n (back s).
Proof.
  intros D B d E. assert (v_doi (back s) = Some (doi_head ++ doi_text s)) as V.
  { unfold back. destruct (match truthy (v_org s) with None => _ | Some _ => _ end) as [[a m] o]. reflexivity. }
  rewrite V in E. injection E as <-. unfold doi_text. destruct (v_doi s) as [d|] eqn:X.
  - destruct (D d X) as (P & N & L). split; [apply plain_again; [exact P|lia]|]. split; [etransitivity; [apply none_doi|exact N]|].
    match goal with |- (N.of_nat (List.length ?x) + _ <= _)%N => change x with (doi_head ++ d) end.
    rewrite app_length, Nat2N.inj_add. change (N.of_nat (List.length doi_head)) with 16%N. lia.
  - split; [vm_compute; reflexivity|]. split; [vm_compute; reflexivity|]. match goal with |- (N.of_nat (List.length ?x) + _ <= _)%N => change (N.of_nat (List.length x)) with 20%N end. lia.
Qed.

Definition with_doi (d : text) (s : survey) : survey :=
  mkSurvey (v_id s) (v_network s) (v_name s) (v_summary s) (v_comment s) (Some d) (v_author s) (v_email s) (v_org s) (v_country s)
    (v_place s) (v_journal s) (v_project s) (v_acquirer s) (v_acq_comment s).
Lemma back_back s : back (back s) = with_doi (doi_head ++ doi_head ++ doi_text s) (back s).
Proof.
  unfold back. destruct s as [i nw nm su co doi au em og cy pl jo pr aq ac]. cbn [v_id v_network v_name v_summary v_comment v_doi v_author v_email v_org v_country v_place v_journal v_project v_acquirer v_acq_comment].
  assert (T : forall o, truthy (truthy o) = truthy o) by (intros [[|? ?]|]; reflexivity).
  destruct og as [[|]|], au as [[|]|]; unfold with_doi;
    cbn [truthy v_id v_network v_name v_summary v_comment v_doi v_author v_email v_org v_country v_place v_journal v_project v_acquirer v_acq_comment];
    (f_equal; [destruct cy as [[|? ?]|]; reflexivity|destruct aq as [[|? ?]|]; reflexivity|apply T]).
Qed.

Fixpoint heads (n : nat) (d : text) : text := match n with O => d | S n' => doi_head ++ heads n' d end.
Lemma heads_add n d : heads n (doi_head ++ d) = heads (S n) d.
Proof. induction n as [|n IH]; [reflexivity|]. cbn [heads]. rewrite IH. reflexivity. Qed.
Lemma doi_text_back s : doi_text (back s) = doi_head ++ doi_text s.
Proof. unfold doi_text at 1. unfold back. destruct (match truthy (v_org s) with None => _ | Some _ => _ end) as [[a m] o]. reflexivity. Qed.
Lemma with_with a b s : with_doi a (with_doi b s) = with_doi a s. Proof. reflexivity. Qed.
Lemma back_with s : back s = with_doi (doi_head ++ doi_text s) (back s).
Proof. unfold back, with_doi. destruct (match truthy (v_org s) with None => _ | Some _ => _ end) as [[a m] o]. reflexivity. Qed.

Lemma trips_back code n : forall s, survey_ok s -> v_journal s = None -> doi_ok (16 * (1 + N.of_nat n)) s -> (16 * N.of_nat n <= 2063)%N ->
  trips url bar other show_dict code (S n) s = Ok (with_doi (heads (S n) (doi_text s)) (back s)).
Proof.
  induction n as [|n IH]; intros s OK J D B.
  - cbn [trips heads]. rewrite (trip_back code s OK J D). cbn [bindR]. f_equal. apply back_with.
  - assert (D1 : doi_ok 16 s) by (intros d E; destruct (D d E) as (A & C & L); repeat split; try assumption; lia).
    assert (T : trips url bar other show_dict code (S (S n)) s = trips url bar other show_dict code (S n) (back s)).
    { cbn [trips]. rewrite (trip_back code s OK J D1). reflexivity. }
    rewrite T. destruct (back_ok s OK) as [OK' J']. rewrite (IH _ OK' J').
    + rewrite back_back, with_with, doi_text_back, heads_add. reflexivity.
    + apply back_doi; [|lia]. intros d E. destruct (D d E) as (A & C & L). repeat split; try assumption. lia.
    + lia.
Qed.

(** ** Refusals *)
Lemma trip_too_long code s d : (forall u, (2083 < N.of_nat (List.length u))%N -> url u = None) ->
  survey_ok s -> v_journal s = None -> v_doi s = Some d -> doi_ok 0 s -> (2083 < N.of_nat (List.length d) + 16)%N ->
  trip url bar other show_dict code s = Err ValueError.
Proof.
  intros U OK J V D L. pose proof OK as (NI & IC & NW & LD & _). unfold trip, mt_to_xml.
  assert (MO : exists ops, make_operators s = Ok ops).
  { unfold make_operators. destruct (truthy (v_org s)) as [org|] eqn:O; [|eauto]. destruct (truthy (v_author s)) as [a|] eqn:A; [|eauto].
    destruct (v_email s) as [m|] eqn:M; [eauto|]. exfalso. apply LD; [rewrite O; discriminate|rewrite A; discriminate|exact M]. }
  destruct MO as (ops & MO). rewrite MO. cbn [bindR].
  unfold xml_to_mt. cbn [w_alternate w_code w_comments w_description w_identifiers w_operators if_given]. unfold set_id at 1. rewrite IC. cbn [bindR].
  set (s1 := mkSurvey (v_id s) (v_network new_survey) _ _ _ _ _ _ _ _ _ _ _ _ _).
  assert (E2 : if_given (v_network s) set_network s1 = Ok (mkSurvey (v_id s) (v_network s) [] [] None None (Some []) None None None [] None [] (Some []) None)).
  { destruct (v_network s) as [c|] eqn:C; [|reflexivity]. cbn [if_given]. unfold set_network. rewrite (NW c eq_refl). reflexivity. }
  rewrite E2. cbn [bindR]. rewrite comments_back; [|exact OK|exact J|reflexivity]. cbn [bindR if_given]. unfold set_summary. cbn [bindR].
  unfold set_doi. rewrite V. destruct (D d V) as (P & N & _). unfold read_identifiers. cbn [map join].
  rewrite (plain_strip d P), (replace_doi d N).
  assert (LL : (2083 < N.of_nat (List.length (doi_head ++ d)))%N).
  { rewrite app_length, Nat2N.inj_add. change (N.of_nat (List.length doi_head)) with 16%N. lia. }
  assert (VD : validate_doi url (doi_head ++ d) = Err ValueError).
  { unfold validate_doi. change (bindR (http_url url (doi_head ++ d)) (fun u => if (prefix_of doi_head u || prefix_of dx_head u)%bool then Ok (Some u) else Err ValueError) = Err ValueError).
    unfold http_url, plain_url. assert (F : (N.of_nat (List.length (doi_head ++ d)) <=? 2083)%N = false) by (apply N.leb_gt; exact LL). rewrite F, !Bool.andb_false_r, (U _ LL). reflexivity. }
  rewrite VD. reflexivity.
Qed.

Definition one_colon (v : text) : Prop := exists a b, v = a ++ ":"%char :: b /\ ~ In ":"%char a /\ ~ In ":"%char b /\ contains (txt "author:") v = false.
Lemma parse_one fuel v a b f : v = a ++ ":"%char :: b -> ~ In ":"%char a -> ~ In ":"%char b -> contains (txt "author:") v = false -> exists d, parse (S fuel) v f = Ok d.
Proof. intros E A B C. cbn [parse]. rewrite C. cbn [andb]. rewrite E, split1_app by exact A. rewrite split1_no by exact B. eauto. Qed.
Lemma read_one k v : one_colon v -> exists d, read_comment (Some k) v = Ok (comment_key (Some k), CDict d).
Proof.
  intros (a & b & E & A & B & C). unfold read_comment, comment_value.
  assert (H : has_char ":" v = true) by (apply has_char_In; rewrite E; apply in_or_app; right; left; reflexivity). rewrite H.
  assert (P : exists d, parse 21 v [] = Ok d).
  { exact (parse_one 20 v a b [] E A B C). }
  destruct P as (d & P). rewrite P. cbn [bindR]. exists d. reflexivity.
Qed.
Lemma journal_one p : ~ In ":"%char p -> one_colon (doi_head ++ p).
Proof.
  intros H. exists (txt "https"), (txt "//doi.org/" ++ p). split; [reflexivity|]. split; [apply has_char_notIn; reflexivity|].
  assert (N : ~ In ":"%char (txt "//doi.org/" ++ p)).
  { intros I. apply in_app_or in I. destruct I as [I|I]; [|exact (H I)]. revert I. apply has_char_notIn. reflexivity. }
  split; [exact N|]. change (doi_head ++ p) with (txt "https:" ++ txt "//doi.org/" ++ p).
  cbn [txt list_ascii_of_string app]. rewrite !contains_cons by reflexivity. apply (no_char_contains ":"%char); [do 6 right; left; reflexivity|]. exact H.
Qed.
End Proofs.
