(** C112: surveys written as StationXML networks and read again. *)
From Coq Require Import NArith.
From Verif Require Import PyBase PyFacts PyText TextFacts SxmlModel NetModel NetSpec NetProofs.
From Coq Require Import Lia.
Local Open Scope list_scope.

Section Props.
Variables (url : text -> option text) (bar : text -> result text) (other : text -> cvalue -> survey -> result survey) (show_dict : cdict -> text).
Notation trip := (trip url bar other show_dict).
Notation trips := (trips url bar other show_dict).

(** A fine survey without a journal comes back as [back] says: the id, the code of the network, the summary, the lead, the countries,
    the place, the project, the acquirer and the acquirer's comment are kept; the name becomes the id, the comment is gone and the
    identifier has a head more. *)
Theorem C112_a_survey_comes_back : forall code s, survey_ok s -> v_journal s = None -> doi_ok 16 s -> trip code s = Ok (back s).
Proof. intros code s. apply trip_back. Qed.

(** After any number of trips all but the identifier is as after the first one, and the identifier has one head for every trip. *)
Theorem C112_the_identifier_grows : forall code n s, survey_ok s -> v_journal s = None -> doi_ok (16 * (1 + N.of_nat n)) s ->
  (16 * N.of_nat n <= 2063)%N ->
  exists t, trips code (S n) s = Ok t /\ v_doi t = Some (List.concat (List.repeat (txt "https://doi.org/") (S n)) ++ doi_text s) /\
    v_id t = v_id s /\ v_name t = v_id s /\ v_network t = v_network s /\ v_summary t = v_summary s /\ v_place t = v_place s /\
    v_project t = v_project s /\ v_comment t = None /\ v_country t = v_country (back s) /\ v_author t = v_author (back s) /\
    v_email t = v_email (back s) /\ v_org t = v_org (back s).
Proof.
  intros code n s OK J D B. eexists. split; [apply (trips_back url bar other show_dict code n s OK J D B)|].
  assert (H : forall m d, heads m d = List.concat (List.repeat doi_head m) ++ d).
  { intros m d. induction m as [|m IH]; [reflexivity|]. cbn [heads List.repeat List.concat]. rewrite IH, app_assoc. reflexivity. }
  split; [cbn [v_doi with_doi]; rewrite H; reflexivity|].
  unfold with_doi, back. destruct (match truthy (v_org s) with None => _ | Some _ => _ end) as [[a m] o]. repeat split.
Qed.

(** Until there is no room for it *)
Theorem C112_a_long_identifier_is_refused : forall code s d, (forall u, (2083 < N.of_nat (List.length u))%N -> url u = None) ->
  survey_ok s -> v_journal s = None -> v_doi s = Some d -> doi_ok 0 s -> (2083 < N.of_nat (List.length d) + 16)%N -> trip code s = Err ValueError.
Proof. intros code s d. apply trip_too_long. Qed.

(** The code asked for does not matter, nor does the comment of the survey. *)
Theorem C112_the_code_and_the_comment_are_ignored : forall code code' s c,
  mt_to_xml code s = mt_to_xml code' (mkSurvey (v_id s) (v_network s) (v_name s) (v_summary s) c (v_doi s) (v_author s) (v_email s) (v_org s) (v_country s)
    (v_place s) (v_journal s) (v_project s) (v_acquirer s) (v_acq_comment s)).
Proof. reflexivity. Qed.

(** A lead with a name and an organization but no address cannot be written; one without an organization is not. *)
Theorem C112_a_lead_needs_an_address : forall code s o a, v_org s = Some o -> o <> [] -> v_author s = Some a -> a <> [] -> v_email s = None ->
  mt_to_xml code s = Err TypeError.
Proof. intros code s o a O NO A NA M. unfold mt_to_xml, make_operators. rewrite O, A, M, !truthy_some by assumption. reflexivity. Qed.
Theorem C112_a_lead_needs_an_organization : forall code s w, v_org s = None \/ v_org s = Some [] -> mt_to_xml code s = Ok w -> w_operators w = [].
Proof. intros code s w O H. unfold mt_to_xml, make_operators in H. destruct O as [O|O]; rewrite O in H; cbn [truthy bindR] in H; injection H as <-; reflexivity. Qed.

(** The identifier of a journal is a URL, whose colon makes its comment a dictionary: the network cannot be read. *)
Theorem C112_a_journal_cannot_be_read : forall code s p, survey_ok s -> v_journal s = Some (txt "https://doi.org/" ++ p) -> ~ In ":"%char p ->
  trip code s = Err AttributeError.
Proof.
  intros code s p OK J P. pose proof OK as (NI & IC & NW & LD & _ & _ & _ & AQ & AC). unfold NetModel.trip, mt_to_xml.
  assert (MO : exists ops, make_operators s = Ok ops).
  { unfold make_operators. destruct (truthy (v_org s)) as [org|] eqn:O; [|eauto]. destruct (truthy (v_author s)) as [a|] eqn:A; [|eauto].
    destruct (v_email s) as [m|] eqn:M; [eauto|]. exfalso. apply LD; [rewrite O; discriminate|rewrite A; discriminate|exact M]. }
  destruct MO as (ops & MO). rewrite MO. cbn [bindR].
  unfold xml_to_mt. cbn [w_alternate w_code w_comments w_description w_identifiers w_operators if_given]. unfold set_id at 1. rewrite IC. cbn [bindR].
  set (s1 := mkSurvey (v_id s) (v_network new_survey) _ _ _ _ _ _ _ _ _ _ _ _ _).
  assert (E2 : exists s2, if_given (v_network s) set_network s1 = Ok s2).
  { destruct (v_network s) as [c|] eqn:C; [|eexists; reflexivity]. cbn [if_given]. unfold set_network. rewrite (NW c eq_refl). eexists. reflexivity. }
  destruct E2 as (s2 & E2). rewrite E2. cbn [bindR]. clear E2 s1.
  assert (E3 : take_comments url bar other show_dict (make_comments s) s2 = Err AttributeError); [|rewrite E3; reflexivity].
  unfold make_comments. rewrite comments_app.
  rewrite (note_taken _ _ _ _ _ _ (fun v => set_acquirer v s2)).
  2:{ intros v T. apply truthy_nonempty in T. apply acquirer_taken. apply AQ. exact (proj1 T). }
  cbn [bindR]. rewrite comments_app. set (t1 := match truthy (v_acquirer s) with Some v => set_acquirer v s2 | None => s2 end).
  rewrite (note_taken _ _ _ _ _ _ (fun v => mkSurvey (v_id t1) (v_network t1) (v_name t1) (v_summary t1) (v_comment t1) (v_doi t1) (v_author t1) (v_email t1) (v_org t1) (v_country t1)
          (v_place t1) (v_journal t1) (v_project t1) (v_acquirer t1) (Some v))).
  2:{ intros v T. apply truthy_nonempty in T. destruct (AC v (proj1 T)). apply acq_comment_taken; assumption. }
  cbn [bindR]. rewrite comments_app. set (t2 := match truthy (v_acq_comment s) with Some v => _ | None => t1 end).
  rewrite J. destruct (read_one (txt "mt.survey." ++ txt "citation_journal.doi") _ (journal_one p P)) as (d & R).
  unfold note. rewrite truthy_some by discriminate. cbn [take_comments]. unfold take_comment at 1. cbn [fst snd].
  match type of R with ?l = _ => match goal with |- context [bindR ?x _] => match x with context [bindR (read_comment ?a ?b) _] => change (read_comment a b) with l end end end.
  rewrite R. reflexivity.
Qed.

(** A survey needs an id or a code: without either its network is written but not read. *)
Theorem C112_a_name_is_needed : forall code s, v_id s = [] -> v_network s = None -> forall t, trip code s <> Ok t.
Proof.
  intros code s I N t. unfold NetModel.trip, mt_to_xml. destruct (make_operators s) as [ops|e]; [|discriminate]. cbn [bindR].
  unfold xml_to_mt. cbn [w_alternate w_code w_comments w_description w_identifiers w_operators if_given]. rewrite I, N. cbn [set_id forallb if_given bindR].
  assert (G : forall l s0, (forall c, In c l -> fst c <> None /\ forall u x, take_comment url bar other show_dict c u = Ok x -> v_id x = v_id u /\ v_network x = v_network u) ->
    forall x, take_comments url bar other show_dict l s0 = Ok x -> v_id x = v_id s0 /\ v_network x = v_network s0).
  { induction l as [|c l IH]; intros s0 H x X; [injection X as <-; split; reflexivity|]. cbn [take_comments] in X.
    destruct (take_comment url bar other show_dict c s0) as [y|e] eqn:E; [|discriminate X]. cbn [bindR] in X.
    destruct (proj2 (H c (or_introl eq_refl)) s0 y E) as [A B]. destruct (IH y (fun c' I' => H c' (or_intror I')) x X) as [C D]. rewrite C, D. split; assumption. }
  assert (K : forall key v u x, In key ["acquired_by.author"; "acquired_by.comments.value"; "citation_journal.doi"; "country"; "geographic_name"; "project"]%string ->
    take_comment url bar other show_dict (Some (txt "mt.survey." ++ txt key), v) u = Ok x -> v_id x = v_id u /\ v_network x = v_network u).
  { intros key v u x IK X. unfold take_comment in X. cbn [fst snd] in X. unfold read_comment in X. destruct (comment_value v) as [cv|e]; [|discriminate X]. cbn [bindR] in X.
    cbn [In] in IK. destruct IK as [<-|[<-|[<-|[<-|[<-|[<-|[]]]]]]].
    - destruct cv as [w|d]; [|discriminate X]. injection X as <-. split; reflexivity.
    - destruct cv as [w|d]; [|discriminate X]. change (set_acq_comment bar w u = Ok x) in X. unfold set_acq_comment in X. destruct (comment_text bar w); [|discriminate X]. injection X as <-. split; reflexivity.
    - destruct cv as [w|d]; [|discriminate X].
      assert (Y : exists w', set_journal url w' u = Ok x) by (eexists; exact X). destruct Y as (w' & Y). unfold set_journal in Y.
      destruct (validate_doi url w') as [dv|e]; [|discriminate Y]. injection Y as <-. split; reflexivity.
    - destruct cv as [w|d]; [|discriminate X]. injection X as <-. split; reflexivity.
    - destruct cv as [w|d]; [|discriminate X]. injection X as <-. split; reflexivity.
    - destruct cv as [w|d]; [|discriminate X]. injection X as <-. split; reflexivity. }
  assert (Q : forall key o c, In key ["acquired_by.author"; "acquired_by.comments.value"; "citation_journal.doi"; "country"; "geographic_name"; "project"]%string -> In c (note key o) ->
    fst c <> None /\ forall u x, take_comment url bar other show_dict c u = Ok x -> v_id x = v_id u /\ v_network x = v_network u).
  { intros key o c IK IC. unfold note in IC. destruct (truthy o) as [v|]; [|destruct IC]. destruct IC as [<-|[]]. split; [discriminate|]. intros u x. apply K. exact IK. }
  destruct (take_comments url bar other show_dict (make_comments s) _) as [s3|e] eqn:E; [|discriminate].
  apply G in E.
  2:{ intros c IC. unfold make_comments in IC. rewrite I in IC. cbn [note truthy] in IC. change (note "id" (Some [])) with (@nil (option text * text)) in IC.
      repeat (apply in_app_or in IC; destruct IC as [IC|IC]); try (eapply Q; [|exact IC]; cbn; tauto); try destruct IC.
      destruct (v_country s) as [[|c0 l]|]; try destruct IC as [<-|[]]; try destruct IC. split; [discriminate|]. intros u x. apply (K "country"%string). cbn; tauto. }
  destruct E as [A B]. cbn [bindR]. cbn in A, B. unfold set_summary. cbn [bindR]. unfold set_doi.
  destruct (validate_doi url _) as [dv|e]; [|discriminate]. cbn [bindR]. unfold set_name, read_operators, set_lead. cbn [bindR v_id v_network]. rewrite A, B. discriminate.
Qed.
End Props.

(** ** A concrete survey *)
Definition sample : survey :=
  mkSurvey (txt "EMT20") (Some (txt "ZU")) (txt "Eastern transect") (txt "Long period") (Some (txt "fine")) (Some (txt "https://doi.org/10.5066/P9"))
    (Some (txt "Kim")) (Some (txt "kim@mt.org")) (Some (txt "USGS")) (Some [txt "USA"; txt "Canada"]) (txt "Alaska") None (txt "MT array") (Some (txt "Lee")) (Some (txt "by boat")).
Example C112_hyp : survey_ok sample /\ v_journal sample = None /\ doi_ok (16 * (1 + 50)) sample /\
  back sample = mkSurvey (txt "EMT20") (Some (txt "ZU")) (txt "EMT20") (txt "Long period") None (Some (txt "https://doi.org/https://doi.org/10.5066/P9"))
    (Some (txt "Kim")) (Some (txt "kim@mt.org")) (Some (txt "USGS")) (Some [txt "USA"; txt "Canada"]) (txt "Alaska") None (txt "MT array") (Some (txt "Lee")) (Some (txt "by boat")).
Proof.
  assert (C : forall t, has_char ":" t = false -> carried t) by (intros t H; apply has_char_notIn; exact H).
  split; [|split; [reflexivity|split; [|reflexivity]]].
  - split; [discriminate|]. split; [reflexivity|]. split; [intros c H; injection H as <-; reflexivity|]. split; [intros _ _; discriminate|].
    split.
    { intros l H. injection H as <-. repeat (apply Forall_cons; [split; [reflexivity|split; [apply has_char_notIn; reflexivity|apply C; reflexivity]]|]). apply Forall_nil. }
    split; [apply C; reflexivity|]. split; [apply C; reflexivity|]. split; [intros a H; injection H as <-; apply C; reflexivity|].
    intros c H. injection H as <-. split; [apply C; reflexivity|apply has_char_notIn; reflexivity].
  - intros d H. injection H as <-. split; [reflexivity|]. split; [reflexivity|]. vm_compute. discriminate.
Qed.
Definition nameless : survey := mkSurvey [] None (txt "Eastern transect") [] None None None None None None [] None [] None None.
Example C112_nameless_hyp : v_id nameless = [] /\ v_network nameless = None. Proof. split; reflexivity. Qed.
Definition journalled : survey :=
  mkSurvey (txt "EMT20") None [] [] None None None None None None [] (Some (txt "https://doi.org/" ++ txt "10.1/j")) [] None None.
Example C112_journal_hyp : survey_ok journalled /\ ~ In ":"%char (txt "10.1/j").
Proof.
  split; [|apply has_char_notIn; reflexivity]. split; [discriminate|]. split; [reflexivity|]. split; [discriminate|]. split; [intros H _; exact (fun _ => H eq_refl)|].
  split; [discriminate|]. split; [intros []|]. split; [intros []|]. split; discriminate.
Qed.

Print Assumptions C112_a_survey_comes_back.
Print Assumptions C112_the_identifier_grows.
Print Assumptions C112_a_long_identifier_is_refused.
Print Assumptions C112_the_code_and_the_comment_are_ignored.
Print Assumptions C112_a_lead_needs_an_address.
Print Assumptions C112_a_lead_needs_an_organization.
Print Assumptions C112_a_journal_cannot_be_read.
Print Assumptions C112_a_name_is_needed.
