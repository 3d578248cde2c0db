(** C37: enumerated texts.  C73: licences. *)
From Verif Require Import PyBase PyFacts PyText TextFacts EnumModel EnumSpec EnumProofs LicenseData.

(* ================================================================ C37 *)

(** A case variant of a member counts as that member, in every enumeration of the package. *)
Theorem C37_case_variant :
  forall members m s, In members enumerations -> In m members -> case_variant s m ->
  validate_enum members (EText s) = Ok m.
Proof.
  intros members m s E M C. apply case_variant_lower in C.
  assert (N : NoDup (map lower members)).
  { apply nodupb_NoDup. pose proof enumerations_distinct as D. rewrite forallb_forall in D. now apply D. }
  unfold validate_enum, normalize_case. rewrite (find_unique s m members N M C). cbn [bindR].
  apply existsb_text in M. now rewrite M.
Qed.
Example C37_case_variant_hyp :
  exists members, In members enumerations /\ In (txt "BBMT_TF") members /\ case_variant (txt "bbMt_tF") (txt "BBMT_TF").
Proof.
  eexists. split; [do 3 right; left; reflexivity|]. split; [cbn; tauto|]. apply case_variant_lower. vm_compute. reflexivity.
Qed.
(** What is accepted is a member, and a case variant of what was given; it is accepted again unchanged. *)
Theorem C37_accepted :
  forall members s m, validate_enum members (EText s) = Ok m ->
  In m members /\ case_variant s m /\ validate_enum members (EText m) = Ok m
  /\ validate_enum members (EMember m) = Ok m.
Proof.
  intros members s m H. unfold validate_enum, normalize_case in H.
  destruct (List.find (matches s) members) as [x|] eqn:F; [|discriminate]. cbn [bindR] in H.
  destruct (existsb (text_eqb x) members) eqn:I; [|discriminate]. injection H as ->.
  pose proof (find_some _ _ F) as (I' & E). unfold matches in E. apply text_eqb_eq in E.
  split; [assumption|]. split; [now apply case_variant_lower|].
  assert (F2 : List.find (matches m) members = Some m).
  { rewrite <- F. apply find_ext'. intros y. unfold matches. now rewrite E. }
  unfold validate_enum, normalize_case. rewrite F2. cbn [bindR]. now rewrite I.
Qed.
(** Everything else is refused. *)
Theorem C37_others_refused :
  forall members s, (forall m, In m members -> ~ case_variant s m) -> validate_enum members (EText s) = Err ValueError.
Proof.
  intros members s H. unfold validate_enum, normalize_case.
  destruct (List.find (matches s) members) as [x|] eqn:F; [|reflexivity].
  apply find_some in F. destruct F as (I & E). unfold matches in E. apply text_eqb_eq in E.
  exfalso. apply (H x I). now apply case_variant_lower.
Qed.
Example C37_others_refused_hyp : forall m, In m [txt "yes"; txt "no"] -> ~ case_variant (txt "yes ") m.
Proof. intros m [<-|[<-|[]]] C; apply case_variant_lower in C; discriminate. Qed.
Theorem C37_not_a_text : forall members, validate_enum members ENone = Err ValueError /\ validate_enum members EOther = Err TypeError.
Proof. intros. split; reflexivity. Qed.

(** Refuted as stated for geomagnetic models: a case variant is accepted but kept as it was given, and any
    text after a "-" is accepted. *)
Theorem C37_geomagnetic_kept :
  forall s m, validate_geomagnetic (EText s) = Ok m -> m = s.
Proof.
  intros s m H. cbn [validate_geomagnetic] in H. destruct (split_on "-" (lower s)); [discriminate|]. destruct (existsb _ _); [|discriminate].
  now injection H.
Qed.
Theorem C37_geomagnetic_accepts :
  forall s m r, In m geomagnetic_models -> case_variant s m -> validate_geomagnetic (EText (s ++ "-"%char :: r)) = Ok (s ++ "-"%char :: r)
  /\ validate_geomagnetic (EText s) = Ok s.
Proof.
  intros s m r I C. apply case_variant_lower in C.
  assert (N : ~ In "-"%char (lower s)).
  { rewrite C. cbn [In geomagnetic_models] in I. repeat (destruct I as [<-|I]; [vm_compute; intuition discriminate|]). destruct I. }
  assert (L : existsb (text_eqb (lower s)) (map lower geomagnetic_models) = true).
  { apply existsb_text. rewrite C. now apply in_map. }
  cbn [validate_geomagnetic]. split.
  - rewrite lower_app. change (lower ("-"%char :: r)) with ("-"%char :: lower r). rewrite split_on_app by assumption. now rewrite L.
  - rewrite split_on_no by assumption. now rewrite L.
Qed.
Theorem C37_geomagnetic_refuted :
  validate_geomagnetic (EText (txt "igrf")) = Ok (txt "igrf") /\ ~ In (txt "igrf") geomagnetic_models
  /\ validate_geomagnetic (EText (txt "WMM-of mine")) = Ok (txt "WMM-of mine").
Proof.
  split; [vm_compute; reflexivity|]. split; [|vm_compute; reflexivity].
  intros I. repeat (destruct I as [I|I]; [discriminate|]). destruct I.
Qed.

(* ================================================================ C73 *)

Lemma license_ids_distinct : distinct_spellings license_ids.
Proof.
  assert (N : NoDup (map license_name license_ids)) by (apply nodupb_NoDup; vm_compute; reflexivity).
  assert (D : NoDup license_ids) by (eapply NoDup_map_inv; exact N).
  split; [|split; [assumption|split]].
  - intros i j I J S. apply same_spelling_name in S.
    revert I J S. generalize i j. clear i j.
    assert (G : forall l, NoDup (map license_name l) -> forall i j, In i l -> In j l -> license_name i = license_name j -> i = j).
    { induction l as [|x l IH]; intros Nx i j I J E; [destruct I|]. cbn in Nx. inversion Nx as [|? ? N1 N2]; subst.
      destruct I as [->|I]; destruct J as [->|J]; auto.
      - exfalso. apply N1. rewrite E. now apply in_map.
      - exfalso. apply N1. rewrite <- E. now apply in_map. }
    now apply G.
  - intros i b I B S. apply same_spelling_name in S.
    assert (C : forallb (fun i => negb (existsb (text_eqb (license_name i)) (map fst base_licenses))) license_ids = true) by (vm_compute; reflexivity).
    rewrite forallb_forall in C. specialize (C i I). apply negb_true_iff in C.
    assert (K : In (license_name i) (map fst base_licenses)); [|apply existsb_text in K; congruence].
    rewrite S, base_names_of. apply in_map. cbn [In] in *. tauto.
  - intros I. assert (C : existsb (text_eqb []) license_ids = false) by (vm_compute; reflexivity).
    apply existsb_text in I. congruence.
Qed.

Lemma member_lookup ids k x : distinct_spellings ids ->
  dget text_dec k (license_members ids) = Some x <->
  (In (k, x) base_licenses \/ (In x ids /\ k = license_name x)).
Proof.
  intros D. assert (N : NoDup (dkeys (license_members ids))).
  { unfold license_members. now apply NoDup_dupdate, NoDup_dupdate; constructor. }
  rewrite (license_members_eq ids D) in *. split.
  - intros H. apply dget_In in H. apply in_app_or in H. destruct H as [H|H]; [now left|right].
    apply in_map_iff in H. destruct H as (i & E & I). injection E as <- <-. auto.
  - intros H. apply In_dget; [assumption|]. apply in_or_app. destruct H as [H|(I & ->)]; [now left|right].
    apply in_map_iff. now exists x.
Qed.
Lemma license_of ids s x : distinct_spellings ids -> s <> [] ->
  validate_license ids (EText s) = Ok x <-> (In (license_name s, x) base_licenses \/ (In x ids /\ same_spelling s x)).
Proof.
  intros D N. unfold validate_license, before_license.
  destruct (text_eqb s []) eqn:E; [apply text_eqb_eq in E; congruence|].
  rewrite same_spelling_name. rewrite <- (member_lookup ids (license_name s) x D).
  destruct (dget text_dec (license_name s) (license_members ids)) as [y|] eqn:G; cbn [bindR].
  - assert (I : existsb (text_eqb y) (dvals (license_members ids)) = true).
    { apply existsb_text. apply dget_In in G. unfold dvals. change y with (snd (license_name s, y)). now apply in_map. }
    rewrite I. split; congruence.
  - split; discriminate.
Qed.

Lemma no_default : existsb (text_eqb default_license) license_ids = false.
Proof. vm_compute. reflexivity. Qed.
Lemma unset_refused_gen ids : distinct_spellings ids -> existsb (text_eqb default_license) ids = false ->
  validate_license ids ENone = Err ValueError /\ validate_license ids (EText []) = Err ValueError.
Proof.
  intros D N.
  assert (E : existsb (text_eqb default_license) (dvals (license_members ids)) = false).
  { rewrite (license_members_eq _ D). unfold dvals. rewrite map_app, map_map, existsb_app. cbn [snd].
    rewrite map_id, N. reflexivity. }
  unfold validate_license, before_license. rewrite text_eqb_refl. cbn [bindR]. rewrite E. split; reflexivity.
Qed.
Lemma unset_refused : validate_license license_ids ENone = Err ValueError /\ validate_license license_ids (EText []) = Err ValueError.
Proof. exact (unset_refused_gen license_ids license_ids_distinct no_default). Qed.
Lemma unknown_name ids s : distinct_spellings ids -> existsb (fun i => text_eqb (license_name i) (license_name s)) ids = false ->
  ~ In (license_name s) (map fst base_licenses) -> s <> [] -> ~ In (license_name s) [txt "open"; txt "closed"; txt "partial"] ->
  validate_license ids (EText s) = Err ValueError /\ status_of ids s = Err KeyError.
Proof.
  intros D N B S O.
  assert (U : dget text_dec (license_name s) (license_members ids) = None).
  { destruct (dget text_dec (license_name s) (license_members ids)) as [x|] eqn:E; [|reflexivity]. exfalso.
    apply (member_lookup _ _ _ D) in E. destruct E as [E|(I & E)].
    - apply B. change (license_name s) with (fst (license_name s, x)). now apply in_map.
    - assert (C : existsb (fun i => text_eqb (license_name i) (license_name s)) ids = true).
      { apply existsb_exists. exists x. split; [assumption|]. apply text_eqb_eq. congruence. }
      congruence. }
  split.
  - unfold validate_license, before_license. destruct (text_eqb s []) eqn:E; [apply text_eqb_eq in E; congruence|].
    now rewrite U.
  - unfold status_of, release_dict. rewrite dget_dupdate.
    destruct (dget option_text_dec (Some (license_name s)) (rev _)) as [y|] eqn:F.
    + exfalso. apply dget_In in F. rewrite <- in_rev in F. apply in_map_iff in F. destruct F as ((k & v) & F & I). cbn [fst] in F.
      injection F as F _. apply dget_None in U. apply U. unfold dkeys. rewrite <- F. change k with (fst (k, v)). now apply in_map.
    + cbn [dget]. cbn [In] in O.
      destruct (option_text_dec (Some (license_name s)) None); [discriminate|].
      destruct (option_text_dec (Some (license_name s)) (Some (txt "open"))) as [E|_]; [injection E as E; exfalso; apply O; left; symmetry; exact E|].
      destruct (option_text_dec (Some (license_name s)) (Some (txt "closed"))) as [E|_]; [injection E as E; exfalso; apply O; right; left; symmetry; exact E|].
      destruct (option_text_dec (Some (license_name s)) (Some (txt "partial"))) as [E|_]; [injection E as E; exfalso; apply O; do 2 right; left; symmetry; exact E|].
      reflexivity.
Qed.
Lemma no_nc_sa : existsb (fun i => text_eqb (license_name i) (license_name (txt "CC BY-NC-SA"))) license_ids = false.
Proof. vm_compute. reflexivity. Qed.
(** Every licence of the list is accepted in every spelling (separators may be exchanged) and stored under
    its identifier. *)
Theorem C73_every_spelling :
  forall i s, In i license_ids -> same_spelling s i -> validate_license license_ids (EText s) = Ok i.
Proof.
  intros i s I S. apply license_of; [exact license_ids_distinct| |now right].
  intros ->. inversion S; subst. destruct license_ids_distinct as (_ & _ & _ & D). contradiction.
Qed.
(** The same for any other list of licences with distinct spellings. *)
Theorem C73_every_spelling_of_any_list :
  forall ids i s, distinct_spellings ids -> In i ids -> same_spelling s i -> validate_license ids (EText s) = Ok i.
Proof.
  intros ids i s D I S. apply license_of; [assumption| |now right].
  intros ->. inversion S; subst. destruct D as (_ & _ & _ & D). contradiction.
Qed.
(** What is accepted is a licence of the list or one of the short names, and is accepted again unchanged,
    "CC BY-NC-SA" apart. *)
Theorem C73_accepted_again_partial :
  forall s x, validate_license license_ids (EText s) = Ok x -> x <> txt "CC BY-NC-SA" ->
  (In x license_ids \/ In x [txt "CC0"; txt "CC BY"; txt "CC BY-SA"; txt "CC BY-NC"; txt "CC BY-ND"; txt "CC BY-NC-ND"])
  /\ validate_license license_ids (EText x) = Ok x.
Proof.
  intros s x H N.
  assert (S : s <> []) by (intros ->; rewrite (proj2 unset_refused) in H; discriminate).
  apply license_of in H; [|exact license_ids_distinct|assumption].
  destruct H as [H|(I & _)].
  - assert (K : In x [txt "CC0"; txt "CC BY"; txt "CC BY-SA"; txt "CC BY-NC"; txt "CC BY-ND"; txt "CC BY-NC-ND"]).
    { unfold base_licenses in H. cbn [In] in *. repeat (destruct H as [H|H]; [apply (f_equal snd) in H; cbn [snd] in H; subst x; tauto|]). destruct H. }
    split; [now right|]. cbn [In] in K. apply license_of; [exact license_ids_distinct| |left].
    + intros ->. repeat (destruct K as [K|K]; [discriminate|]). destruct K.
    + repeat (destruct K as [<-|K]; [vm_compute; tauto|]). destruct K.
  - split; [now left|]. apply C73_every_spelling; [assumption|]. apply same_spelling_name. reflexivity.
Qed.
Example C73_hyp :
  In (txt "CC-BY-4.0") license_ids /\ same_spelling (txt "CC BY 4.0") (txt "CC-BY-4.0")
  /\ validate_license license_ids (EText (txt "CC BY 4.0")) = Ok (txt "CC-BY-4.0")
  /\ validate_license license_ids (EText (txt "CC_BY SA")) = Ok (txt "CC BY-SA").
Proof.
  assert (I : In (txt "CC-BY-4.0") license_ids) by (apply existsb_text; vm_compute; reflexivity).
  assert (S : same_spelling (txt "CC BY 4.0") (txt "CC-BY-4.0")) by (apply same_spelling_name; vm_compute; reflexivity).
  split; [exact I|]. split; [exact S|]. split; [now apply C73_every_spelling|].
  apply license_of; [exact license_ids_distinct|discriminate|]. left. cbn [base_licenses In]. do 3 right. left. reflexivity.
Qed.
(** Any other text is refused. *)
Theorem C73_others_refused :
  forall s, s <> [] -> (forall i, In i license_ids -> ~ same_spelling s i) ->
  (forall b, In b [txt "CC0"; txt "CC-0"; txt "CC BY"; txt "CC BY-SA"; txt "CC BY-NC"; txt "CC BY-NA-SA"; txt "CC BY-ND"; txt "CC BY-NC-ND"] -> ~ same_spelling s b) ->
  validate_license license_ids (EText s) = Err ValueError.
Proof.
  intros s N A B. unfold validate_license, before_license.
  destruct (text_eqb s []) eqn:E; [apply text_eqb_eq in E; congruence|].
  destruct (dget text_dec (license_name s) (license_members license_ids)) as [y|] eqn:G; [|reflexivity]. exfalso.
  apply (member_lookup _ _ _ license_ids_distinct) in G. destruct G as [G|(I & G)].
  - assert (K : In (license_name s) (map fst base_licenses)) by (change (license_name s) with (fst (license_name s, y)); now apply in_map).
    rewrite base_names_of in K. apply in_map_iff in K. destruct K as (b & E' & K).
    apply (B b); [cbn [In] in *; tauto|]. apply same_spelling_name. congruence.
  - apply (A y I). now apply same_spelling_name.
Qed.
(** Refuted: "CC BY-NC-SA" is stored when "CC BY-NA-SA" is given, but is refused itself, so an object that
    has it cannot be read back; and leaving the licence out (None or "") is refused because the default that
    is put in, "CC BY 4.0", is not a value of the enumeration. *)
Theorem C73_nc_sa_refuted :
  validate_license license_ids (EText (txt "CC BY-NA-SA")) = Ok (txt "CC BY-NC-SA")
  /\ validate_license license_ids (EText (txt "CC BY-NC-SA")) = Err ValueError
  /\ status_of license_ids (txt "CC BY-NC-SA") = Err KeyError.
Proof.
  split.
  - apply license_of; [exact license_ids_distinct|discriminate|]. left. cbn [base_licenses In]. do 5 right. left. reflexivity.
  - apply unknown_name; [exact license_ids_distinct|exact no_nc_sa| |discriminate|].
    + intros I. apply existsb_text in I. vm_compute in I. discriminate.
    + intros I. apply existsb_text in I. vm_compute in I. discriminate.
Qed.
Theorem C73_unset_refuted :
  validate_license license_ids ENone = Err ValueError /\ validate_license license_ids (EText []) = Err ValueError.
Proof. exact unset_refused. Qed.

(** The release status written for a licence of the list is the one its words call for. *)
Lemma status_lookup ids i : distinct_spellings ids -> In i ids -> status_of ids i = Ok (release_status (license_name i)).
Proof.
  intros D I. unfold status_of, release_dict. rewrite dget_dupdate.
  set (ps := map _ (license_members ids)).
  assert (N : NoDup (dkeys (rev ps))).
  { unfold dkeys. rewrite map_rev. apply NoDup_rev. unfold ps. rewrite map_map. cbn [fst].
    rewrite <- (map_map fst Some). apply FinFun.Injective_map_NoDup; [intros x y E; now injection E|].
    change (NoDup (dkeys (license_members ids))). unfold license_members. now apply NoDup_dupdate, NoDup_dupdate; constructor. }
  assert (G : dget option_text_dec (Some (license_name i)) (rev ps) = Some (release_status (license_name i))).
  { apply In_dget; [assumption|]. rewrite <- in_rev. unfold ps. apply in_map_iff. exists (license_name i, i). split; [reflexivity|].
    rewrite (license_members_eq ids D). apply in_or_app. right. apply in_map_iff. now exists i. }
  now rewrite G.
Qed.
Theorem C73_release_status :
  forall i, In i license_ids -> status_of license_ids i = Ok (called_for i).
Proof.
  intros i I. rewrite (status_lookup _ i license_ids_distinct I). f_equal.
  assert (C : forallb (fun i => text_eqb (release_status (license_name i)) (called_for i)) license_ids = true) by (vm_compute; reflexivity).
  rewrite forallb_forall in C. specialize (C i I). now apply text_eqb_eq in C.
Qed.
Example C73_release_status_hyp :
  called_for (txt "CC-BY-NC-ND-4.0") = txt "closed" /\ called_for (txt "CC-BY-4.0") = txt "open"
  /\ called_for (txt "CC-BY-SA-4.0") = txt "partial" /\ called_for (txt "MIT") = txt "partial".
Proof. repeat split; vm_compute; reflexivity. Qed.

Print Assumptions C37_case_variant.
Print Assumptions C73_accepted_again_partial.
Print Assumptions C73_release_status.
