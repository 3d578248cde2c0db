(** C138: sections of an EMTF XML file that are written field by field. *)
From Verif Require Import PyBase PyText PyFacts TextFacts ValidatorsModel ValidatorsSpec ValidatorsProofs XmlModel XmlProofs EmtfModel EmtfSpec EmtfProofs LayModel LaySpec LayProofs EwsModel EwsSpec EwsProofs.
From Coq Require Import Lia.
Local Open Scope list_scope.

(** A section of fields that are None, texts or lists of texts: in a file, each field that is not None is found under its own name, in the
    order in which they were written. *)
Theorem C138_section class_ key fields d root : fields_back fields d -> Forall (fun f => field_name (fst f)) fields -> NoDup (map fst fields) -> d <> [] ->
  class_ <> txt "item" -> validate_attribute class_ = Ok key -> file_with key (section_xml class_ fields) root ->
  exists x y, read root = Ok x /\ conv x = Ok y /\ at_key key y = Ok (XDict d).
Proof.
  intros F T N NE CI CK FW. assert (T' : Forall (fun f => tag_back (fst f)) fields) by (eapply Forall_impl; [|exact T]; intros f; apply field_tag).
  destruct (section_read_back class_ fields d F T' N NE) as (x & R & I). exact (file_value key (section_xml class_ fields) root _ _ FW CI CK R I).
Qed.
(** There is such a result for every section of this kind. *)
Theorem C138_total fields : Forall (fun f => match snd f with VNone | VShown _ | VTexts _ => True | _ => False end) fields -> exists d, fields_back fields d.
Proof. apply back_total. Qed.
(** A section without a value is None in the file. *)
Theorem C138_empty class_ key fields root : fields_back fields [] -> class_ <> txt "item" -> validate_attribute class_ = Ok key ->
  file_with key (section_xml class_ fields) root -> exists x y, read root = Ok x /\ conv x = Ok y /\ at_key key y = Ok XNone.
Proof.
  intros F CI CK FW. assert (E : section_xml class_ fields = Elem class_ [] None []).
  { unfold section_xml. f_equal. remember [] as d eqn:D. clear -F D. induction F as [|n r d F IH|n r d F IH|n s v r d C F IH|n l v r d NL C F IH]; try discriminate D; [reflexivity| |]; cbn; now apply IH. }
  rewrite E in FW. exact (file_value key (Elem class_ [] None []) root XNone XNone FW CI CK eq_refl eq_refl).
Qed.
(** Objects in a field are written where the field is, one after the other. *)
Theorem C138_objects class_ before attr l after : section_xml class_ (before ++ (attr, VObjects l) :: after) =
  Elem class_ [] None (flat_map (fun av => write_field (fst av) (snd av)) before ++ l ++ flat_map (fun av => write_field (fst av) (snd av)) after) /\
  section_xml class_ (before ++ (attr, VNested l) :: after) = section_xml class_ (before ++ (attr, VObjects l) :: after).
Proof. unfold section_xml. rewrite !flat_map_app. split; reflexivity. Qed.
(** Refuted: a list of anything else is not written at all. *)
Theorem C138_others_refuted class_ before attr n after :
  section_xml class_ (before ++ (attr, VOthers n) :: after) = section_xml class_ (before ++ (attr, VNone) :: after).
Proof. unfold section_xml. now rewrite !flat_map_app. Qed.

(** Names of runs that say something, through the file and the check of the list of a site. *)
Theorem C138_runs l v : Forall run_name l -> l <> [] -> ~ says_nothing (join (txt " ") l) -> comes_back (join (txt " ") l) v -> run_list_read v = Ok l.
Proof.
  intros F N S C. inversion C as [s H E1 E2|s H E1 E2]; [contradiction|]. rewrite (joined_trimmed _ F N). unfold run_list_read. now rewrite (run_names_back l F N).
Qed.
(** No runs come back as no runs. *)
Theorem C138_no_runs : write_field (txt "run_list") (VTexts []) = [] /\ run_list_read XNone = Ok [].
Proof. split; reflexivity. Qed.
(** Refuted: names with a blank, a comma or brackets at the ends come back as others. *)
Theorem C138_runs_refuted : exists l1 l2 l3 : list text, (forall l, In l [l1; l2; l3] -> exists v l', comes_back (join (txt " ") l) v /\ run_list_read v = Ok l' /\ l' <> l) /\
  join (txt " ") l1 = join (txt " ") [txt "mt01"; txt "a"].
Proof.
  exists [txt "mt01 a"], [txt "a,b"; txt "c"], [txt "[a]"]. split; [|reflexivity]. intros l [<-|[<-|[<-|[]]]]; eexists; eexists; (split; [apply back_text; apply (not_iff_compat (null_in _)); vm_compute; discriminate|]);
    (split; [vm_compute; reflexivity|discriminate]).
Qed.

(** Attachments: two or more come back one by one, after those that the object had; one is the object itself. *)
Theorem C138_attachments a p1 p2 ps qs : Forall2 kept_both (p1 :: p2 :: ps) qs ->
  read_elements a (att_elements (mkAtt [] [] (p1 :: p2 :: ps))) = Ok (mkAtt (a_file a) (a_desc a) (a_more a ++ qs)).
Proof. apply several_read. Qed.
Theorem C138_attachment a f s f' s' : kept f f' -> kept s s' -> read_elements a (att_elements (mkAtt f s [])) = Ok (mkAtt f' s' (a_more a)).
Proof. intros K1 K2. exact (one_read a (f, s) (f', s') (conj K1 K2)). Qed.
(** So a new object that read what an object wrote writes the same, if no text has white space around it or says nothing. *)
Theorem C138_attachments_again a : List.length (a_more a) <> 1 ->
  Forall (fun p => kept_both p p) ((a_file a, a_desc a) :: a_more a) -> exists b, read_elements new_att (att_elements a) = Ok b /\ att_elements b = att_elements a.
Proof.
  intros L F. inversion F as [|? ? [F1 F2] F3]; subst. destruct a as [f s [|p1 [|p2 ps]]]; cbn [a_file a_desc a_more fst snd List.length] in *; [|congruence|].
  - eexists. split; [exact (one_read new_att (f, s) (f, s) (conj F1 F2))|]. reflexivity.
  - eexists. split; [apply (several_read new_att ps (p1 :: p2 :: ps))|reflexivity]. clear -F3. induction F3; constructor; assumption.
Qed.
(** Refuted: reading the file once more doubles them, and after a file with one attachment those of the file before are still written. *)
Theorem C138_twice_refuted p1 p2 ps : Forall (fun p => kept_both p p) (p1 :: p2 :: ps) ->
  exists b c, read_elements new_att (map att_xml (p1 :: p2 :: ps)) = Ok b /\ read_elements b (map att_xml (p1 :: p2 :: ps)) = Ok c /\
    att_elements c = map att_xml ((p1 :: p2 :: ps) ++ (p1 :: p2 :: ps)).
Proof.
  intros F. assert (F2 : Forall2 kept_both (p1 :: p2 :: ps) (p1 :: p2 :: ps)) by (induction F; constructor; assumption).
  do 2 eexists. split; [exact (several_read new_att ps _ p1 p2 F2)|]. split; [exact (several_read _ ps _ p1 p2 F2)|]. reflexivity.
Qed.
Theorem C138_stale_refuted b p q : kept_both p q -> a_more b <> [] -> exists c, read_elements b [att_xml p] = Ok c /\ att_elements c = att_elements b.
Proof. intros K N. eexists. split; [exact (one_read b p q K)|]. unfold att_elements. cbn [a_more]. destruct (a_more b); [contradiction|reflexivity]. Qed.

(** The remote site: the first time, its site is written if it has a name, and its field notes if they are not to be skipped. *)
Theorem C138_remote skip id : exists o, writes [(skip, id)] = [o] /\ (In PSite o <-> ~ unnamed id) /\ (In PNotes o <-> skip = false).
Proof.
  exists (write_remote first_order skip id). split; [reflexivity|]. assert (N : NoDup first_order) by (constructor; [intros [K|[]]; discriminate K|constructor; [intros []|constructor]]).
  rewrite (proj2 (write_remote_in _ skip id PSite N)), (proj2 (write_remote_in _ skip id PNotes N)). cbn [first_order In]. split; split; intuition congruence.
Qed.
(** Refuted: later, only if that was so in every call before. *)
Theorem C138_remote_refuted calls skip id : exists before last, writes (calls ++ [(skip, id)]) = before ++ [last] /\ List.length before = List.length calls /\
  (In PSite last <-> Forall (fun c => ~ unnamed (snd c)) (calls ++ [(skip, id)])) /\ (In PNotes last <-> Forall (fun c => fst c = false) (calls ++ [(skip, id)])).
Proof.
  assert (N : NoDup first_order) by (constructor; [intros [K|[]]; discriminate K|constructor; [intros []|constructor]]).
  destruct (write_again_last calls skip id first_order) as (b & l & E & L & H). exists b, l. split; [exact E|]. split; [exact L|]. destruct (H N) as [_ Q]. rewrite !Q. cbn [first_order In]. split; split; intuition congruence.
Qed.

(** Concrete cases. *)
Definition fs : list (text * fval) := [(txt "title", VShown (txt " A title ")); (txt "authors", VNone); (txt "year", VShown (txt "None")); (txt "survey_d_o_i", VShown (txt "10.1")); (txt "run_list", VTexts [txt "a"; txt "b"])].
Definition ds : list (text * xval) := [(txt "title", XText (txt "A title")); (txt "year", XNone); (txt "survey_d_o_i", XText (txt "10.1")); (txt "run_list", XText (txt "a b"))].
Lemma lower_word w : w <> [] -> forallb is_lower w = true -> word w.
Proof. intros N F. exists w, []. rewrite app_nil_r. split; [reflexivity|]. split; [exact N|]. split; [apply Forall_forall; intros c I; rewrite forallb_forall in F; now apply F|constructor]. Qed.
Example C138_section_hyp : fields_back fs ds /\ Forall (fun f => field_name (fst f)) fs /\ NoDup (map fst fs) /\
  file_with (txt "citation") (section_xml (txt "Citation") fs) (Elem (txt "EM_TF") [] None [Elem (txt "Tags") [] (Some (txt "x")) []; remove_null (section_xml (txt "Citation") fs)]).
Proof.
  split; [|split; [|split]].
  - apply fb_text; [exact (back_text (txt " A title ") (fun H => ltac:(apply null_in in H; vm_compute in H; discriminate H)))|]. apply fb_none.
    apply fb_text; [apply back_none; apply null_in; reflexivity|]. apply fb_text; [exact (back_text (txt "10.1") (fun H => ltac:(apply null_in in H; vm_compute in H; discriminate H)))|].
    apply fb_texts; [discriminate| |constructor]. exact (back_text (txt "a b") (fun H => ltac:(apply null_in in H; vm_compute in H; discriminate H))).
  - unfold fs. repeat (apply Forall_cons; [|]); [exists [txt "title"]|exists [txt "authors"]|exists [txt "year"]|exists (map txt ["survey"; "d"; "o"; "i"]%string)|exists (map txt ["run"; "list"]%string)|constructor];
      (split; [discriminate|split; [|reflexivity]]); repeat (apply Forall_cons; [apply lower_word; [discriminate|reflexivity]|]); constructor.
  - cbn [fs map fst]. repeat (constructor; [cbn [In]; intros K; repeat (destruct K as [K|K]; [discriminate K|]); exact K|]). constructor.
  - split; [|eexists; eexists; split; vm_compute; reflexivity].
    eexists (txt "EM_TF"), None, [_], _, []. split; [reflexivity|]. split; [discriminate|]. split; [constructor; [|constructor]|split; [constructor|]].
    + split; [discriminate|]. split; [discriminate|]. vm_compute. discriminate.
    + apply spaced_node; [discriminate| |discriminate]. cbn. repeat (constructor; [apply spaced_leaf|]). constructor.
Qed.
Example C138_runs_hyp : Forall run_name [txt "mt01a"; txt "mt01b"] /\ ~ says_nothing (join (txt " ") [txt "mt01a"; txt "mt01b"]).
Proof.
  split; [|intros H; apply null_in in H; vm_compute in H; discriminate H]. constructor; [|constructor; [|constructor]]; (split; [discriminate|]);
    repeat (constructor; [split; [reflexivity|intros K; repeat (destruct K as [K|K]; [discriminate K|]); exact K]|]); constructor.
Qed.
Example C138_attachments_hyp : kept_both (txt "a.zmm", txt "") (txt "a.zmm", txt "") /\ kept_both (txt " b.zmm", txt "none") (txt "b.zmm", txt "").
Proof.
  split; (split; [right; split; [intros H; apply null_in in H; vm_compute in H; discriminate H|reflexivity]|left; split; [apply null_in; reflexivity|reflexivity]]).
Qed.
Example C138_remote_hyp : writes [(false, Some (txt "mt02")); (true, Some []); (false, Some (txt "mt02"))] = [[PSite; PNotes]; []; []].
Proof. reflexivity. Qed.
Print Assumptions C138_section. Print Assumptions C138_runs. Print Assumptions C138_attachments_again. Print Assumptions C138_remote_refuted.
