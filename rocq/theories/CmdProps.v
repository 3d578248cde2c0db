(** C130: comments given as dictionaries and written to XML. *)
From Verif Require Import PyBase PyFacts PyText TextFacts MTimeModel MTimeSpec IsoModel ContainerModel XmlModel CommentModel CommentSpec CommentProofs CmdModel CmdSpec CmdProofs.
From Coq Require Import Lia.
Local Open Scope list_scope.

(** A dictionary of at least two keys, or any dictionary under a single key: the comment has the time, author and text that it says, none for
    the keys it does not have; nothing of the former comment remains, and other keys do not matter. *)
Theorem C130_dictionary : forall read d m tv av vv t a w, dictionary d -> no_bar (value m) ->
  says d (txt "time_stamp") tv -> says d (txt "author") av -> says d (txt "value") vv ->
  read tv = Some t -> names av a -> tells vv w -> no_bar w ->
  (2 <= length d -> from_dict read (XDict d) m = Ok (mkComment a t w)) /\
  (forall k, from_dict read (XDict [(k, XDict d)]) m = Ok (mkComment a t w)).
Proof.
  intros read d m tv av vv t a w D N ST SA SV T A W B.
  assert (E : take read d m = Ok (mkComment a t w)).
  { rewrite (take_eq read d m tv av vv t a w) by assumption. now apply set_no_bar. }
  split; [|intros k; exact E]. intros L. destruct d as [|kv [|kv' d]]; cbn in L; try lia. now rewrite two_keys.
Qed.
Definition some_dict : list (text * xval) :=
  [(txt "value", XList [XText (txt " calm "); XNum (txt "3"); XText (txt "dry")]); (txt "weather", XNone); (txt "author", XText (txt "KK"))].
Example C130_dictionary_hyp : dictionary some_dict /\ 2 <= length some_dict /\ says some_dict (txt "time_stamp") XNone /\
  says some_dict (txt "author") (XText (txt "KK")) /\ iso_value XNone = Some default_time /\
  from_dict iso_value (XDict some_dict) (mkComment None 0 None) = Ok (mkComment (Some (txt "KK")) default_time (Some (txt "calm,dry"))).
Proof.
  split; [|split; [cbn; lia|split; [right; split; [cbn; intuition discriminate|reflexivity]|split; [left; cbn; auto|split; [reflexivity|vm_compute; reflexivity]]]]].
  unfold dictionary. cbn. repeat constructor; cbn; intuition discriminate.
Qed.

(** If the time, the author or the text that the dictionary says is none, it is refused. *)
Theorem C130_dictionary_refused : forall read d m tv av vv, dictionary d -> no_bar (value m) ->
  says d (txt "time_stamp") tv -> says d (txt "author") av -> says d (txt "value") vv ->
  read tv = None \/ (forall a, ~ names av a) \/ (forall w, ~ tells vv w) ->
  (2 <= length d -> exists e, from_dict read (XDict d) m = Err e) /\
  (forall k, exists e, from_dict read (XDict [(k, XDict d)]) m = Err e).
Proof.
  intros read d m tv av vv D N ST SA SV H.
  pose proof (take_refuses read d m tv av vv D N ST SA SV H) as E.
  split; [|intros k; exact E]. intros L. destruct d as [|kv [|kv' d]]; cbn in L; try lia. now rewrite two_keys.
Qed.
Example C130_dictionary_refused_hyp : iso_value (XText (txt "yesterday")) = None /\ (forall w, ~ tells (XNum (txt "3")) w).
Proof. split; [vm_compute; reflexivity|intros w H; inversion H]. Qed.

(** A text with three parts between bars gives time and author, whatever else the dictionary says of them. *)
Theorem C130_bars : forall read d m tv av t0 a0 p q s t, dictionary d -> no_bar (value m) ->
  says d (txt "time_stamp") tv -> says d (txt "author") av -> read tv = Some t0 -> names av a0 ->
  In (txt "value", XText (p ++ txt "|" ++ q ++ txt "|" ++ s)) d ->
  ~ In "|"%char p -> ~ In "|"%char q -> ~ In "|"%char s -> read (XText (strip p)) = Some t ->
  (2 <= length d -> from_dict read (XDict d) m = Ok (mkComment (Some (strip q)) t (Some (strip s)))) /\
  (forall k, from_dict read (XDict [(k, XDict d)]) m = Ok (mkComment (Some (strip q)) t (Some (strip s)))).
Proof.
  intros read d m tv av t0 a0 p q s t D N ST SA T A V P Q S R.
  assert (E : take read d m = Ok (mkComment (Some (strip q)) t (Some (strip s)))).
  { rewrite (take_eq read d m tv av _ t0 a0 _ D N ST SA (or_introl V) T A (tells_text _)).
    now apply (set_three _ _ p q s t). }
  split; [|intros k; exact E]. intros L. destruct d as [|kv [|kv' d]]; cbn in L; try lia. now rewrite two_keys.
Qed.
Example C130_bars_hyp : iso_value (XText (strip (txt "2020-01-15T12:30:45+00:00 "))) = Some 1579091445000000000%Z.
Proof. vm_compute. reflexivity. Qed.

(** A text, or a text under a single key: the text is replaced; author and time stay. *)
Theorem C130_text : forall read m s, ~ In "|"%char s ->
  from_dict read (XText s) m = Ok (mkComment (author m) (stamp m) (Some s)) /\
  (forall k, from_dict read (XDict [(k, XText s)]) m = Ok (mkComment (author m) (stamp m) (Some s))).
Proof.
  intros read m s B.
  assert (E : assign_value read (XText s) m = Ok (mkComment (author m) (stamp m) (Some s))).
  { apply assign_value_ok; [constructor|]. intros x F. now injection F as <-. }
  now split.
Qed.
Example C130_text_hyp : ~ In "|"%char (txt "calm").
Proof. cbn. intuition discriminate. Qed.
(** Everything that is neither a text nor a dictionary is refused, and an empty dictionary changes nothing. *)
Theorem C130_other : forall read m,
  from_dict read XNone m = Err TypeError /\ (forall s, from_dict read (XNum s) m = Err TypeError) /\
  (forall l, from_dict read (XList l) m = Err TypeError) /\ from_dict read (XDict []) m = Ok m.
Proof. repeat split. Qed.
(** Whatever is read, no text has a bar afterwards (so that [as_string] can be read again, C31). *)
Theorem C130_no_bar : forall read v m m', no_bar (value m) -> from_dict read v m = Ok m' -> no_bar (value m').
Proof. exact from_dict_no_bar. Qed.
Example C130_no_bar_hyp : exists m', from_dict iso_value (XText (txt "KK | a | b | c")) (mkComment None 0 None) = Ok m' /\ value m' = Some (txt "c").
Proof. eexists. split; [vm_compute; reflexivity|reflexivity]. Qed.

(** A single key says nothing about its name: an author alone becomes the text of the comment. *)
Theorem C130_lone_author_refuted : forall read m k s, ~ In "|"%char s ->
  from_dict read (XDict [(k, XText s)]) m = Ok (mkComment (author m) (stamp m) (Some s)) /\
  (k = txt "author" -> author m <> Some s ->
   exists m', from_dict read (XDict [(k, XText s)]) m = Ok m' /\ author m' <> Some s /\ value m' = Some s).
Proof.
  intros read m k s B. pose proof (proj2 (C130_text read m s B) k) as E. split; [exact E|]. intros _ H.
  eexists. split; [exact E|]. now split.
Qed.
(** A list alone is ignored without an error, although a list with other keys is taken. *)
Theorem C130_lone_list_refuted : forall read m l, from_dict read (XDict [(txt "value", XList l)]) m = Ok m.
Proof. reflexivity. Qed.
(** A dictionary of text and author makes a comment lose its time. *)
Theorem C130_time_lost_refuted : forall read m a s, read XNone = Some default_time -> no_bar (value m) -> ~ In "|"%char s ->
  from_dict read (XDict [(txt "author", XText a); (txt "value", XText s)]) m = Ok (mkComment (Some a) default_time (Some s)).
Proof.
  intros read m a s R N B.
  refine (proj1 (C130_dictionary read [(txt "author", XText a); (txt "value", XText s)] m XNone (XText a) (XText s) default_time (Some a) (Some s)
    _ N _ _ _ R (names_text a) (tells_text s) _) (le_n 2)).
  - unfold dictionary. cbn. repeat constructor; cbn; intuition discriminate.
  - right. split; [cbn; intuition discriminate|reflexivity].
  - left. now left.
  - left. right. now left.
  - intros x F. now injection F as <-.
Qed.

(** Entries of a file: each of text, author and date is taken if it is there, and stays as it was if it is not. *)
Theorem C130_read_dict : forall read input d m a t w, dictionary input -> In (txt "comments", XDict d) input -> dictionary d -> no_bar (value m) ->
  said_or_kept d (txt "value") tells (value m) w -> no_bar w ->
  said_or_kept d (txt "author") names (author m) a ->
  said_or_kept d (txt "date") (fun v t => read v = Some t) (stamp m) t ->
  read_dict read input m = Ok (mkComment a t w).
Proof.
  intros read input d [a0 t0 w0] a t w DI I D N W B A T. unfold read_dict. rewrite (dget_says _ _ _ DI I). cbn [author stamp value] in *.
  assert (E1 : if_there (txt "value") (assign_value read) d (mkComment a0 t0 w0) = Ok (mkComment a0 t0 w)).
  { destruct (if_there_says d (txt "value") (assign_value read) (mkComment a0 t0 w0) D) as (E & E').
    destruct W as [(v & H & M)|(H & ->)]; [rewrite (E _ H); now apply assign_value_ok|now rewrite E']. }
  rewrite E1. cbn [bindR].
  assert (E2 : if_there (txt "author") (assign_author read) d (mkComment a0 t0 w) = Ok (mkComment a t0 w)).
  { destruct (if_there_says d (txt "author") (assign_author read) (mkComment a0 t0 w) D) as (E & E').
    destruct A as [(v & H & M)|(H & ->)]; [rewrite (E _ H); now apply (assign_author_ok read _ a)|now rewrite E']. }
  rewrite E2. cbn [bindR].
  destruct (if_there_says d (txt "date") (assign_stamp read) (mkComment a t0 w) D) as (E & E').
  destruct T as [(v & H & M)|(H & ->)]; [rewrite (E _ H); now apply (assign_stamp_ok read _ t)|now rewrite E'].
Qed.
Example C130_read_dict_hyp :
  let d := [(txt "author", XText (txt "KK")); (txt "value", XText (txt "calm"))] in
  dictionary d /\ dictionary [(txt "comments", XDict d); (txt "rating", XNum (txt "5"))] /\
  said_or_kept d (txt "author") names None (Some (txt "KK")) /\ said_or_kept d (txt "date") (fun v t => iso_value v = Some t) 7%Z 7%Z.
Proof.
  cbn zeta. split; [|split; [|split]].
  - unfold dictionary. cbn. repeat constructor; cbn; intuition discriminate.
  - unfold dictionary. cbn. repeat constructor; cbn; intuition discriminate.
  - left. exists (XText (txt "KK")). split; [now left|constructor].
  - right. split; [cbn; intuition discriminate|reflexivity].
Qed.
(** A text is taken as it is; no comments, or comments that are neither text nor dictionary, are refused. *)
Theorem C130_read_dict_text : forall read input m s, dictionary input -> In (txt "comments", XText s) input -> ~ In "|"%char s ->
  read_dict read input m = Ok (mkComment (author m) (stamp m) (Some s)).
Proof.
  intros read input m s D I B. unfold read_dict. rewrite (dget_says _ _ _ D I). exact (proj1 (C130_text read m s B)).
Qed.
Example C130_read_dict_text_hyp : dictionary [(txt "comments", XText (txt "calm"))].
Proof. unfold dictionary. cbn. repeat constructor. intros []. Qed.
Theorem C130_read_dict_refused : forall read input m,
  (~ In (txt "comments") (map fst input) -> read_dict read input m = Err KeyError) /\
  (dictionary input -> forall v, In (txt "comments", v) input -> (forall s, v <> XText s) -> (forall d, v <> XDict d) ->
   read_dict read input m = Err TypeError).
Proof.
  intros read input m. unfold read_dict. split; [intros H; now rewrite dget_absent|].
  intros D v I T E. rewrite (dget_says _ _ _ D I). destruct v; try reflexivity; [now destruct (T s)|now destruct (E d)].
Qed.
Example C130_read_dict_refused_hyp : ~ In (txt "comments") (map fst [(txt "rating", XNone)]).
Proof. cbn. intuition discriminate. Qed.
(** An empty element without attributes is read as nothing, so that a file with it is refused. *)
Theorem C130_empty_element_refuted : forall read m, exists v, XmlModel.read (Elem (txt "Comments") [] None []) = Ok v /\
  read_dict read [(txt "comments", v)] m = Err TypeError.
Proof. intros read m. exists XNone. split; reflexivity. Qed.

(** A comment written to XML and read into a new one: its author and its text (without the white space around it) come back.  No author is
    read as an empty one, an empty text as none. *)
Theorem C130_xml : forall read m m0, no_bar (value m) -> author m0 = None -> value m0 = None ->
  exists e m1 v, to_xml read m = Ok (e, m1) /\ XmlModel.read e = Ok v /\
  exists m', read_dict read [(txt "comments", v)] m0 = Ok m' /\ stamp m' = stamp m0 /\
    (author m' = match author m with Some a => Some a | None => Some [] end) /\
    (forall w, value m = Some w -> strip w <> [] -> value m' = Some (strip w)) /\
    ((forall w, value m = Some w -> strip w = []) -> value m' = None).
Proof.
  intros read [a t v] [a0 t0 v0] N A0 V0. cbn [author stamp value] in *. subst a0 v0.
  set (a1 := match a with Some x => x | None => [] end). set (v1 := match v with Some x => x | None => [] end).
  assert (N1 : no_bar (Some v1)). { intros s F. injection F as <-. destruct v as [w|]; [now apply N|intros []]. }
  assert (X : to_xml read (mkComment a t v) = Ok (Elem (txt "Comments") [(txt "author", a1)] (Some v1) [], mkComment (Some a1) t (Some v1))).
  { unfold to_xml. cbn [author]. destruct a as [a|]; cbn [bindR].
    - cbn [value]. destruct v as [v|]; [reflexivity|]. now rewrite (assign_value_ok read (XText []) (Some [])) by (assumption || constructor).
    - rewrite (assign_author_ok read (XText []) (Some [])) by (assumption || constructor). cbn [bindR value].
      destruct v as [v|]; [reflexivity|]. now rewrite (assign_value_ok read (XText []) (Some [])) by (assumption || constructor). }
  set (d := if nonempty (strip v1) then [(txt "author", XText a1); (txt "value", XText (strip v1))] else [(txt "author", XText a1)]).
  assert (R : XmlModel.read (Elem (txt "Comments") [(txt "author", a1)] (Some v1) []) = Ok (XDict d)).
  { subst d. destruct v1 as [|c r] eqn:V1; [reflexivity|]. cbn [XmlModel.read nonempty length]. cbn [set_attribs].
    change (text_eqb (txt "author") (txt "units")) with false. change (text_eqb (txt "author") (txt "type")) with false. cbn [andb].
    cbn [set_in bindR set_text]. unfold kept_attribs. cbn [existsb fst snd filter length].
    change (text_eqb (txt "author") (txt "units")) with false. change (text_eqb (txt "author") (txt "type")) with false.
    cbn [andb orb negb nonempty]. destruct (nonempty (strip (c :: r))); reflexivity. }
  exists (Elem (txt "Comments") [(txt "author", a1)] (Some v1) []), (mkComment (Some a1) t (Some v1)), (XDict d).
  split; [exact X|]. split; [exact R|].
  exists (mkComment (Some a1) t0 (if nonempty (strip v1) then Some (strip v1) else None)). cbn [author stamp value].
  split; [|split; [reflexivity|split; [subst a1; now destruct a|split]]].
  - apply (C130_read_dict read _ d); subst d.
    + unfold dictionary. cbn. repeat constructor. intros [].
    + now left.
    + unfold dictionary. destruct (nonempty (strip v1)); cbn; repeat constructor; cbn; intuition discriminate.
    + intros s F. discriminate F.
    + destruct (nonempty (strip v1)); [left; exists (XText (strip v1)); split; [right; now left|constructor]|].
      right. split; [cbn; intuition discriminate|reflexivity].
    + destruct (nonempty (strip v1)); intros s F; [|discriminate F]. injection F as <-. intros H. apply strip_in in H. exact (N1 _ eq_refl H).
    + left. exists (XText a1). split; [destruct (nonempty (strip v1)); now left|constructor].
    + right. split; [|reflexivity]. destruct (nonempty (strip v1)); cbn; intuition discriminate.
  - intros w -> NE. subst v1. destruct (strip w); [contradiction|reflexivity].
  - intros H. subst v1. destruct v as [w|]; [|reflexivity]. now rewrite (H w eq_refl).
Qed.
Example C130_xml_hyp : no_bar (value (mkComment (Some (txt "KK")) 5 (Some (txt " calm ")))) /\ strip (txt " calm ") <> [].
Proof. split; [intros s F; injection F as <-; cbn; intuition discriminate|discriminate]. Qed.
(** The time of a comment is not written. *)
Theorem C130_xml_time_refuted : forall read a t t' v, no_bar (Some v) ->
  exists e, to_xml read (mkComment (Some a) t (Some v)) = Ok (e, mkComment (Some a) t (Some v)) /\
            to_xml read (mkComment (Some a) t' (Some v)) = Ok (e, mkComment (Some a) t' (Some v)).
Proof. intros. eexists. split; reflexivity. Qed.
(** Writing a comment without author changes it: it is no longer equal to what it was. *)
Theorem C130_xml_changes_refuted : forall read t v, no_bar v ->
  exists e m1, to_xml read (mkComment None t v) = Ok (e, m1) /\ equals m1 (Some (mkComment None t v)) = false.
Proof.
  intros read t v N. unfold to_xml. cbn [author]. rewrite (assign_author_ok read (XText []) (Some [])) by (assumption || constructor).
  cbn [bindR value stamp]. destruct v as [v|].
  - eexists _, _. split; reflexivity.
  - rewrite (assign_value_ok read (XText []) (Some [])). { eexists _, _. split; reflexivity. }
    + constructor.
    + intros s F. injection F as <-. intros [].
Qed.
Example C130_xml_changes_refuted_hyp : no_bar (Some (txt "calm")).
Proof. intros s F. injection F as <-. cbn. intuition discriminate. Qed.

Print Assumptions C130_dictionary.
Print Assumptions C130_read_dict.
Print Assumptions C130_xml.
Example C130_time_lost_refuted_hyp : iso_value XNone = Some default_time /\ no_bar (Some (txt "windy")).
Proof. split; [reflexivity|]. intros s F; injection F as <-; cbn; intuition discriminate. Qed.
