(** Proofs about comments given as dictionaries. *)
From Verif Require Import PyBase PyFacts PyText TextFacts MTimeModel ContainerModel XmlModel CommentModel CommentSpec CommentProofs CmdModel CmdSpec.
From Coq Require Import Lia.
Local Open Scope list_scope.

Lemma names_field v a : names v a <-> author_field v = Ok a.
Proof.
  split; [intros []; reflexivity|].
  destruct v; cbn; intros H; try discriminate; injection H as <-; constructor.
Qed.
Lemma list_texts_of l : list_texts l (texts_of l).
Proof.
  induction l as [|v l IH]; [constructor|]. destruct v; cbn [texts_of]; try (constructor; [discriminate|assumption]).
  now constructor.
Qed.
Lemma list_texts_fun l r : list_texts l r -> r = texts_of l.
Proof.
  induction 1 as [|s l r H IH|v l r N H IH]; [reflexivity|cbn; now f_equal|].
  destruct v; cbn [texts_of]; try assumption. now destruct (N s).
Qed.
Lemma tells_field v a : tells v a <-> value_field v = Ok a.
Proof.
  split.
  - intros [|s|l ts H]; [reflexivity|reflexivity|]. cbn. now rewrite (list_texts_fun _ _ H).
  - destruct v; cbn; intros H; try discriminate; injection H as <-; constructor. apply list_texts_of.
Qed.
Lemma says_get d k v : dictionary d -> says d k v -> get k d = v.
Proof.
  intros N. unfold get. induction d as [|[k' v'] d IH]; cbn.
  - intros [[]|(_ & ->)]. reflexivity.
  - inversion N as [|x y N1 N2]; subst. cbn in N1. intros [[E|H]|(H & ->)].
    + injection E as -> ->. destruct (text_dec k k); [reflexivity|contradiction].
    + destruct (text_dec k k') as [->|]; [destruct N1; apply in_map_iff; now exists (k', v)|].
      apply IH; [assumption|]. now left.
    + destruct (text_dec k k') as [->|]; [destruct H; now left|].
      apply IH; [assumption|]. right. split; [|reflexivity]. intros H'. apply H. now right.
Qed.
Lemma dget_says d k v : dictionary d -> In (k, v) d -> dget text_dec k d = Some v.
Proof.
  intros N. induction d as [|[k' v'] d IH]; cbn; [intros []|].
  inversion N as [|x y N1 N2]; subst. cbn in N1. intros [E|H].
  - injection E as -> ->. destruct (text_dec k k); [reflexivity|contradiction].
  - destruct (text_dec k k') as [->|]; [destruct N1; apply in_map_iff; now exists (k', v)|]. now apply IH.
Qed.
Lemma dget_absent (d : list (text * xval)) k : ~ In k (map fst d) -> dget text_dec k d = None.
Proof.
  induction d as [|[k' v'] d IH]; cbn; [reflexivity|]. intros H.
  destruct (text_dec k k') as [->|]; [destruct H; now left|]. apply IH. intros H'. apply H. now right.
Qed.

Lemma set_no_bar r m : no_bar (value m) -> set_variables r m = Ok m.
Proof.
  intros H. destruct (value m) as [w|] eqn:E; [|now apply set_none].
  apply (set_plain _ _ w); [assumption|]. now apply H.
Qed.
(** Assignments never leave a bar. *)
Lemma strip_in c s : In c (strip s) -> In c s.
Proof.
  intros H. destruct (lstrip_decomp s) as (sp & E & _). rewrite E. apply in_or_app. right.
  unfold strip, rstrip in H. apply in_rev in H. destruct (lstrip_decomp (rev (lstrip s))) as (sq & E' & _).
  apply in_rev. rewrite E'. apply in_or_app. now right.
Qed.
Lemma part_no_bar v p : In p (map strip (split_on "|" v)) -> ~ In "|"%char p.
Proof.
  intros H. apply in_map_iff in H as (q & <- & H). intros B. apply (split_on_parts _ _ _ H). now apply strip_in.
Qed.
Lemma last_in {A} (l : list A) x d : In (last (x :: l) d) (x :: l).
Proof.
  revert x. induction l as [|y l IH]; intros x; [now left|].
  change (last (x :: y :: l) d) with (last (y :: l) d). right. apply IH.
Qed.
Lemma set_leaves_none r m m' : set_variables r m = Ok m' -> no_bar (value m').
Proof.
  unfold set_variables. destruct (value m) as [v|] eqn:E; [|intros H; injection H as <-; rewrite E; intros s; discriminate].
  destruct (has_char "|" v) eqn:B.
  2:{ intros H; injection H as <-. rewrite E. intros s F. injection F as <-. now apply has_char_notIn. }
  pose proof (part_no_bar v) as P.
  destruct (map strip (split_on "|" v)) as [|p0 [|p1 [|p2 [|p3 ps]]]] eqn:M.
  - apply map_eq_nil in M. now destruct (split_on_nonnil "|" v).
  - intros H; injection H as <-. cbn. intros s F. injection F as <-. apply P. now left.
  - destruct (r p0); intros H; injection H as <-; cbn; intros s F; injection F as <-; apply P; right; now left.
  - destruct (r p0); intros H; [injection H as <-|discriminate]. cbn; intros s F; injection F as <-. apply P. right. right. now left.
  - intros H; injection H as <-. intros s F. cbn [value] in F. injection F as <-. apply P.
    apply (last_in (p1 :: p2 :: p3 :: ps) p0 []).
Qed.

Section Facts.
Variable read : xval -> option Z.
Lemma bind_ok {A B} (r : result A) (f : A -> result B) y : bindR r f = Ok y -> exists x, r = Ok x /\ f x = Ok y.
Proof. destruct r as [x|]; [intros H; now exists x|discriminate]. Qed.
Lemma assign_stamp_ok v t m : no_bar (value m) -> read v = Some t -> assign_stamp read v m = Ok (mkComment (author m) t (value m)).
Proof. intros N H. unfold assign_stamp. rewrite H. now apply set_no_bar. Qed.
Lemma assign_author_ok v a m : no_bar (value m) -> names v a -> assign_author read v m = Ok (mkComment a (stamp m) (value m)).
Proof. intros N H. unfold assign_author. apply names_field in H. rewrite H. now apply set_no_bar. Qed.
Lemma assign_value_eq v w m : tells v w -> assign_value read v m = set_variables (read_text read) (mkComment (author m) (stamp m) w).
Proof. intros H. unfold assign_value. apply tells_field in H. now rewrite H. Qed.
Lemma assign_value_ok v w m : tells v w -> no_bar w -> assign_value read v m = Ok (mkComment (author m) (stamp m) w).
Proof. intros H N. rewrite (assign_value_eq _ w) by assumption. now apply set_no_bar. Qed.

Lemma take_eq d m tv av vv t a w : dictionary d -> no_bar (value m) ->
  says d (txt "time_stamp") tv -> says d (txt "author") av -> says d (txt "value") vv ->
  read tv = Some t -> names av a -> tells vv w ->
  take read d m = set_variables (read_text read) (mkComment a t w).
Proof.
  intros D N ST SA SV T A W. unfold take.
  rewrite (says_get _ _ _ D ST), (says_get _ _ _ D SA), (says_get _ _ _ D SV).
  rewrite (assign_stamp_ok _ _ _ N T). cbn [bindR].
  rewrite (assign_author_ok av a) by assumption. cbn [bindR]. now rewrite (assign_value_eq _ w).
Qed.
Lemma take_refuses d m tv av vv : dictionary d -> no_bar (value m) ->
  says d (txt "time_stamp") tv -> says d (txt "author") av -> says d (txt "value") vv ->
  read tv = None \/ (forall a, ~ names av a) \/ (forall w, ~ tells vv w) ->
  exists e, take read d m = Err e.
Proof.
  intros D N ST SA SV H. unfold take.
  rewrite (says_get _ _ _ D ST), (says_get _ _ _ D SA), (says_get _ _ _ D SV).
  destruct (read tv) as [t|] eqn:T; [|unfold assign_stamp; rewrite T; now eexists].
  rewrite (assign_stamp_ok _ _ _ N T). cbn [bindR].
  destruct (author_field av) as [a|e] eqn:A.
  2:{ unfold assign_author. rewrite A. now eexists. }
  apply names_field in A. rewrite (assign_author_ok av a) by assumption. cbn [bindR].
  destruct (value_field vv) as [w|e] eqn:W.
  2:{ unfold assign_value. rewrite W. now eexists. }
  apply tells_field in W. destruct H as [H|[H|H]]; [discriminate|now destruct (H a)|now destruct (H w)].
Qed.
Lemma take_no_bar d m m' : take read d m = Ok m' -> no_bar (value m').
Proof.
  intros H. apply bind_ok in H as (m1 & _ & H). apply bind_ok in H as (m2 & _ & H).
  unfold assign_value in H. apply bind_ok in H as (w & _ & H). exact (set_leaves_none _ _ _ H).
Qed.
Lemma assign_value_no_bar v m m' : assign_value read v m = Ok m' -> no_bar (value m').
Proof. intros H. apply bind_ok in H as (w & _ & H). exact (set_leaves_none _ _ _ H). Qed.
Lemma from_dict_no_bar v m m' : no_bar (value m) -> from_dict read v m = Ok m' -> no_bar (value m').
Proof.
  intros N. assert (I : Ok m = Ok m' -> no_bar (value m')) by (intros H; injection H as <-; exact N).
  destruct v as [|s|s|l|d]; cbn [from_dict]; try discriminate; [apply assign_value_no_bar|].
  destruct d as [|[k v] [|kv d]]; [exact I| |destruct v; apply take_no_bar].
  destruct v; try exact I; [apply assign_value_no_bar|apply take_no_bar].
Qed.
Lemma two_keys kv kv' d m : from_dict read (XDict (kv :: kv' :: d)) m = take read (kv :: kv' :: d) m.
Proof. destruct kv as [k v]. destruct v; reflexivity. Qed.
Lemma set_three r m p q s w : ~ In "|"%char p -> ~ In "|"%char q -> ~ In "|"%char s ->
  value m = Some (p ++ "|"%char :: q ++ "|"%char :: s) -> r (strip p) = Some w ->
  set_variables r m = Ok (mkComment (Some (strip q)) w (Some (strip s))).
Proof.
  intros P Q S V R. unfold set_variables. rewrite V.
  assert (H : has_char "|" (p ++ "|"%char :: q ++ "|"%char :: s) = true) by (apply has_char_In, in_or_app; right; now left).
  rewrite H, !split_on_app, split_on_no by assumption. cbn [map]. now rewrite R.
Qed.

Lemma if_there_says d k f m : dictionary d -> (forall v, In (k, v) d -> if_there k f d m = f v m) /\ (~ In k (map fst d) -> if_there k f d m = Ok m).
Proof.
  intros D. unfold if_there. split.
  - intros v H. now rewrite (dget_says _ _ _ D H).
  - intros H. now rewrite dget_absent.
Qed.
End Facts.
