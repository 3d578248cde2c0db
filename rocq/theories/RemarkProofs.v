From Verif Require Import PyBase PyFacts PyText TextFacts PyFloat ZmmModel ZmmProofs ValidatorsProofs RemarkModel RemarkSpec.
Local Open Scope list_scope.

Section Proofs.
Variables (other run_update : text -> text -> list (text * text) -> option (list (text * text))) (part_update : text -> text -> part -> result part).
Notation take_part := (take_part other run_update part_update).
Notation take_all := (take_all other run_update part_update).
Notation parse := (parse_comments other run_update part_update).

(** ** The parts of a joined text *)
Lemma split_pieces (l : list text) : l <> [] -> (forall p, In p l -> ~ In ";"%char p) ->
  split_on ";" (join (txt "; ") l) = match l with [] => [] | x :: r => x :: map (cons " "%char) r end.
Proof.
  induction l as [|x l IH]; intros NE H; [congruence|]. destruct l as [|y l].
  - cbn [join map]. apply split_on_no. apply H. left. reflexivity.
  - change (join (txt "; ") (x :: y :: l)) with (x ++ ";"%char :: " "%char :: join (txt "; ") (y :: l)).
    rewrite split_on_app by (apply H; left; reflexivity). f_equal.
    assert (E : split_on ";" (join (txt "; ") (y :: l)) = y :: map (cons " "%char) l).
    { apply IH; [discriminate|]. intros p P. apply H. right. exact P. }
    change (split_on ";" (" "%char :: join (txt "; ") (y :: l))) with
      (match split_on ";" (join (txt "; ") (y :: l)) with w :: ws => (" "%char :: w) :: ws | [] => [[" "%char]] end).
    rewrite E. reflexivity.
Qed.

Definition near (p x : text) : Prop := p = x \/ p = " "%char :: x.
Lemma near_list (l : list text) : Forall2 near (match l with [] => [] | x :: r => x :: map (cons " "%char) r end) l.
Proof. destruct l as [|x l]; constructor; [left; reflexivity|]. induction l; constructor; [right; reflexivity|assumption]. Qed.
Lemma space_strip k : strip k = k -> strip (" "%char :: k) = k.
Proof. intros H. rewrite <- H at 2. reflexivity. Qed.

(** A key that none of the helpers looks at *)
Definition key_ok (k : text) : Prop :=
  ~ In ":"%char k /\ strip k = k /\ contains (txt "datalogger") k = false /\ contains (txt "fieldnotes") k = false /\ contains (txt "processing") k = false.

Lemma take_labelled k v q e free : key_ok k -> strip v = v -> near q (k ++ txt ":" ++ v) ->
  take_part q (e, free) = Ok (assign other k v e free).
Proof.
  intros (NC & SK & D & F & P) SV N. unfold RemarkModel.take_part.
  assert (S1 : exists k0, split1 ":" q = (k0, Some v) /\ strip k0 = k).
  { destruct N as [-> | ->].
    - exists k. split; [apply (split1_app ":" k v NC)|exact SK].
    - exists (" "%char :: k). split; [|exact (space_strip k SK)].
      change (" "%char :: k ++ txt ":" ++ v) with ((" "%char :: k) ++ ":"%char :: v). apply split1_app. intros [I|I]; [discriminate I|exact (NC I)]. }
  destruct S1 as (k0 & -> & K0). rewrite K0, SV. unfold need_run. rewrite D, F, P. cbn [andb]. reflexivity.
Qed.

Definition assign_all (l : list (text * text)) (e : emtf) : emtf := fold_left (fun e kv => fst (assign other (fst kv) (snd kv) e [])) l e.
(** A key for which nothing is left over *)
Definition takes (k : text) : Prop := has_char "." k = true \/ k = txt "description".
Lemma assign_free k v e free : takes k -> assign other k v e free = (fst (assign other k v e []), free).
Proof.
  intros [H | ->]; unfold assign.
  - rewrite H. destruct (update other k v (e_attrs e)); reflexivity.
  - reflexivity.
Qed.

Lemma take_pieces l : Forall (fun kv => key_ok (fst kv) /\ takes (fst kv) /\ strip (snd kv) = snd kv) l -> forall ps e free,
  Forall2 near ps (flat_map piece l) ->
  take_all ps (e, free) = Ok (assign_all (filter (fun kv => nonempty (snd kv)) l) e, free).
Proof.
  induction l as [|[k v] l IH]; intros H ps e free N.
  - cbn [flat_map] in N. inversion N. reflexivity.
  - inversion H as [|? ? (KO & T & SV) H']; subst. cbn [fst snd] in *. cbn [flat_map] in N. destruct v as [|c v].
    + cbn [piece snd app] in N. cbn [filter snd nonempty]. apply IH; assumption.
    + change (flat_map piece l) with (@flat_map (text * text) text piece l) in N. cbn [piece fst snd app] in N.
      inversion N as [|q ? ps' ? N1 N2]; subst. cbn [RemarkModel.take_all]. rewrite (take_labelled k (c :: v) q e free KO SV N1).
      cbn [bindR]. rewrite (assign_free _ _ _ _ T). cbn [filter snd nonempty]. rewrite (IH H' _ _ _ N2). reflexivity.
Qed.

Lemma join_nil (l : list text) : Forall (fun x => x <> []) l -> join (txt "; ") l = [] -> l = [].
Proof. intros F J. destruct l as [|x [|y l]]; [reflexivity| |]; inversion F; subst; cbn in J; [congruence|]. apply app_eq_nil in J. destruct J; congruence. Qed.

Lemma in_join (sep : text) (l : list text) c : In c (join sep l) -> In c sep \/ exists p, In p l /\ In c p.
Proof.
  induction l as [|x l IH]; [intros []|]. destruct l as [|y l].
  - intros H. right. exists x. split; [left; reflexivity|exact H].
  - change (join sep (x :: y :: l)) with (x ++ sep ++ join sep (y :: l)). intros H. apply in_app_or in H. destruct H as [H|H].
    + right. exists x. split; [left; reflexivity|exact H].
    + apply in_app_or in H. destruct H as [H|H]; [left; exact H|]. destruct (IH H) as [S|(p & P & C)]; [left; exact S|right].
      exists p. split; [right; exact P|exact C].
Qed.

Lemma in_pieces l p : In p (flat_map piece l) -> exists k v, In (k, v) l /\ p = k ++ txt ":" ++ v.
Proof.
  intros H. apply in_flat_map in H. destruct H as ((k & v) & I & P). exists k, v. split; [exact I|]. destruct v; cbn in P; [destruct P|].
  destruct P as [<- |[]]. reflexivity.
Qed.

Lemma unfold_same s : ~ In newline s \/ ~ In "="%char s -> unfold_lines s = s.
Proof. intros [H|H]; apply has_char_notIn in H; unfold unfold_lines; rewrite H; [reflexivity|]. rewrite Bool.andb_false_r. reflexivity. Qed.

Lemma pieces_lines l : (forall k v, In (k, v) l -> ~ In newline k /\ ~ In "="%char k) -> one_line (map snd l) ->
  unfold_lines (join (txt "; ") (flat_map piece l)) = join (txt "; ") (flat_map piece l).
Proof.
  intros K H. apply unfold_same. destruct H as [H|H]; [left|right]; intros I; apply in_join in I; destruct I as [I|(p & P & C)];
    try (cbn in I; destruct I as [I|[I|[]]]; discriminate I); destruct (in_pieces _ _ P) as (k & v & KV & ->); apply in_app_or in C;
    destruct C as [C|C]; try (destruct (K k v KV) as [K1 K2]; tauto); destruct C as [C|C]; try discriminate C;
    apply (H v); try exact C; apply in_map_iff; exists (k, v); split; [reflexivity|exact KV|reflexivity|exact KV].
Qed.

(** The whole: a comment made of labelled pieces *)
Lemma parse_pieces l e : Forall (fun kv => key_ok (fst kv) /\ takes (fst kv)) l ->
  (forall k v, In (k, v) l -> ~ In newline k /\ ~ In "="%char k /\ ~ In ";"%char k) ->
  (forall v, In v (map snd l) -> plain v) -> one_line (map snd l) ->
  let e' := assign_all (filter (fun kv => nonempty (snd kv)) l) e in
  parse (Some (join (txt "; ") (flat_map piece l))) e =
    Ok (mkEmtf (e_description e') (e_attrs e') (Some []) (e_notes e') (e_in e') (e_out e')).
Proof.
  intros KO KC PV OL e'. unfold parse_comments. rewrite pieces_lines; [|intros k v I; specialize (KC k v I); tauto|exact OL].
  assert (FA : Forall (fun kv => key_ok (fst kv) /\ takes (fst kv) /\ strip (snd kv) = snd kv) l).
  { apply Forall_forall. intros [k v] I. rewrite Forall_forall in KO. destruct (KO _ I) as [A B]. split; [exact A|split; [exact B|]].
    apply (PV v). apply in_map_iff. exists (k, v). split; [reflexivity|exact I]. }
  assert (NS : forall p, In p (flat_map piece l) -> ~ In ";"%char p).
  { intros p P S. destruct (in_pieces _ _ P) as (k & v & I & ->). apply in_app_or in S. destruct S as [S|[S|S]].
    - destruct (KC k v I) as (_ & _ & N). exact (N S).
    - discriminate S.
    - destruct (PV v) as (N & _); [apply in_map_iff; exists (k, v); split; [reflexivity|exact I]|exact (N S)]. }
  destruct (flat_map piece l) as [|p ps] eqn:E.
  - assert (NIL : take_all (split_on ";" []) (e, []) = Ok (e, [[]])) by reflexivity.
    change (join (txt "; ") []) with (@nil ascii). rewrite NIL. cbn [bindR join].
    assert (T : take_all [] (e, []) = Ok (e', [])) by (apply take_pieces; [exact FA|rewrite E; constructor]).
    cbn [RemarkModel.take_all] in T. assert (e = e') as <- by congruence. reflexivity.
  - rewrite split_pieces; [|discriminate|exact NS]. rewrite (take_pieces l FA _ e []); [reflexivity|]. rewrite E. apply (near_list (p :: ps)).
Qed.
End Proofs.
