(** Proofs about where and in which format transfer functions are written. *)
From Verif Require Import PyBase PyFacts PyText TextFacts WfnModel WfnSpec.
From Coq Require Import Lia.
Local Open Scope list_scope.

Lemma formats_spec t f : dget text_dec t formats = Some f <-> names_format t f.
Proof.
  split.
  - unfold formats. cbn [dget]. repeat (destruct (text_dec _ _) as [E|_]; [rewrite <- ?E, ?E; injection 1 as <-; constructor|]). discriminate.
  - intros H; destruct H; vm_compute; reflexivity.
Qed.
Lemma formats_none t : dget text_dec t formats = None <-> forall f, ~ names_format t f.
Proof.
  split.
  - intros E f H. apply formats_spec in H. rewrite E in H. discriminate H.
  - intros H. destruct (dget text_dec t formats) as [f|] eqn:E; [|reflexivity]. apply formats_spec in E. destruct (H f E).
Qed.
Lemma names_plain t f : names_format t f -> t <> [] /\ ~ In "."%char t /\ ~ In "/"%char t.
Proof.
  intros H. assert (B : (negb (text_eqb t []) && negb (has_char "." t) && negb (has_char "/" t))%bool = true) by (destruct H; vm_compute; reflexivity).
  rewrite !andb_true_iff, !negb_true_iff in B. destruct B as ((B1 & B2) & B3). rewrite has_char_notIn in B2, B3. split; [|split; assumption]. intros ->. discriminate B1.
Qed.
Lemma names_lower t f : names_format t f -> lower t = t.
Proof. intros H; destruct H; vm_compute; reflexivity. Qed.

Lemma suffix_ext (n stem ext : text) : has_ext n stem ext -> suffix n = "."%char :: ext.
Proof.
  intros (-> & S & E & D). unfold suffix. rewrite !rev_app_distr. cbn [rev txt list_ascii_of_string app]. rewrite <- app_assoc. cbn [app]. rewrite split1_app by (intros I; apply D, in_rev, I).
  destruct (rev ext) as [|x e] eqn:EE; [destruct E; apply (f_equal (@rev ascii)) in EE; rewrite rev_involutive in EE; exact EE|].
  destruct (rev stem) as [|y s] eqn:ES; [destruct S; apply (f_equal (@rev ascii)) in ES; rewrite rev_involutive in ES; exact ES|].
  rewrite <- EE, rev_involutive. reflexivity.
Qed.
Lemma suffix_cases (n : text) : (exists stem ext, has_ext n stem ext /\ suffix n = "."%char :: ext) \/ (bare n /\ suffix n = []).
Proof.
  destruct (suffix n) as [|c e] eqn:E.
  - right. split; [|reflexivity]. intros s e H. rewrite (suffix_ext _ _ _ H) in E. discriminate E.
  - left. unfold suffix in E. destruct (split1 "." (rev n)) as [e0 [s0|]] eqn:ES; [|discriminate E]. destruct e0 as [|x e0]; [discriminate E|]. destruct s0 as [|y s0]; [discriminate E|]. injection E as <- <-.
    apply split1_Some in ES. destruct ES as (EN & D). exists (rev (y :: s0)), (rev (x :: e0)). split; [|reflexivity]. repeat split.
    + apply (f_equal (@rev ascii)) in EN. rewrite rev_involutive, rev_app_distr in EN. rewrite EN. cbn [rev]. rewrite <- !app_assoc. reflexivity.
    + cbn [rev]. destruct (rev s0); discriminate.
    + cbn [rev]. destruct (rev e0); discriminate.
    + intros I. apply D, in_rev, I.
Qed.
Lemma suffix_bare (n : text) : bare n -> suffix n = [].
Proof. intros B. destruct (suffix_cases n) as [(s & e & H & _)|(_ & H)]; [destruct (B _ _ H)|exact H]. Qed.

Lemma kept_plain w : ~ In "/"%char w -> kept w = true <-> plain w.
Proof.
  intros N. unfold kept, plain. rewrite andb_true_iff, !negb_true_iff. split.
  - intros (A & B). repeat split; [intros ->; discriminate A|intros ->; discriminate B|exact N].
  - intros (A & B & _). split; apply not_true_is_false; intros X; apply text_eqb_eq in X; contradiction.
Qed.
Lemma filter_kept l : Forall plain l -> filter kept l = l.
Proof. induction 1 as [|w l P _ IH]; [reflexivity|]. cbn [filter]. rewrite (proj2 (kept_plain w (proj2 (proj2 P))) P), IH. reflexivity. Qed.
Lemma join_first l : Forall plain l -> match join (txt "/") l with c :: _ => Ascii.eqb c "/" | [] => false end = false.
Proof.
  intros P. destruct P as [|w l (A & _ & N) _]; [reflexivity|]. destruct w as [|c w]; [contradiction|]. assert (X : Ascii.eqb c "/" = false) by (apply Ascii.eqb_neq; intros ->; apply N; left; reflexivity). destruct l; exact X.
Qed.
Lemma parse_spelled a l : Forall plain l -> parse (spelled a l) = mkPath a l.
Proof.
  intros P. unfold parse, spelled. assert (N : forall w, In w l -> ~ In "/"%char w) by (intros w I; rewrite Forall_forall in P; apply P, I).
  assert (K : filter kept (split_on "/" (join (txt "/") l)) = l).
  { destruct l as [|w l]; [reflexivity|]. change (txt "/") with (["/"%char] : list ascii). rewrite split_join by (discriminate || exact N). apply filter_kept, P. }
  destruct a; cbn [app].
  - change (txt "/" ++ join (txt "/") l) with ([] ++ "/"%char :: join (txt "/") l). rewrite split_on_app by exact (fun x => x). cbn [filter app]. change (kept []) with false. cbv iota. rewrite K. reflexivity.
  - rewrite (join_first l P), K. reflexivity.
Qed.
Lemma has_ext_plain (n stem ext : text) : has_ext n stem ext -> ~ In "/"%char n -> plain n.
Proof.
  intros (-> & S & E & _) N. split; [|split; [|exact N]].
  - destruct stem; [contradiction|discriminate].
  - destruct stem as [|x [|y s]]; [contradiction| |]; cbn; discriminate.
Qed.
Lemma name_last a l (n : text) : name (mkPath a (l ++ [n])) = n.
Proof. unfold name. cbn [p_parts]. apply last_last. Qed.
Lemma parent_last a l (n : text) : parent (mkPath a (l ++ [n])) = mkPath a l.
Proof. unfold parent. cbn [p_parts p_abs]. rewrite removelast_last. reflexivity. Qed.
Lemma parse_name (n : text) : plain n -> parse n = mkPath false [n].
Proof. intros P. apply (parse_spelled false [n]). repeat constructor; apply P. Qed.
Lemma join_from d a l : joinpath d (mkPath a l) = from_dir d a l.
Proof. destruct a; reflexivity. Qed.
Lemma from_last d a l (n : text) : exists d2 l2, from_dir d a (l ++ [n]) = mkPath d2 (l2 ++ [n]).
Proof. destruct a; [exists true, l; reflexivity|exists (p_abs d), (p_parts d ++ l)]. unfold from_dir. rewrite app_assoc. reflexivity. Qed.
Lemma name_from d a l (n : text) : name (from_dir d a (l ++ [n])) = n.
Proof. destruct (from_last d a l n) as (d2 & l2 & ->). apply name_last. Qed.
Lemma type_ext p (n stem ext : text) : name p = n -> has_ext n stem ext -> type_of p = lower ext.
Proof. intros E H. unfold type_of. rewrite E, (suffix_ext _ _ _ H). reflexivity. Qed.
Lemma type_bare p (n : text) : name p = n -> bare n -> type_of p = [].
Proof. intros E H. unfold type_of. rewrite E, (suffix_bare _ H). reflexivity. Qed.
Lemma zname_ext p (n stem ext : text) : name p = n -> has_ext n stem ext -> is_zname p = true <-> names_format (lower ext) ZFILE.
Proof.
  intros E H. unfold is_zname. rewrite E, (suffix_ext _ _ _ H). change (lower ("."%char :: ext)) with ("."%char :: lower ext). rewrite existsb_exists. split.
  - intros (x & I & X). apply text_eqb_eq in X. cbn in I. destruct I as [<-|[<-|[<-|[]]]]; injection X as ->; constructor.
  - intros N. exists ("."%char :: lower ext). split; [|apply text_eqb_eq; reflexivity]. inversion N; cbn; auto.
Qed.
Lemma zname_bare p (n : text) : name p = n -> bare n -> is_zname p = false.
Proof. intros E H. unfold is_zname. rewrite E, (suffix_bare _ H). reflexivity. Qed.
Lemma directory_parse d sd d' : directory d sd d' -> match sd with Some s => parse s | None => d end = d'.
Proof. intros [|a l P]; [reflexivity|apply parse_spelled, P]. Qed.
