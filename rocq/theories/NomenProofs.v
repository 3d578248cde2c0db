From Verif Require Import PyBase PyText PyFacts EnumModel EnumProofs NomenModel NomenSpec.

Lemma text_eqb_true : forall a b, text_eqb a b = true <-> a = b.
Proof.
  intros a b. unfold text_eqb. destruct (text_dec a b); split; intros H; auto; try discriminate; contradiction.
Qed.

Lemma validate_in : forall ms v t, validate_enum ms v = Ok t -> In t ms.
Proof.
  intros ms v t H. unfold validate_enum, bindR in H. destruct (normalize_case ms v) as [[m|]|] eqn:N; try discriminate.
  destruct (existsb (text_eqb m) ms) eqn:X; [|discriminate]. injection H as <-.
  apply existsb_exists in X. destruct X as (x & I & E). apply text_eqb_true in E. subst. exact I.
Qed.

Lemma keyword_cases : forall k, In k keywords ->
  k = txt "default" \/ k = txt "lemi12" \/ k = txt "lemi34" \/ k = txt "musgraves" \/ k = txt "phoenix123".
Proof. intros k H. unfold keywords in H. cbn [In] in H. firstorder congruence. Qed.

(** The labels of a keyword, as the program finds them. *)
Definition with_labels (n : nomen) (k : text) : nomen :=
  match dget text_dec k systems with
  | Some (ex, ey, hx, hy, hz) => mkNomen ex ey hx hy hz (n_key n)
  | None => n
  end.
Lemma update_ok : forall n, In (n_key n) keywords -> update n = Ok (with_labels n (n_key n)).
Proof.
  intros [a b c d e k] H. apply keyword_cases in H. cbn [n_key] in H.
  destruct H as [-> | [-> | [-> | [-> | ->]]]]; vm_compute; reflexivity.
Qed.
Lemma with_labels_has : forall n k, In k keywords -> has_labels (with_labels n k) k.
Proof.
  intros n k H. apply keyword_cases in H.
  destruct H as [-> | [-> | [-> | [-> | ->]]]]; unfold has_labels;
    do 5 eexists; (split; [|vm_compute; repeat split; reflexivity]);
    unfold systems; cbn [In]; tauto.
Qed.
Lemma with_labels_key : forall n k, n_key (with_labels n k) = n_key n.
Proof. intros n k. unfold with_labels. destruct (dget text_dec k systems) as [[[[[? ?] ?] ?] ?]|]; reflexivity. Qed.
Lemma has_labels_det : forall n k, has_labels n k -> forall n', has_labels n' k -> forall c, label n c = label n' c.
Proof.
  intros n k (ex & ey & hx & hy & hz & I & A & B & C & D & E) n' (ex' & ey' & hx' & hy' & hz' & I' & A' & B' & C' & D' & E') c.
  assert (X : (ex, ey, hx, hy, hz) = (ex', ey', hx', hy', hz')).
  { assert (ND : NoDup (map fst systems)).
    { unfold systems. cbn [map fst]. repeat constructor; cbn [In]; intros F;
        repeat (destruct F as [F|F]; [discriminate F|]); exact F. }
    apply (In_dget text_dec) in I; [|exact ND]. apply (In_dget text_dec) in I'; [|exact ND]. congruence. }
  injection X as <- <- <- <- <-. destruct c; cbn [label]; congruence.
Qed.
Lemma has_labels_facts : forall n k, has_labels n k ->
  unambiguous n /\ forall c, electric c <-> starts_with_e (label n c).
Proof.
  intros n k (ex & ey & hx & hy & hz & I & A & B & C & D & E).
  unfold systems in I. cbn [In] in I.
  repeat (destruct I as [I|I]; [injection I as <- <- <- <- <- <-|]); try contradiction;
  (split; [intros [] []; cbn [label]; rewrite ?A, ?B, ?C, ?D, ?E; intros F; (reflexivity || discriminate F)
          |intros []; cbn [label]; rewrite ?A, ?B, ?C, ?D, ?E; unfold electric, starts_with_e; split; intros F;
             first [eexists; reflexivity | left; reflexivity | right; reflexivity
                   | destruct F as [F|F]; discriminate F | destruct F as [r F]; discriminate F]]).
Qed.

Lemma find_spelling : forall s k ms, In k ms -> spelling s k ->
  (forall m, In m ms -> lower m = lower k -> m = k) -> validate_enum ms (EText s) = Ok k.
Proof.
  intros s k ms I Hs U. unfold validate_enum, normalize_case, bindR.
  destruct (List.find (matches s) ms) as [m|] eqn:F.
  - apply find_some in F. destruct F as [Im M]. unfold matches in M. apply text_eqb_true in M.
    unfold spelling in Hs. rewrite Hs in M. symmetry in M. pose proof (U m Im M) as ->.
    replace (existsb (text_eqb k) ms) with true; [reflexivity|]. symmetry. apply existsb_exists.
    exists k. split; [exact Im|]. apply text_eqb_true. reflexivity.
  - exfalso. pose proof (find_none _ _ F k I) as X. unfold matches in X. unfold spelling in Hs. rewrite Hs in X.
    assert (Y : text_eqb (lower k) (lower k) = true) by (apply text_eqb_true; reflexivity). congruence.
Qed.
Lemma keywords_lower : forall m k, In m keywords -> In k keywords -> lower m = lower k -> m = k.
Proof.
  intros m k Hm Hk H. apply keyword_cases in Hm. apply keyword_cases in Hk.
  destruct Hm as [-> | [-> | [-> | [-> | ->]]]]; destruct Hk as [-> | [-> | [-> | [-> | ->]]]];
    try reflexivity; vm_compute in H; discriminate H.
Qed.
Lemma members_lower : forall c m k, In m (members c) -> In k (members c) -> lower m = lower k -> m = k.
Proof.
  assert (G : forall c m, In m (members c) -> lower m = m).
  { intros [] m H; unfold members in H; cbn [In] in H;
      repeat (destruct H as [<-|H]; [vm_compute; reflexivity|]); contradiction. }
  intros c m k Hm Hk H. rewrite (G c m Hm), (G c k Hk) in H. exact H.
Qed.

Lemma set_label_key : forall c v n, n_key (set_label c v n) = n_key n.
Proof. intros [] v n; reflexivity. Qed.
Lemma label_set_eq : forall c v n, label (set_label c v n) c = v.
Proof. intros [] v n; reflexivity. Qed.
Lemma label_set_neq : forall c c' v n, c <> c' -> label (set_label c v n) c' = label n c'.
Proof. intros [] [] v n H; (reflexivity || contradiction (H eq_refl)). Qed.

Lemma assign_keyword_ok : forall v n n', assign_keyword v n = Ok n' ->
  exists k, validate_keyword v = Ok k /\ In k keywords /\ n' = with_labels (set_key k n) k.
Proof.
  intros v n n' H. unfold assign_keyword, bindR in H. destruct (validate_keyword v) as [k|] eqn:V; [|discriminate].
  assert (I : In k keywords) by (unfold validate_keyword in V; apply validate_in in V; exact V).
  rewrite update_ok in H by exact I. injection H as <-. exists k. auto.
Qed.
Lemma assign_keyword_of : forall v n k, validate_keyword v = Ok k ->
  assign_keyword v n = Ok (with_labels (set_key k n) k).
Proof.
  intros v n k V. unfold assign_keyword. rewrite V. cbn [bindR].
  assert (I : In k keywords) by (unfold validate_keyword in V; apply validate_in in V; exact V).
  rewrite update_ok by exact I. reflexivity.
Qed.
Lemma assign_label_ok : forall c v n n', assign_label c v n = Ok n' ->
  exists t, validate_enum (members c) v = Ok t /\ n' = set_label c t n.
Proof.
  intros c v n n' H. unfold assign_label, bindR in H. destruct (validate_enum (members c) v) as [t|] eqn:V; [|discriminate].
  injection H as <-. exists t. auto.
Qed.

Lemma history_app : forall l l' n, history n (l ++ l') = history (history n l) l'.
Proof. intros l l' n. unfold history. apply fold_left_app. Qed.
Lemma history_key_in : forall l n, In (n_key n) keywords -> In (n_key (history n l)) keywords.
Proof.
  induction l as [|o l IH]; intros n H; [exact H|].
  apply IH. unfold step. destruct (run_op o n) as [n'|] eqn:E; [|exact H].
  destruct o as [c v|v]; cbn [run_op] in E.
  - apply assign_label_ok in E. destruct E as (t & _ & ->). rewrite set_label_key. exact H.
  - apply assign_keyword_ok in E. destruct E as (k & _ & I & ->). rewrite with_labels_key. exact I.
Qed.
Lemma construct_in : forall g n, construct g = Ok n -> In (n_key n) keywords /\ has_labels n (n_key n).
Proof.
  intros g n H. unfold construct, bindR in H.
  destruct (construct_label g Ex) as [ex|]; [|discriminate]. destruct (construct_label g Ey) as [ey|]; [|discriminate].
  destruct (construct_label g Hx) as [hx|]; [|discriminate]. destruct (construct_label g Hy) as [hy|]; [|discriminate].
  destruct (construct_label g Hz) as [hz|]; [|discriminate].
  destruct (match g_key g with Some v => validate_keyword v | None => Ok (txt "default") end) as [k|] eqn:K; [|discriminate].
  assert (I : In k keywords).
  { destruct (g_key g) as [v|].
    - eapply validate_in. unfold validate_keyword in *. eassumption.
    - assert (X : k = txt "default") by congruence. rewrite X. left. reflexivity. }
  rewrite update_ok in H by exact I. injection H as <-. cbn [n_key]. rewrite with_labels_key. cbn [n_key].
  split; [exact I|]. apply with_labels_has. exact I.
Qed.
