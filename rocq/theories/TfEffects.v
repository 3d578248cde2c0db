(** What the setters of a TF object do. *)
From Coq Require Import QArith Permutation Sorting.Sorted.
From Verif Require Import PyBase PyText TextFacts JfileModel JfileData TfModel TfSpec TfProofs.
Local Open Scope nat_scope.

Lemma text_leb_antisym a : forall b, text_leb a b = true -> text_leb b a = true -> a = b.
Proof.
  induction a as [|x a IH]; intros [|y b]; cbn [text_leb]; try reflexivity; try discriminate.
  destruct (N.ltb_spec (code x) (code y)) as [L|L].
  - intros _. destruct (N.ltb_spec (code y) (code x)) as [L'|L']; [lia|]. discriminate.
  - destruct (N.ltb_spec (code y) (code x)) as [L'|L']; [discriminate|]. intros A B. f_equal; [|apply IH; assumption].
    assert (E : code x = code y) by lia. unfold code in E. rewrite <- (ascii_N_embedding x), <- (ascii_N_embedding y), E. reflexivity.
Qed.
Lemma sorted_unique l : forall l', sorted_texts l -> sorted_texts l' -> Permutation l l' -> l = l'.
Proof.
  induction l as [|x l IH]; intros l' S1 S2 P.
  - apply Permutation_nil in P. now subst.
  - destruct l' as [|y l']; [apply Permutation_sym, Permutation_nil in P; discriminate|].
    inversion S1 as [|? ? S1' F1]; subst. inversion S2 as [|? ? S2' F2]; subst. rewrite Forall_forall in F1, F2.
    assert (E : x = y).
    { destruct (text_dec x y) as [|N]; [assumption|].
      assert (A : In x l') by (assert (J : In x (y :: l')) by (apply (Permutation_in _ P); left; reflexivity); destruct J; [congruence|assumption]).
      assert (B : In y l) by (assert (J : In y (x :: l)) by (apply (Permutation_in _ (Permutation_sym P)); left; reflexivity); destruct J; [congruence|assumption]).
      apply text_leb_antisym; [apply F1, B|apply F2, A]. }
    subst y. f_equal. apply IH; try assumption. exact (Permutation_cons_inv P).
Qed.
Lemma sort_texts_perm l l' : sort_texts l = sort_texts l' <-> Permutation l l'.
Proof.
  split; intros H.
  - rewrite <- (sort_perm l), H. apply sort_perm.
  - apply sorted_unique; try apply sort_sorted. rewrite !sort_perm. exact H.
Qed.

Lemma atype_eq_model a : {a = ATfModel} + {a <> ATfModel}.
Proof. destruct a; (left; reflexivity) || (right; discriminate). Qed.

Section Numbers.
Variable num : nums.
Notation tf := (tf num).
Notation mk t d := (mkTf num (t_names num t) (t_inverse num t) d).

(** Same names and number of periods. *)
Definition kin (t t' : tf) : Prop := t_names num t' = t_names num t /\ periods num t' = periods num t /\ consistent num t'.

Lemma compute_spec t : consistent num t -> there num ARes t -> there num AIsp t ->
  exists t', compute_errors num t = (t', None) /\ kin t t' /\
    forall v p o i, entry num t' v p o i =
      match place ATfErr v o i with Some _ => kept num VErr (spread num (entry num t VRes p o o) (entry num t VIsp p i i)) | None => entry num t v p o i end.
Proof.
  intros C HR HI. unfold compute_errors.
  destruct (proj1 (get_spec num ARes t C) HR) as (r & -> & Sr). destruct (proj1 (get_spec num AIsp t C) HI) as (s & -> & Ss).
  destruct Sr as (_ & _ & _ & Sr). destruct Ss as (_ & _ & _ & Ss). eexists; split; [reflexivity|]. split; [split; [reflexivity|]; split; [reflexivity|]; destruct C as (I & M); split; [exact I|exact M]|].
  intros v p o i. set (ns := t_names num t) in *.
  change (ex_ey ns) with (map (name ns) [Ex; Ey]). change (hx_hy ns) with (map (name ns) [Hx; Hy]). change [n_hz ns] with (map (name ns) [Hz]).
  match goal with |- entry num (mkTf num ns _ (assign num ?d _ _ _ ?f)) v p o i = _ => pose proof (assign_entry num (mk t d) VErr [Hz] [Hx; Hy] f v p o i (consistent_assign num t _ _ _ _ C)) as E2 end.
  cbn [t_names t_inverse t_data] in E2. fold ns in E2. rewrite E2. clear E2.
  rewrite (assign_entry num t VErr [Ex; Ey] [Hx; Hy] _ v p o i C).
  unfold place. cbn [part rows cols]. destruct (var_dec v VErr) as [->|N]; [|reflexivity].
  assert (RX : l_at num r p (n_ex ns) (n_ex ns) = entry num t VRes p Ex Ex) by (apply (Sr p Ex Ex); cbn; tauto).
  assert (RY : l_at num r p (n_ey ns) (n_ey ns) = entry num t VRes p Ey Ey) by (apply (Sr p Ey Ey); cbn; tauto).
  assert (RZ : l_at num r p (n_hz ns) (n_hz ns) = entry num t VRes p Hz Hz) by (apply (Sr p Hz Hz); cbn; tauto).
  assert (SX : l_at num s p (n_hx ns) (n_hx ns) = entry num t VIsp p Hx Hx) by (apply (Ss p Hx Hx); cbn; tauto).
  assert (SY : l_at num s p (n_hy ns) (n_hy ns) = entry num t VIsp p Hy Hy) by (apply (Ss p Hy Hy); cbn; tauto).
  rewrite <- ?RX, <- ?RY, <- ?RZ, <- ?SX, <- ?SY. 
  destruct o; destruct i; cbn [at_place chan_dec chan_rec chan_rect sumbool_rec sumbool_rect]; rewrite <- ?RX, <- ?RY, <- ?RZ, <- ?SX, <- ?SY; reflexivity.
Qed.

Lemma compute_nothing t : consistent num t -> there num ARes t -> ~ there num AIsp t -> compute_errors num t = (t, Some AttributeError).
Proof.
  intros C HR HI. unfold compute_errors. destruct (proj1 (get_spec num ARes t C) HR) as (r & -> & _). rewrite (proj2 (get_spec num AIsp t C) HI). reflexivity.
Qed.
Lemma compute_nothing' t : consistent num t -> ~ there num ARes t -> compute_errors num t = (t, Some AttributeError).
Proof. intros C HR. unfold compute_errors. rewrite (proj2 (get_spec num ARes t C) HR). reflexivity. Qed.

(** After the array is in its place. *)
Definition finish (a : atype) (t1 : tf) : tf * option exn :=
  match a with
  | AIsp => match has_residual_covariance num t1 with Err e => (t1, Some e) | Ok false => (t1, None) | Ok true => compute_errors num t1 end
  | ARes => match has_inverse_signal_power num t1 with Err e => (t1, Some e) | Ok false => (t1, None) | Ok true => compute_errors num t1 end
  | _ => (t1, None)
  end.
Lemma set_finish a v t : set num a v t = match set_data_array num t v a with (t1, Some e) => (t1, Some e) | (t1, None) => finish a t1 end.
Proof. unfold set, finish. destruct (set_data_array num t v a) as [t1 [e|]]; reflexivity. Qed.

Definition other (a : atype) : atype := match a with AIsp => ARes | _ => AIsp end.
Lemma finish_plain a t1 : covariance a = false -> finish a t1 = (t1, None).
Proof. destruct a; try reflexivity; discriminate. Qed.
Lemma finish_alone a t1 : consistent num t1 -> ~ there num (other a) t1 -> finish a t1 = (t1, None).
Proof.
  intros C N. destruct a; try reflexivity; cbn [finish other] in *.
  - destruct (has_spec num ARes t1 C) as (h & E & H). cbn in E. rewrite E. destruct h; [destruct (N (proj1 H eq_refl))|reflexivity].
  - destruct (has_spec num AIsp t1 C) as (h & E & H). cbn in E. rewrite E. destruct h; [destruct (N (proj1 H eq_refl))|reflexivity].
Qed.
Lemma finish_both a t1 : covariance a = true -> consistent num t1 -> there num (other a) t1 -> finish a t1 = compute_errors num t1.
Proof.
  intros Ca C T. destruct a; try discriminate Ca; cbn [finish other] in *.
  - destruct (has_spec num ARes t1 C) as (h & E & H). cbn in E. rewrite E, (proj2 H T). reflexivity.
  - destruct (has_spec num AIsp t1 C) as (h & E & H). cbn in E. rewrite E, (proj2 H T). reflexivity.
Qed.
Lemma there_decides a t : consistent num t -> there num a t \/ ~ there num a t.
Proof. intros C. destruct (has_spec num a t C) as (h & _ & H). destruct h; [left; apply H; reflexivity|right; rewrite <- H; discriminate]. Qed.

(** What finishing does to the entries. *)
Lemma same_kin t : consistent num t -> kin t t.
Proof. intros C. split; [reflexivity|]. split; [reflexivity|exact C]. Qed.
Lemma finish_spec a t1 : consistent num t1 ->
  exists t2 e, finish a t1 = (t2, e) /\ kin t1 t2 /\ (forall v p o i, v <> VErr \/ covariance a = false -> entry num t2 v p o i = entry num t1 v p o i) /\
    (e = None \/ (e = Some AttributeError /\ covariance a = true /\ t2 = t1)).
Proof.
  intros C. destruct (covariance a) eqn:Ca.
  - destruct (there_decides (other a) t1 C) as [T|T].
    + rewrite (finish_both a t1 Ca C T).
      destruct (there_decides ARes t1 C) as [R|R]; [|rewrite (compute_nothing' t1 C R); exists t1; eexists; split; [reflexivity|]; split; [apply same_kin, C|]; split; [reflexivity|right; auto]].
      destruct (there_decides AIsp t1 C) as [S0|S0]; [|rewrite (compute_nothing t1 C R S0); exists t1; eexists; split; [reflexivity|]; split; [apply same_kin, C|]; split; [reflexivity|right; auto]].
      destruct (compute_spec t1 C R S0) as (t2 & E & K & V). rewrite E. exists t2; eexists; split; [reflexivity|]. split; [exact K|]. split; [|left; reflexivity].
      intros v p o i [N|N]; [|discriminate]. rewrite V. unfold place. cbn [part]. destruct (var_dec v VErr); [contradiction|reflexivity].
    + rewrite (finish_alone a t1 C T). exists t1; eexists; split; [reflexivity|]. split; [apply same_kin, C|]. split; [reflexivity|left; reflexivity].
  - rewrite (finish_plain a t1 Ca). exists t1; eexists; split; [reflexivity|]. split; [apply same_kin, C|]. split; [reflexivity|left; reflexivity].
Qed.

(** The object started again. *)
Definition again (t : tf) (l : list Q) : tf := mk t (initialize num (t_names num t) l).
Lemma again_consistent t l : consistent num t -> consistent num (again t l).
Proof. intros (I & _). split; [exact I|]. intros c. destruct c; cbn; tauto. Qed.
Lemma again_entry t l v p o i : entry num (again t l) v p o i = vzero num.
Proof. reflexivity. Qed.

(** The values of a labelled array, in the order of the labels expected. *)
Definition by_label (ns : names) (a : atype) (outs ins : list text) (f : nat -> nat -> nat -> val num) (p r c : nat) : val num :=
  match nth_error (map (name ns) (rows a)) r, nth_error (map (name ns) (cols a)) c with
  | Some o, Some i => match index_of o outs, index_of i ins with Some r', Some c' => f p r' c' | _, _ => vzero num end
  | _, _ => vzero num end.

(** A TF that an array with labels starts again. *)
Definition restarts (t : tf) : Prop := length (periods num t) = 1 /\ ~ there num ATip t /\ ~ there num AImp t.
Lemma restarts_decides t : consistent num t -> restarts t \/ ~ restarts t.
Proof.
  intros C. unfold restarts. destruct (Nat.eq_dec (length (periods num t)) 1); [|tauto]. destruct (there_decides ATip t C); [tauto|]. destruct (there_decides AImp t C); tauto.
Qed.

Lemma set_labelled a l outs ins f t : consistent num t -> a <> ATfModel ->
  Permutation (map (name (t_names num t)) (rows a)) outs -> Permutation (map (name (t_names num t)) (cols a)) ins ->
  let put t0 := mk t0 (assign num (t_data num t0) (part a) (map (name (t_names num t0)) (rows a)) (map (name (t_names num t0)) (cols a)) (by_label (t_names num t) a outs ins f)) in
  (restarts t -> set_data_array num t (GData num l outs ins f) a = (put (again t l), None)) /\
  (~ restarts t -> same_periods l (periods num t) = true -> set_data_array num t (GData num l outs ins f) a = (put t, None)) /\
  (~ restarts t -> length l <> length (periods num t) -> set_data_array num t (GData num l outs ins f) a = (t, Some TFError)) /\
  (~ restarts t -> length l = length (periods num t) -> same_periods l (periods num t) = false -> set_data_array num t (GData num l outs ins f) a = (t, Some IndexError)).
Proof.
  intros C Ha Po Pi put. unfold set_data_array. rewrite ch_in_cols, ch_out_rows by exact Ha. unfold validate_dataarray.
  apply sort_texts_perm in Po, Pi. rewrite Po, Pi. destruct (list_eq_dec text_dec (sort_texts outs) (sort_texts outs)) as [_|N]; [|contradiction].
  destruct (list_eq_dec text_dec (sort_texts ins) (sort_texts ins)) as [_|N]; [|contradiction]. cbn [negb].
  destruct (has_spec num ATip t C) as (ht & Et & Ht). destruct (has_spec num AImp t C) as (hi & Ei & Hi). cbn in Et, Ei. rewrite Et, Ei. cbn [bindR].
  assert (First : forall b, (b = true <-> restarts t) -> (if length (d_periods num (t_data num t)) =? 1 then if ht then Ok false else Ok (negb hi) else Ok false) = Ok b).
  { intros b Hb. unfold restarts, periods in Hb. destruct (Nat.eqb_spec (length (d_periods num (t_data num t))) 1) as [E|E].
    - destruct ht; [|destruct hi]; cbn [negb]; f_equal; symmetry; destruct b; try reflexivity.
      + destruct (proj1 (proj2 (proj1 Hb eq_refl)) (proj1 Ht eq_refl)).
      + destruct (proj2 (proj2 (proj1 Hb eq_refl)) (proj1 Hi eq_refl)).
      + apply Hb. split; [exact E|]. split; [intros X; apply Ht in X; discriminate|intros X; apply Hi in X; discriminate].
    - f_equal. destruct b; [|reflexivity]. destruct (E (proj1 (proj1 Hb eq_refl))). }
  split; [|split; [|split]].
  - intros R. rewrite (First true (conj (fun _ => R) (fun _ => eq_refl))). cbn [bindR t_data]. destruct (again_consistent t l C) as (_ & M). cbn [again t_data] in M.
    rewrite (located_names num (initialize num (t_names num t) l) (t_names num t) (rows a) (cols a) M). cbn [initialize d_periods]. rewrite same_periods_refl. rewrite key_part. reflexivity.
  - intros R Sp. rewrite (First false (conj (fun E => False_ind _ (Bool.diff_false_true E)) (fun X => False_ind _ (R X)))). cbn [bindR].
    pose proof (same_periods_length _ _ Sp) as Le. unfold periods in Le, Sp. rewrite <- Le, Nat.eqb_refl. destruct C as (_ & M). rewrite (located_names num _ _ (rows a) (cols a) M). rewrite Sp, key_part. reflexivity.
  - intros R Le. rewrite (First false (conj (fun E => False_ind _ (Bool.diff_false_true E)) (fun X => False_ind _ (R X)))). cbn [bindR]. unfold periods in Le.
    destruct (Nat.eqb_spec (length (d_periods num (t_data num t))) (length l)); [congruence|reflexivity].
  - intros R Le Sp. rewrite (First false (conj (fun E => False_ind _ (Bool.diff_false_true E)) (fun X => False_ind _ (R X)))). cbn [bindR].
    unfold periods in Le, Sp. rewrite <- Le, Nat.eqb_refl. destruct C as (_ & M). rewrite (located_names num _ _ (rows a) (cols a) M). rewrite Sp. reflexivity.
Qed.
Lemma bad_labels a l outs ins f t : a <> ATfModel ->
  ~ (Permutation (map (name (t_names num t)) (rows a)) outs /\ Permutation (map (name (t_names num t)) (cols a)) ins) ->
  set_data_array num t (GData num l outs ins f) a = (t, Some TFError).
Proof.
  intros Ha N. unfold set_data_array. rewrite ch_in_cols, ch_out_rows by exact Ha. unfold validate_dataarray.
  destruct (list_eq_dec text_dec (sort_texts _) (sort_texts outs)) as [E|_]; [|reflexivity]. destruct (list_eq_dec text_dec (sort_texts _) (sort_texts ins)) as [E'|_]; [|reflexivity].
  destruct N. split; apply sort_texts_perm; assumption.
Qed.

(** Whatever is given: the object as it was, or with the array in its place, perhaps started again before. *)
Lemma set_data_spec a v t : consistent num t -> exists t1 e, set_data_array num t v a = (t1, e) /\ consistent num t1 /\ t_names num t1 = t_names num t /\
  (e <> None -> t1 = t) /\
  (e = None -> (v = GNone num /\ t1 = t) \/
     (a <> ATfModel /\ exists t0 f, (t0 = t \/ (restarts t /\ exists l outs ins g, v = GData num l outs ins g /\ t0 = again t l)) /\
       t1 = mk t0 (assign num (t_data num t0) (part a) (map (name (t_names num t0)) (rows a)) (map (name (t_names num t0)) (cols a)) f))).
Proof.
  intros C.
  assert (Same : forall e, set_data_array num t v a = (t, Some e) -> exists t1 e, set_data_array num t v a = (t1, e) /\ consistent num t1 /\ t_names num t1 = t_names num t /\ (e <> None -> t1 = t) /\
    (e = None -> (v = GNone num /\ t1 = t) \/ (a <> ATfModel /\ exists t0 f, (t0 = t \/ (restarts t /\ exists l outs ins g, v = GData num l outs ins g /\ t0 = again t l)) /\
       t1 = mk t0 (assign num (t_data num t0) (part a) (map (name (t_names num t0)) (rows a)) (map (name (t_names num t0)) (cols a)) f)))).
  { intros e E. rewrite E. exists t, (Some e). split; [reflexivity|]. split; [exact C|]. split; [reflexivity|]. split; [reflexivity|discriminate]. }
  destruct (atype_eq_model a) as [->|Ha].
  { destruct v; try (apply (Same KeyError); reflexivity). exists t, None. cbn. split; [reflexivity|]. split; [exact C|]. split; [reflexivity|]. split; [reflexivity|]. intros _. left. auto. }
  destruct v as [|shape f|l outs ins f| |].
  - exists t, None. split; [reflexivity|]. split; [exact C|]. split; [reflexivity|]. split; [reflexivity|]. intros _. left. auto.
  - destruct (list_eq_dec Nat.eq_dec shape [length (periods num t); length (rows a); length (cols a)]) as [F|F].
    + rewrite (set_array num a shape f t C Ha F). eexists; eexists. split; [reflexivity|]. split; [apply consistent_assign, C|]. split; [reflexivity|]. split; [intros N; destruct (N eq_refl)|]. intros _. right. split; [exact Ha|]. exists t, f. split; [left; reflexivity|reflexivity].
    + apply (Same TFError), bad_array; assumption.
  - assert (D : (Permutation (map (name (t_names num t)) (rows a)) outs /\ Permutation (map (name (t_names num t)) (cols a)) ins) \/ ~ (Permutation (map (name (t_names num t)) (rows a)) outs /\ Permutation (map (name (t_names num t)) (cols a)) ins)).
    { destruct (list_eq_dec text_dec (sort_texts (map (name (t_names num t)) (rows a))) (sort_texts outs)) as [E|E]; rewrite sort_texts_perm in E; [|tauto].
      destruct (list_eq_dec text_dec (sort_texts (map (name (t_names num t)) (cols a))) (sort_texts ins)) as [E'|E']; rewrite sort_texts_perm in E'; tauto. }
    destruct D as [(Po & Pi)|D]; [|apply (Same TFError), bad_labels; assumption].
    destruct (set_labelled a l outs ins f t C Ha Po Pi) as (A & B & B' & B'').
    destruct (restarts_decides t C) as [R|R].
    + rewrite (A R). eexists; eexists. split; [reflexivity|]. split; [apply (consistent_assign num (again t l)), again_consistent, C|]. split; [reflexivity|]. split; [intros N; destruct (N eq_refl)|].
      intros _. right. split; [exact Ha|]. exists (again t l). eexists. split; [right; split; [exact R|]; exists l, outs, ins, f; auto|reflexivity].
    + destruct (Nat.eq_dec (length l) (length (periods num t))) as [Le|Le]; [|apply (Same TFError), (B' R Le)].
      destruct (same_periods l (periods num t)) eqn:Sp; [|apply (Same IndexError), (B'' R Le eq_refl)].
      rewrite (B R eq_refl). eexists; eexists. split; [reflexivity|]. split; [apply consistent_assign, C|]. split; [reflexivity|]. split; [intros N; destruct (N eq_refl)|].
      intros _. right. split; [exact Ha|]. exists t. eexists. split; [left; reflexivity|reflexivity].
  - apply (Same TFError). unfold set_data_array. rewrite ch_in_cols, ch_out_rows by exact Ha. reflexivity.
  - apply (Same TFError). unfold set_data_array. rewrite ch_in_cols, ch_out_rows by exact Ha. reflexivity.
Qed.

(** Frame: what a setting that did not raise leaves. *)
Lemma set_frame a v t t' : consistent num t -> set num a v t = (t', None) -> (length (periods num t) <> 1 \/ (forall l o i g, v <> GData num l o i g)) ->
  kin t t' /\ forall w p o i, place a w o i = None -> ~ (w = VErr /\ covariance a = true) -> entry num t' w p o i = entry num t w p o i.
Proof.
  intros C E N. rewrite set_finish in E. destruct (set_data_spec a v t C) as (t1 & e & E1 & C1 & Nm & _ & S1). rewrite E1 in E. destruct e as [e|]; [discriminate|].
  destruct (finish_spec a t1 C1) as (t2 & e2 & E2 & (K1 & K2 & K3) & V & _). rewrite E2 in E. injection E as -> ->.
  destruct (S1 eq_refl) as [(-> & ->)|(Ha & t0 & f & T0 & ->)].
  - split; [split; [exact K1|split; [exact K2|exact K3]]|]. intros w p o i P Q0. apply V. destruct (var_dec w VErr); [right; destruct (covariance a); tauto|left; assumption].
  - assert (T : t0 = t). { destruct T0 as [T0|((R & _) & l & outs & ins & g & Ev & _)]; [exact T0|]. destruct N as [N|N]; [contradiction|destruct (N l outs ins g Ev)]. }
    subst t0. split; [split; [exact K1|split; [exact K2|exact K3]]|]. intros w p o i P Q0. rewrite V by (destruct (var_dec w VErr); [right; destruct (covariance a); tauto|left; assumption]).
    rewrite assign_entry by exact C. unfold place in P. destruct (var_dec w (part a)); [|reflexivity]. destruct (at_place chan_dec o (rows a)); [|reflexivity]. destruct (at_place chan_dec i (cols a)); [discriminate|reflexivity].
Qed.
Lemma set_period_frame l t t' : consistent num t -> set_period num l t = (t', None) -> length (periods num t) <> 1 ->
  t_names num t' = t_names num t /\ length (periods num t') = length (periods num t) /\ consistent num t' /\ forall w p o i, entry num t' w p o i = entry num t w p o i.
Proof.
  intros C E N. unfold set_period in E. unfold periods in N. destruct (Nat.eqb_spec (length (d_periods num (t_data num t))) 1); [contradiction|]. cbn [andb] in E.
  destruct (Nat.eqb_spec (length l) (length (d_periods num (t_data num t)))) as [Le|]; [|discriminate]. cbn [negb] in E.
  destruct (same_periods (d_periods num (t_data num t)) l); cbn [negb] in E; injection E as <-.
  - split; [reflexivity|]. split; [reflexivity|]. split; [exact C|reflexivity].
  - split; [reflexivity|]. split; [exact Le|]. split; [destruct C as (I & M); split; [exact I|exact M]|reflexivity].
Qed.
Lemma run_frame a os : forall t t', consistent num t -> run os t = (t', None) -> (length (periods num t) <> 1 \/ Forall plain os) -> Forall (leaves a) os ->
  consistent num t' /\ t_names num t' = t_names num t /\ length (periods num t') = length (periods num t) /\
  forall p o i, place a (part a) o i <> None -> entry num t' (part a) p o i = entry num t (part a) p o i.
Proof.
  induction os as [|o os IH]; intros t t' C E N L; cbn [run] in E.
  - injection E as <-. split; [exact C|]. split; [reflexivity|]. split; reflexivity.
  - destruct (step o t) as [t1 [e|]] eqn:E1; [discriminate|]. apply Forall_inv in L as L0. apply Forall_inv_tail in L.
    assert (K : consistent num t1 /\ t_names num t1 = t_names num t /\ length (periods num t1) = length (periods num t) /\
      forall p o i, place a (part a) o i <> None -> entry num t1 (part a) p o i = entry num t (part a) p o i).
    { destruct o as [b v|l]; cbn [step] in E1.
      - destruct (set_frame b v t t1 C E1) as ((K1 & K2 & K3) & V).
        { destruct N as [N|N]; [left; exact N|right]. apply Forall_inv in N. intros l o i g ->. exact N. }
        split; [exact K3|]. split; [exact K1|]. split; [now rewrite K2|]. destruct L0 as (S1 & S2). intros p o i P. apply V; [apply S1, P|]. intros (X & Y). apply S2. split; assumption.
      - destruct N as [N|N]; [|apply Forall_inv in N; destruct N].
        destruct (set_period_frame l t t1 C E1 N) as (K1 & K2 & K3 & V). split; [exact K3|]. split; [exact K1|]. split; [exact K2|]. intros p o i _. apply V. }
    destruct K as (K1 & K2 & K3 & K4).
    destruct (IH t1 t' K1 E) as (J1 & J2 & J3 & J4).
    { destruct N as [N|N]; [left; rewrite K3; exact N|right; exact (Forall_inv_tail N)]. }
    { exact L. }
    split; [exact J1|]. split; [now rewrite J2|]. split; [now rewrite J3|]. intros p o' i P. rewrite J4 by exact P. apply K4, P.
Qed.
End Numbers.
