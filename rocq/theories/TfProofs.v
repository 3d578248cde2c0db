(** Lemmas about the model of TF objects. *)
From Coq Require Import QArith Permutation.
From Verif Require Import PyBase PyText TextFacts JfileModel JfileData TfModel TfSpec.
Local Open Scope nat_scope.

Lemma text_eqb_dec a b : text_eqb a b = if text_dec a b then true else false.
Proof. destruct (text_dec a b) as [->|N]; [apply text_eqb_refl|]. destruct (text_eqb a b) eqn:E; [apply text_eqb_eq in E; contradiction|reflexivity]. Qed.
Lemma index_In x l : (exists n, index_of x l = Some n) <-> In x l.
Proof.
  induction l as [|y r IH]; cbn; [split; [intros (n & E); discriminate|tauto]|].
  rewrite text_eqb_dec. destruct (text_dec x y) as [->|N].
  - split; [left; reflexivity|exists 0; reflexivity].
  - rewrite <- IH. destruct (index_of x r) as [n|]; cbn; split.
    + intros _; right; exists n; reflexivity.
    + intros _; exists (S n); reflexivity.
    + intros (n & E); discriminate.
    + intros [E|(n & E)]; [congruence|discriminate].
Qed.
Lemma member_In x l : member x l = true <-> In x l.
Proof. rewrite <- index_In. unfold member. destruct (index_of x l) as [n|]; split; intros H; [exists n; reflexivity|reflexivity|discriminate|destruct H; discriminate]. Qed.
Lemma index_map ns l o : (forall c c', name ns c = name ns c' -> c = c') -> index_of (name ns o) (map (name ns) l) = at_place chan_dec o l.
Proof.
  intros I. induction l as [|y r IH]; [reflexivity|]. cbn [map index_of at_place]. rewrite text_eqb_dec.
  destruct (text_dec (name ns o) (name ns y)) as [E|N]; destruct (chan_dec o y) as [E'|N'].
  - reflexivity. - apply I in E; contradiction. - subst; contradiction.
  - rewrite IH. now destruct (at_place chan_dec o r).
Qed.
Lemma at_place_nth {A} dec (x : A) l n : at_place dec x l = Some n -> nth_error l n = Some x.
Proof.
  revert n. induction l as [|y r IH]; intros n; cbn [at_place]; [discriminate|]. destruct (dec x y) as [->|N].
  - intros [= <-]; reflexivity. - destruct (at_place dec x r) as [m|]; [|discriminate]. intros [= <-]. cbn. apply IH; reflexivity.
Qed.
Lemma at_place_In {A} dec (x : A) l : In x l -> exists n, at_place dec x l = Some n.
Proof.
  induction l as [|y r IH]; [intros []|]. intros H. cbn [at_place]. destruct (dec x y) as [->|N]; [exists 0; reflexivity|].
  destruct H as [->|H]; [contradiction|]. destruct (IH H) as (n & ->). exists (S n); reflexivity.
Qed.
Lemma at_place_In' {A} dec (x : A) l n : at_place dec x l = Some n -> In x l.
Proof. intros E. apply at_place_nth, nth_error_In in E. exact E. Qed.

Lemma ch_in_cols ns a : a <> ATfModel -> ch_in ns a = Some (map (name ns) (cols a)).
Proof. destruct a; intros H; try reflexivity; contradiction. Qed.
Lemma ch_out_rows ns a : a <> ATfModel -> ch_out ns a = Some (map (name ns) (rows a)).
Proof. destruct a; intros H; try reflexivity; contradiction. Qed.
Lemma key_part a : key_of a = part a.
Proof. destruct a; reflexivity. Qed.
Lemma shape_rows a : shape_of a = [length (rows a); length (cols a)].
Proof. destruct a; reflexivity. Qed.
Lemma var_eqb_dec v w : var_eqb v w = if var_dec v w then true else false.
Proof. destruct v, w; reflexivity. Qed.
Lemma same_periods_refl l : same_periods l l = true.
Proof. induction l as [|x l IH]; [reflexivity|]. cbn. rewrite IH, (proj2 (Qeq_bool_iff x x) (Qeq_refl x)). reflexivity. Qed.
Lemma same_periods_length l : forall l', same_periods l l' = true -> length l = length l'.
Proof. induction l as [|x l IH]; intros [|y l']; cbn; try discriminate; try reflexivity. intros H. apply andb_prop in H. f_equal. apply IH, H. Qed.

Section Numbers.
Variable num : nums.
Notation tf := (tf num).
Notation mk t d := (mkTf num (t_names num t) (t_inverse num t) d).

Lemma located_names d ns outs ins : (forall c, In (name ns c) (d_labels num d)) -> located num d (map (name ns) outs) (map (name ns) ins) = true.
Proof.
  intros H. unfold located. apply andb_true_intro. split; apply forallb_forall; intros x Hx; apply in_map_iff in Hx; destruct Hx as (c & <- & _); apply member_In, H.
Qed.

Lemma assign_entry t v outs ins f w p o i : consistent num t ->
  entry num (mk t (assign num (t_data num t) v (map (name (t_names num t)) outs) (map (name (t_names num t)) ins) f)) w p o i =
  if var_dec w v then match at_place chan_dec o outs, at_place chan_dec i ins with
    | Some r, Some c => kept num v (f p r c) | _, _ => entry num t w p o i end else entry num t w p o i.
Proof.
  intros (I & _). unfold entry, assign. cbn [t_data t_names d_at]. rewrite var_eqb_dec, !index_map by exact I.
  destruct (var_dec w v); [|reflexivity]. destruct (at_place chan_dec o outs) as [r|]; [|reflexivity]. destruct (at_place chan_dec i ins) as [c|]; [|reflexivity].
  destruct v; reflexivity.
Qed.

Lemma all_zero_iff test d v ns outs ins :
  all_zero num test d v (map (name ns) outs) (map (name ns) ins) = true <->
  forall p o i, p < length (d_periods num d) -> In o outs -> In i ins -> test (d_at num d v p (name ns o) (name ns i)) = true.
Proof.
  unfold all_zero. rewrite forallb_forall. setoid_rewrite forallb_forall. setoid_rewrite forallb_forall. split.
  - intros H p o i Hp Ho Hi. apply H; [apply in_seq; lia|apply in_map, Ho|apply in_map, Hi].
  - intros H p Hp o Ho i Hi. apply in_map_iff in Ho, Hi. destruct Ho as (o' & <- & Ho), Hi as (i' & <- & Hi). apply H; [apply in_seq in Hp; lia|exact Ho|exact Hi].
Qed.
Lemma zero_or_nan_iff x : zero_or_nan num x = true <-> nothing num ATip x.
Proof. unfold zero_or_nan, nothing. rewrite orb_true_iff. intuition. Qed.

(** The five tests. *)
Definition has (a : atype) (t : tf) : result bool :=
  match base a with
  | AImp => has_impedance num t | ATip => has_tipper num t | AIsp => has_inverse_signal_power num t
  | ARes => has_residual_covariance num t | _ => has_transfer_function num t end.

Lemma there_dec a t h : (h = false <-> forall p o i, p < length (periods num t) -> In o (rows (base a)) -> In i (cols (base a)) -> nothing num (base a) (entry num t (part (base a)) p o i)) ->
  (h = true <-> there num a t).
Proof.
  intros H. split.
  - intros E. destruct (Bool.bool_dec h false) as [E'|_]; [congruence|].
    assert (N : ~ forall p o i, p < length (periods num t) -> In o (rows (base a)) -> In i (cols (base a)) -> nothing num (base a) (entry num t (part (base a)) p o i)) by (rewrite <- H; congruence).
    (* decide each entry *)
    assert (D : forall x, {nothing num (base a) x} + {~ nothing num (base a) x}).
    { intros x. unfold nothing. destruct (is_zero num x) eqn:Ez; [left; left; reflexivity|]. destruct (is_nan num x) eqn:En.
      - destruct (base a); try (right; intros [?|(? & ?)]; discriminate). left; right; split; reflexivity.
      - right; intros [?|(? & ?)]; discriminate. }
    set (P p o i := nothing num (base a) (entry num t (part (base a)) p o i)).
    assert (X : forall os is p, (forall o i, In o os -> In i is -> P p o i) \/ exists o i, In o os /\ In i is /\ ~ P p o i).
    { intros os is p. induction os as [|o os IH]; [left; intros o i []|]. destruct IH as [IH|(o' & i' & A & B & C)]; [|right; exists o', i'; cbn; tauto].
      assert (Y : (forall i, In i is -> P p o i) \/ exists i, In i is /\ ~ P p o i).
      { clear IH. induction is as [|i is IH]; [left; intros i []|]. destruct IH as [IH|(i' & A & B)]; [|right; exists i'; cbn; tauto].
        destruct (D (entry num t (part (base a)) p o i)) as [d|d]; [left|right; exists i; cbn; tauto]. intros i' [<-|Hi]; [exact d|apply IH, Hi]. }
      destruct Y as [Y|(i & A & B)]; [left|right; exists o, i; cbn; tauto]. intros o' i' [<-|Ho] Hi; [apply Y, Hi|apply IH; assumption]. }
    assert (W : forall n, (forall p, p < n -> forall o i, In o (rows (base a)) -> In i (cols (base a)) -> P p o i) \/ exists p o i, p < n /\ In o (rows (base a)) /\ In i (cols (base a)) /\ ~ P p o i).
    { induction n as [|n IH]; [left; intros p Hp; lia|]. destruct IH as [IH|(p & o & i & A & B & C & F)]; [|right; exists p, o, i; repeat split; try assumption; lia].
      destruct (X (rows (base a)) (cols (base a)) n) as [Y|(o & i & A & B & C)]; [left|right; exists n, o, i; repeat split; try assumption; lia].
      intros p Hp o i Ho Hi. destruct (Nat.eq_dec p n) as [->|]; [apply Y; assumption|apply IH; try assumption; lia]. }
    destruct (W (length (periods num t))) as [Y|(p & o & i & A & B & C & F)]; [exfalso; apply N; intros p o i A B C; apply (Y p A o i B C)|exists p, o, i; repeat split; assumption].
  - intros (p & o & i & A & B & C & F). destruct h; [reflexivity|]. destruct (F (proj1 H eq_refl p o i A B C)).
Qed.

Lemma has_spec a t : consistent num t -> exists h, has a t = Ok h /\ (h = true <-> there num a t).
Proof.
  intros (I & M). set (ns := t_names num t) in *.
  assert (ME : forall c, member (name ns c) (d_labels num (t_data num t)) = true) by (intros c; apply member_In, M).
  assert (MX := ME Ex). assert (MZ := ME Hz). cbn [name] in MX, MZ.
  assert (L : forall outs ins, located num (t_data num t) (map (name ns) outs) (map (name ns) ins) = true) by (intros; apply located_names, M).
  assert (G : forall test v outs ins, (base a = ATip -> test = zero_or_nan num) -> (base a <> ATip -> test = is_zero num) -> outs = rows (base a) -> ins = cols (base a) -> v = part (base a) ->
     negb (all_zero num test (t_data num t) v (map (name ns) outs) (map (name ns) ins)) = true <-> there num a t).
  { intros test v outs ins T1 T2 -> -> ->. apply there_dec. rewrite negb_false_iff, all_zero_iff. unfold periods, entry. fold ns.
    assert (T : forall x, test x = true <-> nothing num (base a) x).
    { intros x. destruct (base a) eqn:Eb; try (rewrite (T2 ltac:(congruence)); unfold nothing; intuition congruence). rewrite (T1 eq_refl). apply zero_or_nan_iff. }
    split; intros H p o i Hp Ho Hi; apply T, H; assumption. }
  unfold has.
  destruct a eqn:Ea; cbn [base]; unfold has_transfer_function, has_impedance, has_tipper, has_inverse_signal_power, has_residual_covariance; fold ns; rewrite ?MX, ?MZ; cbn [orb];
    change (ex_ey_hz ns) with (map (name ns) [Ex; Ey; Hz]); change (ex_ey ns) with (map (name ns) [Ex; Ey]); change (hx_hy ns) with (map (name ns) [Hx; Hy]); change [n_hz ns] with (map (name ns) [Hz]);
    rewrite L; (eexists; split; [reflexivity|]; apply G; cbn [base]; try reflexivity; congruence).
Qed.

Lemma get_spec a t : consistent num t ->
  (there num a t -> exists l, get num a t = Ok (Some l) /\ shows num t a l) /\ (~ there num a t -> get num a t = Ok None).
Proof.
  intros C. destruct (has_spec a t C) as (h & Eh & Ht). destruct C as (I & M). set (ns := t_names num t) in *.
  assert (L : forall outs ins, located num (t_data num t) (map (name ns) outs) (map (name ns) ins) = true) by (intros; apply located_names, M).
  assert (G : get num a t = getter num (has a t) (select num (t_data num t) (part a) (map (name ns) (rows a)) (map (name ns) (cols a)))) by (destruct a; reflexivity).
  rewrite G. unfold getter, select. rewrite Eh, L. cbn [bindR]. split; intros H.
  - rewrite (proj2 Ht H). eexists; split; [reflexivity|]. unfold shows. cbn [l_periods l_outs l_ins l_at]. repeat split.
  - destruct h; [destruct (H (proj1 Ht eq_refl))|reflexivity].
Qed.

Lemma consistent_assign t v outs ins f : consistent num t -> consistent num (mk t (assign num (t_data num t) v outs ins f)).
Proof. intros (I & M). split; [exact I|exact M]. Qed.

(** An array, given to [_set_data_array]. *)
Lemma set_array a shape f t : consistent num t -> a <> ATfModel -> fits num t a shape ->
  set_data_array num t (GArray num shape f) a =
  (mk t (assign num (t_data num t) (part a) (map (name (t_names num t)) (rows a)) (map (name (t_names num t)) (cols a)) f), None).
Proof.
  intros (I & M) Ha F. unfold set_data_array. rewrite ch_in_cols, ch_out_rows by exact Ha. unfold validate_ndarray. rewrite F. cbn [tl hd].
  rewrite shape_rows. destruct (list_eq_dec _ _ _) as [_|N]; [|contradiction]. cbn [negb]. unfold periods. rewrite Nat.eqb_refl. cbn [negb].
  rewrite located_names by exact M. rewrite key_part. reflexivity.
Qed.
Lemma bad_array a shape f t : a <> ATfModel -> ~ fits num t a shape -> set_data_array num t (GArray num shape f) a = (t, Some TFError).
Proof.
  intros Ha F. unfold set_data_array. rewrite ch_in_cols, ch_out_rows by exact Ha. unfold validate_ndarray. rewrite shape_rows.
  destruct (list_eq_dec _ _ _) as [E|N]; [|reflexivity]. cbn [negb]. destruct (hd 0 shape =? _) eqn:E2; [|reflexivity]. apply Nat.eqb_eq in E2.
  destruct F. destruct shape as [|n r]; [discriminate E|]. cbn in E, E2. unfold fits, periods. rewrite E2, E. reflexivity.
Qed.

End Numbers.
