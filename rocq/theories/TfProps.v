(** C89 and C90: transfer functions, errors and covariances of a TF object. *)
From Coq Require Import QArith Reals Permutation Lra.
From Verif Require Import PyBase PyText TfModel TfSpec TfProofs TfEffects Cplx.
Local Open Scope nat_scope.

Section Numbers.
Variable num : nums.
Notation entry := (entry num).

(** ** C89 *)
(** An array of the right shape gets into its place and nothing else changes, but the errors when a
    covariance is set.  Only a covariance of zeros beside the other one raises. *)
Theorem C89_set t a shape f : consistent num t -> a <> ATfModel -> fits num t a shape ->
  exists t' e, set num a (GArray num shape f) t = (t', e) /\ like t t' /\ consistent num t' /\
    (forall p o i r c, place a (part a) o i = Some (r, c) -> entry t' (part a) p o i = kept num (part a) (f p r c)) /\
    (forall v p o i, place a v o i = None -> ~ (v = VErr /\ covariance a = true) -> entry t' v p o i = entry t v p o i) /\
    (e = None \/ e = Some AttributeError) /\ (e = Some AttributeError <-> covariance a = true /\ there num (partner a) t' /\ ~ there num a t').
Proof.
  intros C Ha F. rewrite set_finish, (set_array num a shape f t C Ha F).
  match goal with |- context [finish num a ?x] => set (t1 := x) end.
  assert (C1 : consistent num t1) by apply consistent_assign, C.
  assert (V1 : forall v p o i, entry t1 v p o i = if var_dec v (part a) then match at_place chan_dec o (rows a), at_place chan_dec i (cols a) with Some r, Some c => kept num (part a) (f p r c) | _, _ => entry t v p o i end else entry t v p o i) by (intros; apply assign_entry, C).
  destruct (finish_spec num a t1 C1) as (t2 & e & E & (K1 & K2 & K3) & V & X). rewrite E. exists t2, e.
  split; [reflexivity|]. split; [split; [exact K1|exact K2]|]. split; [exact K3|].
  assert (NE : part a <> VErr \/ covariance a = false) by (destruct a; (left; discriminate) || (right; reflexivity)).
  split; [|split; [|split]].
  - intros p o i r c P. rewrite V by exact NE. rewrite V1. unfold place in P. destruct (var_dec (part a) (part a)); [|contradiction].
    destruct (at_place chan_dec o (rows a)); [|discriminate]. destruct (at_place chan_dec i (cols a)); [|discriminate]. injection P as -> ->. reflexivity.
  - intros v p o i P Q0. rewrite V by (destruct (var_dec v VErr); [right; destruct (covariance a); tauto|left; assumption]). rewrite V1. unfold place in P.
    destruct (var_dec v (part a)); [|reflexivity]. destruct (at_place chan_dec o (rows a)); [|reflexivity]. destruct (at_place chan_dec i (cols a)); [discriminate|reflexivity].
  - destruct X as [->|(-> & _)]; auto.
  - assert (TH : forall b, covariance b = true -> (there num b t2 <-> there num b t1)).
    { intros b Cb. unfold there. rewrite K2. assert (NB : part (base b) <> VErr) by (destruct b; discriminate || discriminate Cb).
      split; intros (p & o & i & A & B & D & G); exists p, o, i; (repeat split; try assumption); [rewrite <- V by (left; exact NB)|rewrite V by (left; exact NB)]; exact G. }
    split.
    + intros ->. destruct X as [X|(_ & Ca & ->)]; [discriminate|]. split; [exact Ca|].
      destruct (there_decides num (other a) t1 C1) as [T|T]; [|rewrite (finish_alone num a t1 C1 T) in E; discriminate].
      split; [destruct a; exact T|]. intros T'. rewrite (finish_both num a t1 Ca C1 T) in E.
      assert (B : there num ARes t1 /\ there num AIsp t1) by (destruct a; try discriminate Ca; split; assumption). destruct B as (B1 & B2).
      destruct (compute_spec num t1 C1 B1 B2) as (? & E' & _). rewrite E' in E. discriminate.
    + intros (Ca & T & T'). rewrite TH in T by (destruct a; reflexivity || discriminate Ca). rewrite TH in T' by exact Ca.
      assert (T0 : there num (other a) t1) by (destruct a; exact T). rewrite (finish_both num a t1 Ca C1 T0) in E.
      destruct a; try discriminate Ca; cbn [partner] in T.
      * rewrite (compute_nothing num t1 C1 T T') in E. congruence.
      * rewrite (compute_nothing' num t1 C1 T') in E. congruence.
Qed.

(** Reading gives the entries, labelled with the names in use, when there is something; else None. *)
Theorem C89_get t a : consistent num t ->
  (there num a t -> exists l, get num a t = Ok (Some l) /\ shows num t a l) /\ (~ there num a t -> get num a t = Ok None).
Proof. apply get_spec. Qed.

(** What was set stays, through every program that does not set the same entries (or, for errors, a
    covariance): in objects of one period, if it sets neither labelled arrays nor periods. *)
Theorem C89_history t a shape f os t' : consistent num t -> a <> ATfModel -> fits num t a shape ->
  run (OSet a (GArray num shape f) :: os) t = (t', None) -> (length (periods num t) <> 1 \/ Forall plain os) -> Forall (leaves a) os ->
  consistent num t' /\ length (periods num t') = length (periods num t) /\
  forall p o i r c, place a (part a) o i = Some (r, c) -> entry t' (part a) p o i = kept num (part a) (f p r c).
Proof.
  intros C Ha F E N L. cbn [run step] in E. destruct (C89_set t a shape f C Ha F) as (t1 & e & E1 & (K1 & K2) & C1 & V & _ & _).
  rewrite E1 in E. destruct e as [e|]; [discriminate|].
  destruct (run_frame num a os t1 t' C1 E) as (J1 & J2 & J3 & J4).
  { rewrite K2. exact N. } { exact L. }
  split; [exact J1|]. split; [now rewrite J3, K2|]. intros p o i r c P. rewrite J4 by (rewrite P; discriminate). apply V, P.
Qed.

(** A labelled array gets where its labels say, in whatever order they come; in an object that already has
    data (or several periods) nothing else changes. *)
Theorem C89_labelled t a l outs ins f : consistent num t -> a <> ATfModel -> covariance a = false ->
  Permutation (map (name (t_names num t)) (rows a)) outs -> Permutation (map (name (t_names num t)) (cols a)) ins ->
  (length (periods num t) <> 1 \/ there num ATip t \/ there num AImp t) -> same_periods l (periods num t) = true ->
  exists t', set num a (GData num l outs ins f) t = (t', None) /\ like t t' /\ consistent num t' /\
    (forall p o i r c, In o (rows a) -> In i (cols a) -> at_place text_dec (name (t_names num t) o) outs = Some r -> at_place text_dec (name (t_names num t) i) ins = Some c ->
       entry t' (part a) p o i = kept num (part a) (f p r c)) /\
    (forall v p o i, place a v o i = None -> entry t' v p o i = entry t v p o i).
Proof.
  intros C Ha Ca Po Pi N Sp. rewrite set_finish.
  assert (R : ~ restarts num t) by (unfold restarts; tauto).
  destruct (set_labelled num a l outs ins f t C Ha Po Pi) as (_ & B & _). rewrite (B R Sp). rewrite finish_plain by exact Ca.
  eexists; split; [reflexivity|]. split; [split; reflexivity|]. split; [apply consistent_assign, C|].
  assert (IX : forall x l, index_of x l = at_place text_dec x l).
  { intros x k. induction k as [|y k IH]; [reflexivity|]. cbn [index_of at_place]. rewrite text_eqb_dec. destruct (text_dec x y); [reflexivity|]. rewrite IH. now destruct (at_place text_dec x k). }
  split.
  - intros p o i r c Ho Hi Er Ec. rewrite assign_entry by exact C. destruct (var_dec (part a) (part a)); [|contradiction].
    destruct (at_place_In chan_dec o (rows a) Ho) as (ro & Ero). destruct (at_place_In chan_dec i (cols a) Hi) as (co & Eco). rewrite Ero, Eco. unfold by_label.
    rewrite (map_nth_error _ _ _ (at_place_nth _ _ _ _ Ero)), (map_nth_error _ _ _ (at_place_nth _ _ _ _ Eco)). rewrite !IX, Er, Ec. reflexivity.
  - intros v p o i P. rewrite assign_entry by exact C. unfold place in P. destruct (var_dec v (part a)); [|reflexivity].
    destruct (at_place chan_dec o (rows a)); [|reflexivity]. destruct (at_place chan_dec i (cols a)); [discriminate|reflexivity].
Qed.

(** Arrays of another shape, labels other than those expected, other periods: refused. *)
Theorem C89_refused t a shape f l outs ins : consistent num t -> a <> ATfModel ->
  (~ fits num t a shape -> set num a (GArray num shape f) t = (t, Some TFError)) /\
  (~ (Permutation (map (name (t_names num t)) (rows a)) outs /\ Permutation (map (name (t_names num t)) (cols a)) ins) -> set num a (GData num l outs ins f) t = (t, Some TFError)) /\
  ((length (periods num t) <> 1 \/ there num ATip t \/ there num AImp t) -> same_periods l (periods num t) = false -> exists e, set num a (GData num l outs ins f) t = (t, Some e)).
Proof.
  intros C Ha. split; [|split].
  - intros F. rewrite set_finish, bad_array by assumption. reflexivity.
  - intros N. rewrite set_finish, bad_labels by assumption. reflexivity.
  - intros N Sp. rewrite set_finish. assert (R : ~ restarts num t) by (unfold restarts; tauto).
    destruct (set_data_spec num a (GData num l outs ins f) t C) as (t1 & e & E & _ & _ & S1 & S2). rewrite E.
    destruct e as [e|]; [exists e; rewrite S1 by discriminate; reflexivity|].
    destruct (S2 eq_refl) as [(X & _)|_]; [discriminate|]. exfalso.
    destruct (list_eq_dec text_dec (JfileModel.sort_texts (map (name (t_names num t)) (rows a))) (JfileModel.sort_texts outs)) as [Po|Po]; rewrite sort_texts_perm in Po; [|rewrite bad_labels in E by tauto; discriminate].
    destruct (list_eq_dec text_dec (JfileModel.sort_texts (map (name (t_names num t)) (cols a))) (JfileModel.sort_texts ins)) as [Pi|Pi]; rewrite sort_texts_perm in Pi; [|rewrite bad_labels in E by tauto; discriminate].
    destruct (set_labelled num a l outs ins f t C Ha Po Pi) as (_ & _ & B1 & B2).
    destruct (Nat.eq_dec (length l) (length (periods num t))) as [Le|Le]; [rewrite (B2 R Le Sp) in E|rewrite (B1 R Le) in E]; discriminate.
Qed.

(** Whatever is given, a setting that raises leaves the object as it was; unless it sets a covariance and
    raises AttributeError. *)
Theorem C89_raises t a v t' e : consistent num t -> set num a v t = (t', Some e) -> t' = t \/ (covariance a = true /\ e = AttributeError).
Proof.
  intros C E. rewrite set_finish in E. destruct (set_data_spec num a v t C) as (t1 & e1 & E1 & C1 & _ & S1 & _). rewrite E1 in E.
  destruct e1 as [e1|]; [injection E as <- _; left; apply S1; discriminate|].
  destruct (finish_spec num a t1 C1) as (t2 & e2 & E2 & _ & _ & X). rewrite E2 in E. injection E as <- ->. destruct X as [X|(X & Y & _)]; [discriminate|]. injection X as ->. right. auto.
Qed.

(** A new object has the periods and the names it was given, and no data. *)
Theorem C89_new l ns : (forall c c', name ns c = name ns c' -> c = c') ->
  (exists t, new num (Some l) [] = Ok t /\ consistent num t /\ periods num t = l /\ t_names num t = default_names /\ forall v p o i, entry t v p o i = vzero num) /\
  (exists t, new num None [KNames num ns] = Ok t /\ consistent num t /\ periods num t = [1%Q] /\ t_names num t = ns /\ forall v p o i, entry t v p o i = vzero num).
Proof.
  intros I. split; eexists; (split; [reflexivity|]); (split; [|repeat split]).
  - split; [intros c c'; destruct c, c'; cbn; (reflexivity || discriminate)|intros c; destruct c; cbn; tauto].
  - split; [exact I|intros c; destruct c; cbn; tauto].
Qed.

(** Refuted: model errors of the whole transfer function cannot be set at all. *)
Theorem C89_model_error_refuted t v : v <> GNone num -> set num ATfModel v t = (t, Some KeyError).
Proof. intros N. rewrite set_finish. destruct v; try reflexivity. contradiction. Qed.

(** Refuted: in an object of one period the first labelled array erases what was set before: errors,
    covariances and everything else. *)
Theorem C89_first_labelled_refuted t a l outs ins f t' : consistent num t -> a <> ATfModel -> covariance a = false ->
  length (periods num t) = 1 -> ~ there num ATip t -> ~ there num AImp t ->
  Permutation (map (name (t_names num t)) (rows a)) outs -> Permutation (map (name (t_names num t)) (cols a)) ins ->
  set num a (GData num l outs ins f) t = (t', None) -> forall v p o i, place a v o i = None -> entry t' v p o i = vzero num.
Proof.
  intros C Ha Ca N1 NT NI Po Pi E v p o i P. rewrite set_finish in E. destruct (set_labelled num a l outs ins f t C Ha Po Pi) as (A & _).
  assert (R : restarts num t) by (split; [exact N1|split; assumption]). rewrite (A R), (finish_plain num a _ Ca) in E. injection E as <-.
  rewrite (assign_entry num (again num t l)) by apply again_consistent, C.
  unfold place in P. destruct (var_dec v (part a)); [|reflexivity]. destruct (at_place chan_dec o (rows a)); [|reflexivity]. destruct (at_place chan_dec i (cols a)); [discriminate|reflexivity].
Qed.

(** Refuted: giving the periods to an object whose only period is 1 erases its data. *)
Theorem C89_period_one_refuted t q l : periods num t = [q] -> (q == 1)%Q ->
  exists t', set_period num l t = (t', None) /\ periods num t' = l /\ forall v p o i, entry t' v p o i = vzero num.
Proof.
  intros P E. unfold set_period. unfold periods in P. rewrite P. cbn [length Nat.eqb same_periods]. rewrite (proj2 (Qeq_bool_iff q 1) E). cbn [andb].
  eexists; split; [reflexivity|]. split; reflexivity.
Qed.

(** Otherwise periods can be exchanged and the data stay, and another number of periods is refused. *)
Theorem C89_periods t l : length (periods num t) <> 1 ->
  (length l <> length (periods num t) -> set_period num l t = (t, Some TFError)) /\
  (length l = length (periods num t) -> exists t', set_period num l t = (t', None) /\ t_names num t' = t_names num t /\ same_periods (periods num t') l = true /\ same_entries t' t).
Proof.
  intros N. unfold set_period. unfold periods in *. destruct (Nat.eqb_spec (length (d_periods num (t_data num t))) 1); [contradiction|]. cbn [andb]. split; intros Le.
  - destruct (Nat.eqb_spec (length l) (length (d_periods num (t_data num t)))); [contradiction|]. reflexivity.
  - rewrite Le, Nat.eqb_refl. cbn [negb]. destruct (same_periods (d_periods num (t_data num t)) l) eqn:Sp; cbn [negb].
    + exists t. repeat split. exact Sp.
    + eexists; split; [reflexivity|]. split; [reflexivity|]. split; [apply same_periods_refl|]. intros v p o i. reflexivity.
Qed.

(** Refuted: other channel names given to an object that is already there (or together with its periods)
    make its data unreachable: arrays are refused and the impedance is None. *)
Theorem C89_names_refuted t ns a shape f : a <> ATfModel -> fits num t a shape ->
  (exists c, (In c (rows a) \/ In c (cols a)) /\ ~ In (name ns c) (d_labels num (t_data num t))) ->
  set num a (GArray num shape f) (set_names num ns t) = (set_names num ns t, Some KeyError) /\
  (~ In (n_ex ns) (d_labels num (t_data num t)) -> ~ In (n_ey ns) (d_labels num (t_data num t)) -> get num AImp (set_names num ns t) = Ok None).
Proof.
  intros Ha F (c & Hc & N). split.
  - rewrite set_finish. unfold set_data_array. cbn [t_names set_names]. rewrite ch_in_cols, ch_out_rows by exact Ha. unfold validate_ndarray. rewrite F. cbn [tl hd].
    rewrite shape_rows. destruct (list_eq_dec _ _ _) as [_|X]; [|contradiction]. cbn [negb]. unfold periods. cbn [set_names t_data]. rewrite Nat.eqb_refl. cbn [negb].
    assert (L : located num (t_data num t) (map (name ns) (rows a)) (map (name ns) (cols a)) = false).
    { unfold located. apply andb_false_iff. destruct Hc as [Hc|Hc]; [right|left]; apply not_true_is_false; rewrite forallb_forall; intros H;
        apply N, member_In, H, in_map, Hc. }
    rewrite L. reflexivity.
  - intros NX NY. cbn [get]. unfold has_impedance. cbn [set_names t_names t_data].
    assert (MX : member (n_ex ns) (d_labels num (t_data num t)) = false) by (apply not_true_is_false; rewrite member_In; exact NX).
    assert (MY : member (n_ey ns) (d_labels num (t_data num t)) = false) by (apply not_true_is_false; rewrite member_In; exact NY).
    rewrite MX, MY. reflexivity.
Qed.

(** Refuted: the inverse of the channel names is that of the names in use when it was first asked for. *)
Theorem C89_inverse_names_refuted t ns : t_inverse num t = [] ->
  let '(t1, inv) := inverse_names num t in
  inv = map (fun kv => (snd kv, fst kv)) (name_items (t_names num t)) /\ snd (inverse_names num (set_names num ns t1)) = inv.
Proof. intros E. unfold inverse_names. rewrite E. split; reflexivity. Qed.

(** ** C90 *)
(** After a covariance was set and both are there, every error is the spread of the residual covariance of
    its output and of the inverse signal power of its input. *)
Theorem C90_errors t a v t' : consistent num t -> covariance a = true -> set num a v t = (t', None) -> there num ARes t' -> there num AIsp t' ->
  forall p o i, In o [Ex; Ey; Hz] -> In i [Hx; Hy] -> entry t' VErr p o i = kept num VErr (spread num (entry t' VRes p o o) (entry t' VIsp p i i)).
Proof.
  intros C Ca E TR TI p o i Ho Hi. rewrite set_finish in E. destruct (set_data_spec num a v t C) as (t1 & e1 & E1 & C1 & _ & _ & _). rewrite E1 in E.
  destruct e1 as [e1|]; [discriminate|].
  destruct (finish_spec num a t1 C1) as (t2 & e2 & E2 & (K1 & K2 & K3) & V & _). rewrite E2 in E. injection E as -> ->.
  assert (TH : forall b, covariance b = true -> there num b t' -> there num b t1).
  { intros b Cb. unfold there. rewrite K2. assert (NB : part (base b) <> VErr) by (destruct b; discriminate || discriminate Cb).
    intros (p' & o' & i' & A & B & D & G); exists p', o', i'; (repeat split; try assumption). rewrite <- V by (left; exact NB). exact G. }
  apply (TH ARes eq_refl) in TR. apply (TH AIsp eq_refl) in TI.
  assert (T0 : there num (other a) t1) by (destruct a; assumption). rewrite (finish_both num a t1 Ca C1 T0) in E2.
  destruct (compute_spec num t1 C1 TR TI) as (t3 & E3 & _ & V3). rewrite E3 in E2. injection E2 as ->. rewrite !V3.
  cbn in Ho, Hi. destruct Ho as [<-|[<-|[<-|[]]]]; destruct Hi as [<-|[<-|[]]]; reflexivity.
Qed.

(** The order in which the covariances are given does not matter. *)
Theorem C90_order t sh f sh' g t1 t2 : consistent num t -> fits num t AIsp sh -> fits num t ARes sh' ->
  (exists p r c, p < length (periods num t) /\ r < 2 /\ c < 2 /\ is_zero num (f p r c) = false) ->
  (exists p r c, p < length (periods num t) /\ r < 3 /\ c < 3 /\ is_zero num (g p r c) = false) ->
  run [OSet AIsp (GArray num sh f); OSet ARes (GArray num sh' g)] t = (t1, None) ->
  run [OSet ARes (GArray num sh' g); OSet AIsp (GArray num sh f)] t = (t2, None) -> same_entries t1 t2.
Proof.
  intros C F G NF NG E1 E2. cbn [run step] in E1, E2.
  destruct (C89_set t AIsp sh f C ltac:(discriminate) F) as (a1 & e & Ea1 & (Ka & Kb) & Ca1 & Va & Fa & _). rewrite Ea1 in E1. destruct e; [discriminate|].
  assert (G1 : fits num a1 ARes sh') by (unfold fits in *; rewrite Kb; exact G).
  destruct (C89_set a1 ARes sh' g Ca1 ltac:(discriminate) G1) as (a2 & e & Ea2 & (Ka' & Kb') & Ca2 & Va' & Fa' & _). rewrite Ea2 in E1. destruct e; [discriminate|]. injection E1 as ->.
  destruct (C89_set t ARes sh' g C ltac:(discriminate) G) as (b1 & e & Eb1 & (Kc & Kd) & Cb1 & Vb & Fb & _). rewrite Eb1 in E2. destruct e; [discriminate|].
  assert (F1 : fits num b1 AIsp sh) by (unfold fits in *; rewrite Kd; exact F).
  destruct (C89_set b1 AIsp sh f Cb1 ltac:(discriminate) F1) as (b2 & e & Eb2 & (Kc' & Kd') & Cb2 & Vb' & Fb' & _). rewrite Eb2 in E2. destruct e; [discriminate|]. injection E2 as ->.
  assert (Ent : forall v p o i, v <> VErr -> entry t1 v p o i = entry t2 v p o i).
  { intros v p o i Nv. destruct (place ARes v o i) as [[r c]|] eqn:PR.
    - assert (v = VRes) as -> by (unfold place in PR; destruct (var_dec v (part ARes)); [assumption|discriminate]).
      rewrite (Fb' VRes p o i eq_refl) by (intros (X & _); discriminate X). exact (eq_trans (Va' p o i r c PR) (eq_sym (Vb p o i r c PR))).
    - rewrite (Fa' v p o i PR) by tauto. destruct (place AIsp v o i) as [[r c]|] eqn:PI.
      + assert (v = VIsp) as -> by (unfold place in PI; destruct (var_dec v (part AIsp)); [assumption|discriminate]).
        exact (eq_trans (Va p o i r c PI) (eq_sym (Vb' p o i r c PI))).
      + rewrite (Fa v p o i PI) by tauto. rewrite (Fb' v p o i PI) by tauto. rewrite (Fb v p o i PR) by tauto. reflexivity. }
  assert (TR : there num ARes t1).
  { destruct NG as (p & r & c & Hp & Hr & Hc & Z). exists p, (nth r [Ex; Ey; Hz] Ex), (nth c [Ex; Ey; Hz] Ex). rewrite Kb', Kb. split; [exact Hp|].
    cbn [base rows cols part]. split; [apply nth_In; exact Hr|]. split; [apply nth_In; exact Hc|].
    pose proof (fun o i => Va' p o i r c) as W. cbn [part] in W. rewrite W by (unfold place; destruct r as [|[|[|r]]], c as [|[|[|c]]]; try (exfalso; lia); reflexivity). cbn [kept part]. unfold nothing. rewrite Z. intros [X|(X & _)]; discriminate X. }
  assert (TI : there num AIsp t1).
  { destruct NF as (p & r & c & Hp & Hr & Hc & Z). exists p, (nth r [Hx; Hy] Hx), (nth c [Hx; Hy] Hx). rewrite Kb', Kb. split; [exact Hp|].
    cbn [base rows cols part]. split; [apply nth_In; exact Hr|]. split; [apply nth_In; exact Hc|].
    rewrite (Fa' VIsp p _ _ eq_refl) by (intros (X & _); discriminate X).
    pose proof (fun o i => Va p o i r c) as W. cbn [part] in W. rewrite W by (unfold place; destruct r as [|[|r]], c as [|[|c]]; try (exfalso; lia); reflexivity). cbn [kept part]. unfold nothing. rewrite Z. intros [X|(X & _)]; discriminate X. }
  assert (Tr : forall b, covariance b = true -> there num b t1 -> there num b t2).
  { intros b Cb (p & o & i & A & B & D & H). exists p, o, i. rewrite Kd', Kd. rewrite Kb', Kb in A. repeat split; try assumption. rewrite <- Ent by (destruct b; discriminate). exact H. }
  intros v p o i. destruct (var_dec v VErr) as [->|Nv]; [|apply Ent, Nv].
  destruct (place ATfErr VErr o i) as [rc|] eqn:P.
  - assert (Ho : In o [Ex; Ey; Hz] /\ In i [Hx; Hy]) by (destruct o, i; try discriminate P; cbn; tauto). destruct Ho as (Ho & Hi).
    rewrite (C90_errors a1 ARes _ t1 Ca1 eq_refl Ea2 TR TI p o i Ho Hi). rewrite (C90_errors b1 AIsp _ t2 Cb1 eq_refl Eb2 (Tr ARes eq_refl TR) (Tr AIsp eq_refl TI) p o i Ho Hi).
    rewrite !Ent by discriminate. reflexivity.
  - assert (Out : forall a x v y, covariance a = true -> consistent num x -> set num a v x = (y, None) -> length (periods num x) = length (periods num t) -> (forall l o i g, v <> GData num l o i g) -> entry y VErr p o i = entry x VErr p o i).
    { intros a x v y Ca0 Cx Ex0 _ Nd. rewrite set_finish in Ex0. destruct (set_data_spec num a v x Cx) as (x1 & e1 & X1 & Cx1 & _ & _ & S1). rewrite X1 in Ex0. destruct e1; [discriminate|].
      assert (Y1 : entry x1 VErr p o i = entry x VErr p o i).
      { destruct (S1 eq_refl) as [(_ & ->)|(Hm & x0 & h & X0 & ->)]; [reflexivity|]. destruct X0 as [->|(_ & l & o' & i' & g' & Ev & _)]; [|destruct (Nd l o' i' g' Ev)].
        rewrite assign_entry by exact Cx. destruct (var_dec VErr (part a)) as [Eq|_]; [destruct a; discriminate Eq || discriminate Ca0|reflexivity]. }
      destruct (there_decides num (other a) x1 Cx1) as [T|T]; [|rewrite (finish_alone num a x1 Cx1 T) in Ex0; injection Ex0 as <-; exact Y1].
      rewrite (finish_both num a x1 Ca0 Cx1 T) in Ex0. destruct (there_decides num ARes x1 Cx1) as [R0|R0]; [|rewrite (compute_nothing' num x1 Cx1 R0) in Ex0; discriminate].
      destruct (there_decides num AIsp x1 Cx1) as [I0|I0]; [|rewrite (compute_nothing num x1 Cx1 R0 I0) in Ex0; discriminate].
      destruct (compute_spec num x1 Cx1 R0 I0) as (x3 & E3 & _ & V3). rewrite E3 in Ex0. injection Ex0 as ->. rewrite V3, P. exact Y1. }
    rewrite (Out ARes a1 _ t1 eq_refl Ca1 Ea2) by (try (rewrite Kb; reflexivity); discriminate). rewrite (Out AIsp t _ a1 eq_refl C Ea1) by (try reflexivity; discriminate).
    rewrite (Out AIsp b1 _ t2 eq_refl Cb1 Eb2) by (try (rewrite Kd; reflexivity); discriminate). rewrite (Out ARes t _ b1 eq_refl C Eb1) by (try reflexivity; discriminate). reflexivity.
Qed.

(** Refuted: None given for the inverse signal power raises AttributeError beside a residual covariance. *)
Theorem C90_none_refuted t : consistent num t -> there num ARes t -> ~ there num AIsp t -> set num AIsp (GNone num) t = (t, Some AttributeError).
Proof.
  intros C TR TI. rewrite set_finish. cbn [set_data_array]. rewrite (finish_both num AIsp t eq_refl C TR). apply compute_nothing; assumption.
Qed.
End Numbers.

(** For complex numbers the error is the root of the product of the two magnitudes, whatever was set in
    which order. *)
Theorem C90_complex t a v t' : consistent cx_nums t -> covariance a = true -> set cx_nums a v t = (t', None) -> there cx_nums ARes t' -> there cx_nums AIsp t' ->
  forall p o i r s, In o [Ex; Ey; Hz] -> In i [Hx; Hy] -> entry cx_nums t' VRes p o o = Some r -> entry cx_nums t' VIsp p i i = Some s ->
  exists e, entry cx_nums t' VErr p o i = Some (RtoC e) /\ (0 <= e)%R /\ (e * e = Cabs r * Cabs s)%R.
Proof.
  intros C Ca E TR TI p o i r s Ho Hi Er Es. rewrite (C90_errors cx_nums t a v t' C Ca E TR TI p o i Ho Hi), Er, Es. cbn.
  eexists; split; [reflexivity|]. split; [apply sqrt_pos|]. rewrite sqrt_def by apply Rabs_pos. rewrite Rabs_right by (apply Rle_ge, Cabs_nonneg). apply Cabs_mul.
Qed.

(** ** Cases *)
Local Notation T := (tf z_nums).
Definition arr (n r c k : nat) : given z_nums := GArray z_nums [n; r; c] (fun p i j => Some (Z.of_nat (k + 9 * p + 3 * i + j))).
Definition fresh (l : list Q) : T := match new z_nums (Some l) [] with Ok t => t | Err _ => mkTf z_nums default_names [] (initialize z_nums default_names l) end.
Definition two := fresh [(1 # 10)%Q; (10 # 1)%Q].
Lemma fresh_consistent l : consistent z_nums (fresh l).
Proof. split; [intros c c'; destruct c, c'; cbn; (reflexivity || discriminate)|intros c; destruct c; cbn; tauto]. Qed.

Local Ltac here := split; [cbn; lia|]; split; [cbn; tauto|]; split; [cbn; tauto|]; intros [X|(X & Y)]; [discriminate X|discriminate X || discriminate Y].
(** An impedance, its errors and a tipper set one after the other, and read again. *)
Definition filled : T := fst (run [OSet AImp (arr 2 2 2 1); OSet AImpErr (arr 2 2 2 20); OSet ATip (arr 2 1 2 40)] two).
Example C89_hyp : consistent z_nums two /\ fits z_nums two AImp [2; 2; 2] /\ length (periods z_nums two) <> 1 /\
  snd (run [OSet AImp (arr 2 2 2 1); OSet AImpErr (arr 2 2 2 20); OSet ATip (arr 2 1 2 40)] two) = None /\
  Forall (leaves AImp) [OSet AImpErr (arr 2 2 2 20); OSet ATip (arr 2 1 2 40)] /\
  entry z_nums filled VTf 1 Ey Hx = Some 13%Z /\ entry z_nums filled VTf 1 Hz Hy = Some 50%Z /\ entry z_nums filled VErr 0 Ex Hy = Some 21%Z /\
  there z_nums AImp filled /\ ~ there z_nums AIsp filled /\ there z_nums ATip filled.
Proof.
  split; [apply fresh_consistent|]. split; [reflexivity|]. split; [discriminate|]. split; [reflexivity|].
  split.
  { repeat constructor; try (intros (X & _); discriminate X); intros v o i P; destruct v, o, i; (reflexivity || (exfalso; apply P; reflexivity)). }
  split; [reflexivity|]. split; [reflexivity|]. split; [reflexivity|].
  split; [exists 0, Ex, Hx; here|].
  split; [|exists 0, Hz, Hx; here].
  intros (p & o & i & _ & Ho & Hi & N). apply N. left. cbn in Ho, Hi. destruct Ho as [<-|[<-|[]]], Hi as [<-|[<-|[]]]; reflexivity.
Qed.

(** A labelled impedance with its rows and columns exchanged. *)
Example C89_labelled_hyp :
  let v := GData z_nums [(1 # 10)%Q; (10 # 1)%Q] (map list_ascii_of_string ["ey"; "ex"]%string) (map list_ascii_of_string ["hy"; "hx"]%string) (fun p r c => Some (Z.of_nat (1 + 9 * p + 3 * r + c))) in
  exists t', set z_nums AImp v two = (t', None) /\ entry z_nums t' VTf 0 Ex Hx = Some 5%Z /\ entry z_nums t' VTf 0 Ey Hy = Some 1%Z /\ entry z_nums t' VTf 1 Ex Hy = Some 13%Z.
Proof. cbv zeta. eexists. repeat split. Qed.
Example C89_labelled_perm : Permutation (map (name (t_names z_nums two)) (rows AImp)) (map list_ascii_of_string ["ey"; "ex"]%string) /\
  same_periods [(1 # 10)%Q; (10 # 1)%Q] (periods z_nums two) = true.
Proof. split; [apply perm_swap|reflexivity]. Qed.
Example C89_refused_hyp : ~ fits z_nums two AImp [2; 2; 3] /\ set z_nums AImp (arr 2 2 3 1) two = (two, Some TFError) /\ set z_nums AImp (GOther z_nums) two = (two, Some TFError).
Proof. split; [discriminate|]. split; reflexivity. Qed.
Example C89_new_hyp : forall c c', name default_names c = name default_names c' -> c = c'.
Proof. intros c c'; destruct c, c'; cbn; (reflexivity || discriminate). Qed.
Example C89_first_labelled_hyp :
  let t := fst (set z_nums AImpErr (arr 1 2 2 1) (fresh [1%Q])) in
  let v := GData z_nums [1%Q] (map list_ascii_of_string ["ex"; "ey"]%string) (map list_ascii_of_string ["hx"; "hy"]%string) (fun _ _ _ => Some 7%Z) in
  entry z_nums t VErr 0 Ex Hx = Some 1%Z /\ exists t', set z_nums AImp v t = (t', None) /\ entry z_nums t' VErr 0 Ex Hx = Some 0%Z /\ entry z_nums t' VTf 0 Ex Hx = Some 7%Z.
Proof. cbv zeta. split; [reflexivity|]. eexists. repeat split. Qed.
Example C89_period_one_hyp : let t := fst (set z_nums AImp (arr 1 2 2 1) (fresh [1%Q])) in
  periods z_nums t = [1%Q] /\ entry z_nums t VTf 0 Ex Hx = Some 1%Z /\ exists t', set_period z_nums [5%Q] t = (t', None) /\ entry z_nums t' VTf 0 Ex Hx = Some 0%Z.
Proof. cbv zeta. split; [reflexivity|]. split; [reflexivity|]. eexists. repeat split. Qed.
Definition other_names : names := mkNames (list_ascii_of_string "e1"%string) (list_ascii_of_string "e2"%string) (list_ascii_of_string "bx"%string) (list_ascii_of_string "by"%string) (list_ascii_of_string "bz"%string).
Example C89_names_hyp : there z_nums AImp filled /\ get z_nums AImp (set_names z_nums other_names filled) = Ok None /\
  exists t, new z_nums (Some [(1 # 10)%Q; (10 # 1)%Q]) [KNames z_nums other_names] = Ok t /\ set z_nums AImp (arr 2 2 2 1) t = (t, Some KeyError).
Proof. split; [exists 0, Ex, Hx; here|]. split; [reflexivity|]. eexists. split; reflexivity. Qed.
(** Without periods the data cannot be given at once. *)
Theorem C89_constructor_refuted : new z_nums None [KData z_nums AImp (arr 1 2 2 1)] = Err AttributeError.
Proof. reflexivity. Qed.
Example C89_constructor_hyp : exists t, new z_nums (Some [(1 # 10)%Q; (10 # 1)%Q]) [KData z_nums AImp (arr 2 2 2 1)] = Ok t /\ entry z_nums t VTf 0 Ey Hy = Some 5%Z.
Proof. eexists. split; reflexivity. Qed.

Example C90_hyp : let t := run [OSet AIsp (arr 2 2 2 1); OSet ARes (arr 2 3 3 10)] filled in let t' := run [OSet ARes (arr 2 3 3 10); OSet AIsp (arr 2 2 2 1)] filled in
  snd t = None /\ snd t' = None /\ there z_nums ARes (fst t) /\ there z_nums AIsp (fst t) /\
  entry z_nums (fst t) VErr 0 Ey Hy = Some 70%Z /\ entry z_nums (fst t') VErr 0 Ey Hy = Some 70%Z /\ entry z_nums filled VErr 0 Ey Hy = Some 24%Z.
Proof.
  cbv zeta. split; [reflexivity|]. split; [reflexivity|].
  split; [exists 0, Ex, Ex; here|]. split; [exists 0, Hx, Hx; here|]. repeat split.
Qed.

Print Assumptions C89_set.
Print Assumptions C89_get.
Print Assumptions C89_history.
Print Assumptions C89_labelled.
Print Assumptions C89_refused.
Print Assumptions C89_raises.
Print Assumptions C89_new.
Print Assumptions C89_periods.
Print Assumptions C89_model_error_refuted.
Print Assumptions C89_first_labelled_refuted.
Print Assumptions C89_period_one_refuted.
Print Assumptions C89_names_refuted.
Print Assumptions C89_inverse_names_refuted.
Print Assumptions C89_constructor_refuted.
Print Assumptions C90_errors.
Print Assumptions C90_order.
Print Assumptions C90_none_refuted.
Print Assumptions C90_complex.
