(** C141: channel names of transfer functions. *)
From Verif Require Import PyBase PyFacts PyText TextFacts NmcModel NmcSpec NmcProofs.
From Coq Require Import Lia.
Local Open Scope list_scope.
Local Open Scope nat_scope.

(** Setting a dictionary with the five names gives the object those names; nothing else changes. *)
Theorem C141_set s i r x n : object s i x -> names_in (dict_at s r) n ->
  exists s', step s (SetNames i r) = (s', None) /\ heap s' = heap s /\ cache s' = cache s
    /\ (exists y, object s' i y /\ o_ref y = r /\ o_names y = n /\ o_lists y = n /\ o_labels y = o_labels x)
    /\ forall j y, j <> i -> object s' j y <-> object s j y.
Proof.
  intros X N. unfold object in *. cbn [step]. rewrite X. unfold set_obj. rewrite (set_names_Some _ n _ _ N). eexists. split; [reflexivity|]. split; [reflexivity|]. split; [reflexivity|]. split.
  - eexists. cbn [objs]. rewrite nth_update, Nat.eqb_refl, X. split; [reflexivity|]. split; [reflexivity|]. split; [reflexivity|]. split; reflexivity.
  - intros j y J. cbn [objs]. rewrite nth_update. destruct (Nat.eqb_spec i j) as [E|E]; [exfalso; apply J; symmetry; exact E|reflexivity].
Qed.
(** One that lacks a name is a KeyError. *)
Theorem C141_missing s i r x : object s i x -> (exists c, In c comps /\ get c (dict_at s r) = None) <-> snd (step s (SetNames i r)) = Some KeyError.
Proof.
  intros X. unfold object in X. cbn [step]. rewrite X. unfold set_obj. split.
  - intros (c & I & N). destruct (set_names_cases (dict_at s r) (o_names x) (o_lists x)) as [(m & M)|[(n & ->) _]]; [|reflexivity]. exfalso.
    assert (Q : exists v, In (c, v) (name_list m)) by (unfold comps in I; unfold name_list; cbn [In] in I; destruct I as [<-|[<-|[<-|[<-|[<-|[]]]]]]; eexists; cbn [In]; eauto 8).
    destruct Q as (v & J). specialize (M c v J). congruence.
  - intros E. destruct (set_names_cases (dict_at s r) (o_names x) (o_lists x)) as [(m & M)|[_ H]]; [|exact H]. rewrite (set_names_Some _ m _ _ M) in E. discriminate E.
Qed.
(** The names of an object change only when they are set: not with its dictionary, nor with what is done to other objects. *)
Theorem C141_keeps l : forall s i x, object s i x -> (forall o, In o l -> ~ sets i o) ->
  exists y, object (run s l) i y /\ o_names y = o_names x /\ o_lists y = o_lists x /\ o_ref y = o_ref x.
Proof.
  induction l as [|o l IH]; intros s i x X N; [exists x; split; [exact X|repeat split; reflexivity]|]. unfold run. cbn [fold_left].
  assert (H : exists y, object (fst (step s o)) i y /\ o_names y = o_names x /\ o_lists y = o_lists x /\ o_ref y = o_ref x).
  { specialize (N o (or_introl eq_refl)). unfold object in *. destruct o as [d|r k w| |j r|j|j|r]; try (exists x; split; [exact X|repeat split; reflexivity]).
    - cbn [step]. destruct (set_obj s (mkObj 0 blank blank [] []) 0) as [y [e|]]; [exists x; split; [exact X|repeat split; reflexivity]|]. destruct (initialize s y) as [c0 l0]. cbn [fst objs]. exists x. split; [|repeat split; reflexivity].
      rewrite nth_error_app1; [exact X|]. apply nth_error_Some. congruence.
    - cbn [step]. destruct (nth_error (objs s) j) as [y|] eqn:Y; [|exists x; split; [exact X|repeat split; reflexivity]]. destruct (set_obj s y r) as [z e]. cbn [fst objs]. exists x. split; [|repeat split; reflexivity].
      rewrite nth_update. destruct (Nat.eqb_spec j i) as [->|E]; [exfalso; apply N; exists r; reflexivity|exact X].
    - cbn [step]. destruct (nth_error (objs s) j) as [y|] eqn:Y; [|exists x; split; [exact X|repeat split; reflexivity]]. destruct (initialize s y) as [c0 l0]. cbn [fst objs]. rewrite nth_update. destruct (Nat.eqb_spec j i) as [->|E].
      + rewrite X in Y. injection Y as <-. rewrite X. eexists. split; [reflexivity|]. repeat split; reflexivity.
      + exists x. split; [exact X|repeat split; reflexivity].
    - cbn [step]. destruct (nth_error (objs s) j) as [y|] eqn:Y; [|exists x; split; [exact X|repeat split; reflexivity]]. cbn [fst objs]. rewrite nth_update. destruct (Nat.eqb_spec j i) as [->|E].
      + rewrite X in Y. injection Y as <-. rewrite X. eexists. split; [reflexivity|]. repeat split; reflexivity.
      + exists x. split; [exact X|repeat split; reflexivity]. }
  destruct H as (y & Y & A & B & C). destruct (IH (fst (step s o)) i y Y) as (z & Z & D & E & F); [intros p I; apply N; right; exact I|].
  exists z. split; [exact Z|]. split; [congruence|]. split; congruence.
Qed.

(** As long as the default dictionary itself is not edited, a new object has the usual names. *)
Theorem C141_fresh l : (forall o, In o l -> ~ edits_default o) -> exists s' y, step (run start l) NewTF = (s', None) /\ object s' (length (objs (run start l))) y /\ o_names y = usual /\ o_lists y = usual.
Proof.
  intros N. assert (D : forall s, 0 < length (heap s) -> dict_at s 0 = default_dict -> 0 < length (heap (run s l)) /\ dict_at (run s l) 0 = default_dict).
  { clear -N. induction l as [|o l IH]; intros s L D; [split; assumption|]. unfold run. cbn [fold_left].
    assert (H : 0 < length (heap (fst (step s o))) /\ dict_at (fst (step s o)) 0 = default_dict).
    { specialize (N o (or_introl eq_refl)). destruct o as [d|r k w| |j r|j|j|r].
      - cbn [step fst heap]. unfold dict_at in *. cbn [heap]. rewrite app_length. split; [lia|]. rewrite app_nth1 by exact L. exact D.
      - cbn [step fst heap]. unfold dict_at in *. cbn [heap]. rewrite update_length, nth_update_d. split; [exact L|]. destruct (Nat.eqb_spec r 0) as [->|E]; [exfalso; apply N; exists k, w; reflexivity|exact D].
      - cbn [step]. destruct (set_obj s (mkObj 0 blank blank [] []) 0) as [y [e|]]; [split; assumption|]. destruct (initialize s y) as [c0 l0]. split; assumption.
      - cbn [step]. destruct (nth_error (objs s) j) as [y|]; [|split; assumption]. destruct (set_obj s y r) as [z e]. split; assumption.
      - cbn [step]. destruct (nth_error (objs s) j) as [y|]; [|split; assumption]. destruct (initialize s y) as [c0 l0]. split; assumption.
      - cbn [step]. destruct (nth_error (objs s) j) as [y|]; split; assumption.
      - split; [cbn [step fst heap]; rewrite !update_length; exact L|]. destruct (dict_zmm s r 0) as [-> | (_ & d & E & ->)]; [exact D|]. destruct E as [-> | ->]; rewrite D, ?zmm_default; apply zmm_default. }
    destruct H as [L2 D2]. apply IH; [intros p I; apply N; right; exact I|exact L2|exact D2]. }
  destruct (D start) as [_ E]; [cbn; lia|reflexivity|]. cbn [step]. unfold set_obj. rewrite E.
  assert (U : names_in default_dict usual) by (apply names_in_iff; repeat split; reflexivity). cbn [o_names o_lists o_inverse o_labels]. rewrite (set_names_Some _ usual _ _ U).
  destruct (initialize (run start l) (mkObj 0 usual usual [] [])) as [c0 l0]. eexists. eexists. split; [reflexivity|]. unfold object. cbn [objs]. rewrite nth_error_app2 by lia. rewrite Nat.sub_diag. split; [reflexivity|]. split; reflexivity.
Qed.

(** In a history in which no dictionary is edited and no setting fails, a dataset that is made has the names of its object as labels, whatever is in the cache of
    templates, for new objects and for those whose periods are set. *)
Theorem C141_labels l i x : clean start l -> object (run start l) i x -> exists y, object (fst (step (run start l) (SetPeriods i))) i y /\ o_names y = o_names x /\ o_labels y = all_names (o_names x).
Proof.
  intros C X. pose proof (good_run l start good_start C) as G. unfold object in *. assert (I : In x (objs (run start l))) by (apply nth_error_In in X; exact X).
  destruct (initialize_good _ x G (proj1 G x I)) as [L _]. cbn [step]. rewrite X. destruct (initialize (run start l) x) as [c0 l0]. cbn [snd] in L. subst l0. cbn [fst objs]. rewrite nth_update, Nat.eqb_refl, X. cbn [option_map].
  eexists. split; [reflexivity|]. split; reflexivity.
Qed.
Theorem C141_new_labels l : clean start l -> exists s' y, step (run start l) NewTF = (s', None) /\ object s' (length (objs (run start l))) y /\ o_names y = usual /\ o_labels y = [txt "ex"; txt "ey"; txt "hz"; txt "hx"; txt "hy"].
Proof.
  intros C. pose proof (good_run l start good_start C) as G.
  assert (N : forall s, clean s l -> forall o, In o l -> ~ edits o). { clear. intros s C. induction C as [|s o l N E C IH]; intros p I; [destruct I|]. destruct I as [<-|I]; [exact N|exact (IH p I)]. }
  destruct (C141_fresh l) as (s' & y & S & Y & A & B). { intros o I (k & v & E). apply (N start C o I). exists 0, k, v. exact E. }
  exists s', y. split; [exact S|]. split; [exact Y|]. split; [exact A|]. cbn [step] in S. destruct (set_obj (run start l) (mkObj 0 blank blank [] []) 0) as [z [e|]] eqn:Z; [discriminate S|].
  assert (GZ : good_obj (run start l) z). { unfold set_obj in Z. destruct (set_names (dict_at (run start l) 0) (o_names (mkObj 0 blank blank [] [])) (o_lists (mkObj 0 blank blank [] []))) as [[n m] e] eqn:M. injection Z as Z E. subst e z. apply set_names_None in M as [M ->]. split; [exact M|reflexivity]. }
  destruct (initialize_good _ z G GZ) as [L _]. destruct (initialize (run start l) z) as [c0 l0]. cbn [snd] in L. subst l0. injection S as <-. unfold object in Y. cbn [objs] in Y. rewrite nth_error_app2, Nat.sub_diag in Y by lia. cbn in Y. injection Y as <-.
  cbn [o_names] in A. cbn [o_labels]. rewrite A. reflexivity.
Qed.

(** The inverse, when it is first asked for: for distinct names it takes a name back to its component. *)
Lemma inverse_get d : forall a c v, NoDup (map snd d) -> NoDup (map fst d) -> (forall k w, In (k, w) d -> get w a = None) ->
  get v (fold_left (fun a kv => put (snd kv) (fst kv) a) d a) = Some c <-> get v a = Some c \/ In (c, v) d.
Proof.
  induction d as [|[k w] d IH]; intros a c v N M F; cbn [fold_left]; [cbn [In]; tauto|]. cbn [map snd fst] in N, M. inversion N as [|x y N1 N2]; subst. inversion M as [|x y M1 M2]; subst.
  rewrite IH by (first [assumption | intros k' w' I; unfold get, put; cbn [fst snd]; rewrite (dget_dset text_dec); destruct (text_dec w' w) as [->|D]; [exfalso; apply N1; apply in_map_iff; exists (k', w); split; [reflexivity|exact I]|apply (F k' w'); right; exact I]]).
  unfold get at 1, put. cbn [fst snd]. rewrite (dget_dset text_dec). destruct (text_dec v w) as [->|D].
  - split; [intros [E|I]|].
    + injection E as <-. right. left. reflexivity.
    + right. right. exact I.
    + intros [E|[E|I]]; [rewrite (F k w (or_introl eq_refl)) in E; discriminate E|injection E as <-; left; reflexivity|right; exact I].
  - change (dget text_dec v a) with (get v a). split; [intros [E|I]; [left; exact E|right; right; exact I]|]. intros [E|[E|I]]; [left; exact E|injection E as _ E; exfalso; apply D; symmetry; exact E|right; exact I].
Qed.
Theorem C141_inverse s i x : object s i x -> o_inverse x = [] -> NoDup (map snd (dict_at s (o_ref x))) -> NoDup (map fst (dict_at s (o_ref x))) ->
  exists y, object (fst (step s (AskInverse i))) i y /\ forall c v, get v (o_inverse y) = Some c <-> In (c, v) (dict_at s (o_ref x)).
Proof.
  intros X E N M. unfold object in *. cbn [step]. rewrite X, E. cbn [fst objs]. rewrite nth_update, Nat.eqb_refl, X. cbn [option_map]. eexists. split; [reflexivity|]. cbn [o_inverse]. intros c v.
  rewrite (inverse_get _ [] c v N M) by reflexivity. split; [intros [H|H]; [discriminate H|exact H]|intros H; right; exact H].
Qed.

(** A ZMM completes the dictionary it is given: entries are kept, names that are missing are those of the component, at the end. *)
Theorem C141_zmm s r : 0 < r < length (heap s) -> NoDup (map fst (dict_at s r)) ->
  let d := dict_at s r in let d' := dict_at (fst (step s (NewZmm r))) r in
  (forall c v, get c d = Some v -> get c d' = Some v) /\ (forall c, In c comps -> get c d = None -> get c d' = Some c)
  /\ (forall c, ~ In c comps -> get c d' = get c d) /\ (exists e, d' = d ++ e) /\ exists n, names_in d' n.
Proof.
  intros R N d d'. assert (E : d' = zmm_fill zmm_comps d).
  { unfold d', d, dict_at. cbn [step fst heap]. rewrite nth_update_d, update_length, Nat.eqb_refl. destruct (Nat.ltb_spec r (length (heap s))) as [L|L]; [reflexivity|lia]. }
  rewrite E. assert (I : forall c, In c zmm_comps <-> In c comps) by (intros c; unfold zmm_comps, comps, default_dict; cbn [map fst In]; tauto). split; [|split; [|split; [|split]]].
  - intros c v G. rewrite zmm_fill_get, G. reflexivity.
  - intros c J G. rewrite zmm_fill_get, G. destruct (in_dec text_dec c zmm_comps) as [_|K]; [reflexivity|]. exfalso. apply K. apply I. exact J.
  - intros c J. rewrite zmm_fill_get. destruct (get c d); [reflexivity|]. destruct (in_dec text_dec c zmm_comps) as [K|_]; [exfalso; apply J; apply I; exact K|reflexivity].
  - eexists. apply zmm_fill_app. repeat constructor; cbn [In map fst]; intros H; repeat (destruct H as [H|H]; [discriminate H|]); exact H.
  - exists (mkNames (zmm_name d (txt "ex")) (zmm_name d (txt "ey")) (zmm_name d (txt "hx")) (zmm_name d (txt "hy")) (zmm_name d (txt "hz"))). intros c v J. rewrite zmm_fill_get.
    assert (V : v = zmm_name d c /\ In c comps) by (unfold name_list in J; unfold comps; cbn [In n_ex n_ey n_hx n_hy n_hz] in *; destruct J as [J|[J|[J|[J|[J|[]]]]]]; injection J as <- <-; split; [reflexivity|tauto|reflexivity|tauto|reflexivity|tauto|reflexivity|tauto|reflexivity|tauto]).
    destruct V as [-> V]. unfold zmm_name. destruct (get c d); [reflexivity|]. destruct (in_dec text_dec c zmm_comps) as [_|K]; [reflexivity|]. exfalso. apply K. apply I. exact V.
Qed.

(** Examples: a dictionary with names b for the magnetic channels. *)
Definition b_dict : dict := [(txt "ex", txt "ex"); (txt "ey", txt "ey"); (txt "hx", txt "bx"); (txt "hy", txt "by"); (txt "hz", txt "bz")].
Example C141_clean_hyp : clean start [NewTF; NewDict b_dict; SetNames 0 1; NewZmm 1; AskInverse 0; SetPeriods 0; NewTF].
Proof. repeat (apply clean_cons; [intros (a & b & c & E); discriminate E|vm_compute; reflexivity|]). apply clean_nil. Qed.
Example C141_hyp : exists x, object (run start [NewTF; NewDict b_dict; SetNames 0 1; SetPeriods 0]) 0 x /\ o_labels x = [txt "ex"; txt "ey"; txt "bz"; txt "bx"; txt "by"] /\ o_inverse x = [] /\ NoDup (map snd b_dict) /\ NoDup (map fst b_dict).
Proof.
  eexists. split; [vm_compute; reflexivity|]. split; [reflexivity|]. split; [reflexivity|].
  split; repeat constructor; cbn [In map fst snd b_dict]; intros H; repeat (destruct H as [H|H]; [discriminate H|]); exact H.
Qed.
Example C141_zmm_hyp : let s := run start [NewDict [(txt "hx", txt "bx")]] in 0 < 1 < length (heap s) /\ dict_at (fst (step s (NewZmm 1))) 1 = [(txt "hx", txt "bx"); (txt "hy", txt "hy"); (txt "hz", txt "hz"); (txt "ex", txt "ex"); (txt "ey", txt "ey")].
Proof. cbn zeta. split; [cbn; lia|vm_compute; reflexivity]. Qed.

(** The dictionary of a new object is the default dictionary itself: renaming a channel of one object renames it in every object made later, not in the object. *)
Theorem C141_alias_refuted : exists x y, let s := run start [NewTF; Edit 0 (txt "hx") (txt "bx"); NewTF] in
  object s 0 x /\ object s 1 y /\ o_ref x = 0 /\ n_hx (o_names x) = txt "hx" /\ n_hx (o_names y) = txt "bx".
Proof. eexists. eexists. cbn zeta. split; [vm_compute; reflexivity|]. split; [vm_compute; reflexivity|]. repeat split; reflexivity. Qed.
(** And if the periods of the first object are set in between, the template of its labels is kept under the new names: the dataset of every later object has
    labels that are not its names. *)
Theorem C141_cache_refuted : exists y, let s := run start [NewTF; Edit 0 (txt "hx") (txt "bx"); SetPeriods 0; NewTF] in object s 1 y /\ n_hx (o_names y) = txt "bx" /\ ~ In (txt "bx") (o_labels y).
Proof.
  eexists. cbn zeta. split; [vm_compute; reflexivity|]. split; [reflexivity|]. cbn [o_labels In]. intros H. repeat (destruct H as [H|H]; [discriminate H|]). exact H.
Qed.
(** The inverse is not renewed when the names are set again: the new names are not in it. *)
Theorem C141_stale_refuted : exists x, let s := run start [NewTF; AskInverse 0; NewDict b_dict; SetNames 0 1; AskInverse 0] in
  object s 0 x /\ n_hx (o_names x) = txt "bx" /\ get (txt "bx") (o_inverse x) = None.
Proof. eexists. cbn zeta. split; [vm_compute; reflexivity|]. split; reflexivity. Qed.
(** A setting that fails leaves the object with the new dictionary, some of the new names, and the old lists. *)
Theorem C141_failed_refuted : exists x, let s := run start [NewTF; NewDict [(txt "ex", txt "e1")]; SetNames 0 1] in
  object s 0 x /\ snd (step (run start [NewTF; NewDict [(txt "ex", txt "e1")]]) (SetNames 0 1)) = Some KeyError /\ o_ref x = 1 /\ n_ex (o_names x) = txt "e1" /\ n_ey (o_names x) = txt "ey" /\ n_ex (o_lists x) = txt "ex".
Proof. eexists. cbn zeta. split; [vm_compute; reflexivity|]. split; [vm_compute; reflexivity|]. repeat split; reflexivity. Qed.
(** A ZMM given a dictionary without all names changes the dictionary of the caller. *)
Theorem C141_caller_refuted : exists d, let s := run start [NewDict d] in dict_at s 1 = d /\ dict_at (fst (step s (NewZmm 1))) 1 <> d.
Proof. exists []. cbn zeta. split; [reflexivity|]. vm_compute. discriminate. Qed.

Print Assumptions C141_keeps.
Print Assumptions C141_labels.
Print Assumptions C141_zmm.
