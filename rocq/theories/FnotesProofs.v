(** Proofs about FnotesModel.v *)
From Coq Require Import QArith.
From Verif Require Import PyBase PyFacts PyText TextFacts ContainerModel CommentModel LayModel FnotesModel FnotesSpec.
Local Open Scope nat_scope.
Local Open Scope list_scope.

Lemma long_period_same i : long_period i = is_long_period i.
Proof.
  unfold long_period, is_long_period. destruct (i_name i) as [n|]; [|reflexivity]. cbn [existsb]. rewrite orb_false_r.
  destruct (i_type i); [reflexivity|]. apply andb_false_r.
Qed.

Lemma comment_no_bar read a t v : ~ In "|"%char v -> set_variables read (mkComment a t (Some v)) = Ok (mkComment a t (Some v)).
Proof. intros H. unfold set_variables. cbn [value]. apply has_char_notIn in H. rewrite H. reflexivity. Qed.

(** ** The site layout *)
Definition lay_of (c : text) (x : channel) : chan :=
  match c_kind x with
  | KEle _ _ _ => let '(x1, y1, z1) := first_end x in let '(x2, y2, z2) := second_end c x in
                  Ele (capitalize c) (direction x) x1 y1 z1 x2 y2 z2
  | _ => let '(x1, y1, z1) := first_end x in Mag (capitalize c) (direction x) x1 y1 z1
  end.
Definition typed (r : run) : Prop :=
  (forall c x, In c three -> channel_of r c = Some x -> is_magnetic x) /\
  (forall c x, In c two -> channel_of r c = Some x -> is_electric x).
Definition side (c : text) (io : list (text * chan) * list (text * chan)) : list (text * chan) :=
  if existsb (text_eqb c) [txt "hx"; txt "hy"] then fst io else snd io.
Definition both (io : list (text * chan) * list (text * chan)) : list (text * chan) := fst io ++ snd io.
Definition io_ok (io : list (text * chan) * list (text * chan)) : Prop :=
  NoDup (map fst (fst io)) /\ NoDup (map fst (snd io)) /\ incl (map fst (fst io)) [txt "hx"; txt "hy"] /\
  incl (map fst (snd io)) [txt "hz"; txt "ex"; txt "ey"].

Lemma keys_dset (d : list (text * chan)) k v (L : list text) : NoDup (map fst d) -> incl (map fst d) L -> In k L ->
  NoDup (map fst (dset text_dec k v d)) /\ incl (map fst (dset text_dec k v d)) L.
Proof.
  intros N I K. split; [exact (NoDup_dset text_dec k v d N)|]. intros x X.
  destruct (in_dec text_dec k (map fst d)) as [J|J].
  - rewrite (dkeys_dset_in text_dec k v d J : map fst (dset text_dec k v d) = map fst d) in X. exact (I x X).
  - rewrite (dset_notin text_dec k v d J), map_app in X. apply in_app_or in X. destruct X as [X|[<- |[]]]; [exact (I x X)|exact K].
Qed.

Definition step_spec (r : run) (c : text) (io io' : list (text * chan) * list (text * chan)) : Prop :=
  io_ok io' /\ forall c', In c' (three ++ two) ->
    dget text_dec c' (side c' io') =
    if text_dec c' c then match channel_of r c with Some x => Some (lay_of c x) | None => dget text_dec c' (side c' io) end
    else dget text_dec c' (side c' io).

Lemma place_mag_step r io c : typed r -> io_ok io -> In c three -> step_spec r c io (place_mag r io c).
Proof.
  intros [TM _] (N1 & N2 & I1 & I2) C. specialize (TM c). unfold step_spec, place_mag. change (get_channel r c) with (channel_of r c).
  destruct (channel_of r c) as [x|] eqn:E; [|split; [repeat split; assumption|intros c' _; destruct (text_dec c' c); reflexivity]].
  destruct (TM x C eq_refl) as (s & a & K). destruct x as [k az tr pe]. cbn in K. subst k. destruct a as [[x1 y1] z1].
  change (orientation (mkChannel (KMag s (x1, y1, z1)) az tr pe)) with (direction (mkChannel (KMag s (x1, y1, z1)) az tr pe)).
  set (h := Mag _ _ _ _ _). change (lay_of c _) with h.
  destruct C as [<- | [<- | [<- | []]]].
  - cbn [existsb text_eqb orb]. destruct (keys_dset (fst io) (txt "hx") h [txt "hx"; txt "hy"] N1 I1 (or_introl eq_refl)) as [A B].
    change (text_eqb (txt "hx") (txt "hx")) with true. cbn [orb].
    split; [repeat split; assumption|]. intros c' C'. unfold side. cbn [fst snd].
    destruct (text_dec c' (txt "hx")) as [-> |D]; [cbn; rewrite dget_dset_eq; reflexivity|].
    destruct (existsb _ _); [apply dget_dset_neq; congruence|reflexivity].
  - change (existsb (text_eqb (txt "hy")) [txt "hx"; txt "hy"]) with true. cbn iota.
    destruct (keys_dset (fst io) (txt "hy") h [txt "hx"; txt "hy"] N1 I1 (or_intror (or_introl eq_refl))) as [A B].
    split; [repeat split; assumption|]. intros c' C'. unfold side. cbn [fst snd].
    destruct (text_dec c' (txt "hy")) as [-> |D]; [cbn; rewrite dget_dset_eq; reflexivity|].
    destruct (existsb _ _); [apply dget_dset_neq; congruence|reflexivity].
  - change (existsb (text_eqb (txt "hz")) [txt "hx"; txt "hy"]) with false. cbn iota.
    destruct (keys_dset (snd io) (txt "hz") h [txt "hz"; txt "ex"; txt "ey"] N2 I2 (or_introl eq_refl)) as [A B].
    split; [repeat split; assumption|]. intros c' C'. unfold side. cbn [fst snd].
    destruct (text_dec c' (txt "hz")) as [-> |D]; [cbn; rewrite dget_dset_eq; reflexivity|].
    destruct (existsb _ _); [reflexivity|apply dget_dset_neq; congruence].
Qed.

Lemma place_ele_step r io c : typed r -> io_ok io -> In c two -> step_spec r c io (place_ele r io c).
Proof.
  intros [_ TE] (N1 & N2 & I1 & I2) C. specialize (TE c). unfold step_spec, place_ele. change (get_channel r c) with (channel_of r c).
  destruct (channel_of r c) as [x|] eqn:E; [|split; [repeat split; assumption|intros c' _; destruct (text_dec c' c); reflexivity]].
  destruct (TE x C eq_refl) as (l & p & m & K). destruct x as [k az tr pe]. cbn in K. subst k.
  change (orientation (mkChannel (KEle l p m) az tr pe)) with (direction (mkChannel (KEle l p m) az tr pe)).
  destruct (p_at m) as [[x1 y1] z1] eqn:PA. destruct (p_at2 p) as [[x2 y2] z2] eqn:PB.
  set (h := if at_origin x1 y1 x2 y2 then _ else _).
  assert (H : lay_of c (mkChannel (KEle l p m) az tr pe) = h).
  { unfold lay_of, second_end, first_end. cbn [c_kind]. rewrite PA, PB. unfold h, at_origin.
    destruct (Qeq_bool x1 0 && Qeq_bool y1 0 && Qeq_bool x2 0 && Qeq_bool y2 0)%bool; [|reflexivity]. destruct (text_eqb c (txt "ex")); reflexivity. }
  rewrite H. clearbody h. clear H.
  assert (IN : In c [txt "hz"; txt "ex"; txt "ey"]) by (right; exact C).
  destruct (keys_dset (snd io) c h [txt "hz"; txt "ex"; txt "ey"] N2 I2 IN) as [A B].
  split; [repeat split; assumption|]. intros c' C'. unfold side. cbn [fst snd].
  destruct (text_dec c' c) as [-> |D].
  - replace (existsb (text_eqb c) [txt "hx"; txt "hy"]) with false by (destruct C as [<- | [<- | []]]; reflexivity).
    rewrite dget_dset_eq. reflexivity.
  - destruct (existsb _ _); [reflexivity|apply dget_dset_neq; congruence].
Qed.

Lemma place_steps (f : list (text * chan) * list (text * chan) -> text -> list (text * chan) * list (text * chan)) r :
  forall l io, (forall io c, io_ok io -> In c l -> step_spec r c io (f io c)) -> io_ok io -> NoDup l ->
  io_ok (fold_left f l io) /\ forall c', In c' (three ++ two) ->
    dget text_dec c' (side c' (fold_left f l io)) =
    if in_dec text_dec c' l then match channel_of r c' with Some x => Some (lay_of c' x) | None => dget text_dec c' (side c' io) end
    else dget text_dec c' (side c' io).
Proof.
  induction l as [|c l IH]; intros io F O N; cbn [fold_left].
  - split; [exact O|]. intros c' _. destruct (in_dec _ _ _) as [[]|]; reflexivity.
  - destruct (F io c O (or_introl eq_refl)) as [O1 S1]. apply NoDup_cons_iff in N. destruct N as [NI N].
    destruct (IH (f io c) (fun io c' A B => F io c' A (or_intror B)) O1 N) as [O2 S2].
    split; [exact O2|]. intros c' C'. rewrite (S2 c' C'), (S1 c' C').
    destruct (in_dec text_dec c' l) as [I|I]; destruct (in_dec text_dec c' (c :: l)) as [J|J]; destruct (text_dec c' c) as [-> |D];
      try reflexivity; try contradiction; try (exfalso; apply J; right; exact I); try (exfalso; apply J; left; reflexivity).
    destruct J as [J|J]; [congruence|contradiction].
Qed.

Lemma nodup_three : NoDup three. Proof. repeat constructor; cbn; intros H; repeat (destruct H as [H|H]; [discriminate H|]); exact H. Qed.
Lemma nodup_two : NoDup two. Proof. repeat constructor; cbn; intros H; repeat (destruct H as [H|H]; [discriminate H|]); exact H. Qed.

Lemma place_run_step r io : typed r -> io_ok io ->
  io_ok (place_run io r) /\ forall c, In c (three ++ two) ->
    dget text_dec c (side c (place_run io r)) =
    match channel_of r c with Some x => Some (lay_of c x) | None => dget text_dec c (side c io) end.
Proof.
  intros T O. unfold place_run.
  destruct (place_steps (place_mag r) r magnetics io (fun io c A B => place_mag_step r io c T A B) O nodup_three) as [O1 S1].
  destruct (place_steps (place_ele r) r electrics _ (fun io c A B => place_ele_step r io c T A B) O1 nodup_two) as [O2 S2].
  split; [exact O2|]. intros c C. rewrite (S2 c C), (S1 c C).
  destruct (in_dec text_dec c magnetics) as [I|I]; destruct (in_dec text_dec c electrics) as [J|J]; destruct (channel_of r c); try reflexivity.
  exfalso. apply in_app_or in C. destruct C; contradiction.
Qed.

Lemma last_channel_snoc s r c : last_channel (s ++ [r]) c = match channel_of r c with Some x => Some x | None => last_channel s c end.
Proof.
  induction s as [|a s IH]; cbn [app last_channel]; [destruct (channel_of r c); reflexivity|].
  rewrite IH. destruct (channel_of r c); reflexivity.
Qed.

Lemma place_all s : Forall typed s ->
  io_ok (fold_left place_run s ([], [])) /\ forall c, In c (three ++ two) ->
    dget text_dec c (side c (fold_left place_run s ([], []))) = option_map (lay_of c) (last_channel s c).
Proof.
  induction s as [|r s IH] using rev_ind; intros T.
  - split; [cbn; repeat split; solve [constructor|intros x []]|]. intros c _. unfold side. cbn. destruct (_ || _)%bool; reflexivity.
  - apply Forall_app in T. destruct T as [T R]. destruct (IH T) as [O S]. rewrite fold_left_app. cbn [fold_left].
    destruct (place_run_step r _ (Forall_inv R) O) as [O2 S2]. split; [exact O2|]. intros c C. rewrite (S2 c C), last_channel_snoc, (S c C).
    destruct (channel_of r c); reflexivity.
Qed.

Lemma nodup_app_disjoint {A} (a b : list A) : NoDup a -> NoDup b -> (forall x, In x a -> In x b -> False) -> NoDup (a ++ b).
Proof.
  induction a as [|x a IH]; intros NA NB D; [exact NB|]. apply NoDup_cons_iff in NA. destruct NA as [NI NA]. cbn. constructor.
  - intros I. apply in_app_or in I. destruct I as [I|I]; [exact (NI I)|exact (D x (or_introl eq_refl) I)].
  - apply IH; [exact NA|exact NB|]. intros y Y Z. exact (D y (or_intror Y) Z).
Qed.

Lemma both_keys io : io_ok io -> NoDup (map fst (both io)) /\ incl (map fst (both io)) (three ++ two).
Proof.
  intros (N1 & N2 & I1 & I2). unfold both. rewrite map_app. split.
  - apply nodup_app_disjoint; [exact N1|exact N2|]. intros x A B. apply I1 in A. apply I2 in B.
    destruct A as [<- | [<- | []]]; cbn in B; repeat (destruct B as [B|B]; [discriminate B|]); exact B.
  - intros x X. apply in_app_or in X. destruct X as [X|X]; [apply I1 in X|apply I2 in X]; cbn in X; cbn; tauto.
Qed.


Lemma both_get io c : io_ok io -> In c (three ++ two) -> dget text_dec c (both io) = dget text_dec c (side c io).
Proof.
  intros (N1 & N2 & I1 & I2) C. unfold both, side. rewrite dget_app.
  destruct (existsb (text_eqb c) [txt "hx"; txt "hy"]) eqn:E.
  - destruct (dget text_dec c (fst io)); [reflexivity|]. apply dget_None. intros I. apply I2 in I.
    apply existsb_exists in E. destruct E as (y & Y & Z). apply text_eqb_eq in Z. subst y.
    destruct Y as [<- | [<- | []]]; cbn in I; repeat (destruct I as [I|I]; [discriminate I|]); exact I.
  - destruct (dget text_dec c (fst io)) eqn:G; [|reflexivity]. apply dget_In in G. apply (in_map fst) in G. cbn [fst] in G. apply I1 in G.
    destruct G as [<- | [<- | []]]; discriminate E.
Qed.
