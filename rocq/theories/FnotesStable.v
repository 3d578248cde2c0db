(** Proofs about FnotesModel.v: what has been read is written and read without a change *)
From Coq Require Import QArith.
From Verif Require Import PyBase PyFacts PyText TextFacts ContainerModel CommentModel LayModel FnotesModel FnotesSpec FnotesProofs FnotesRead FnotesBack.
Local Open Scope nat_scope.
Local Open Scope list_scope.

Lemma sensors_in r comps c i : In (c, i) (sensors comps r) -> exists x a j, channel_of r c = Some x /\ c_kind x = KMag j a /\ i = mkInstr (i_id j) (Some c) (i_manu j) (i_type j).
Proof.
  induction comps as [|d comps IH]; [intros []|]. cbn [sensors]. destruct (channel_of r d) as [x|] eqn:X; [|exact IH].
  destruct (c_kind x) as [j a| |] eqn:K; try exact IH. intros [E|E]; [injection E as <- <-; exists x, a, j; auto|].
  destruct (is_long_period j); [destruct E|exact (IH E)].
Qed.

Section Stable.
Variable s : list run.
Hypotheses (OK : Forall run_ok s) (ND : NoDup (map r_id s)) (RATE : Forall (fun r => Qeq_bool (r_rate r) 0 = false) s) (COV : covered s = true)
  (MANY : forall r, In r s -> ~ one_sensor r).

Lemma kept_all : kept s = s.
Proof.
  unfold kept. generalize RATE. clear. induction s as [|r l IH]; intros H; [reflexivity|]. cbn. rewrite (Forall_inv H), (IH (Forall_inv_tail H)). reflexivity.
Qed.

Lemma sensors_back_same r : In r s -> sensors_back r = sensors three r.
Proof.
  intros R. unfold sensors_back. pose proof (MANY r R) as M. destruct (sensors three r) as [|[c i] [|ci l]] eqn:E; try reflexivity.
  exfalso. apply M. exists (c, i). exact E.
Qed.

Lemma names_in r c : In r s -> In c (three ++ two) -> last_channel s c <> None -> In c (names_back r).
Proof.
  intros R C L. unfold covered in COV. rewrite kept_all in COV. rewrite forallb_forall in COV. specialize (COV r R).
  rewrite forallb_forall in COV. specialize (COV c C). destruct (last_channel s c); [|congruence].
  apply existsb_exists in COV. destruct COV as (y & Y & Z). apply text_eqb_eq in Z. subst y. exact Y.
Qed.

Lemma name_three r c : In r s -> In c three -> In c (names_back r) -> exists i, In (c, i) (sensors three r).
Proof.
  intros R C I. unfold names_back in I. rewrite (sensors_back_same r R) in I. apply in_app_or in I. destruct I as [I|I].
  - apply in_map_iff in I. destruct I as ([c' i] & E & I). cbn in E. subst c'. exists i. exact I.
  - exfalso. exact (three_not_two c C (proj1 (dipoles_facts r) c I)).
Qed.
Lemma name_two r c : In r s -> In c two -> In c (names_back r) -> In c (dipoles r).
Proof.
  intros R C I. unfold names_back in I. apply in_app_or in I. destruct I as [I|I]; [|exact I].
  exfalso. exact (three_not_two c (proj1 (back_names r) c I) C).
Qed.

(** All runs have the channels of the layout. *)
Lemma all_have r c : In r s -> In c (three ++ two) -> last_channel s c <> None -> channel_of r c <> None.
Proof.
  intros R C L. pose proof (names_in r c R C L) as N. apply in_app_or in C. destruct C as [C|C].
  - destruct (name_three r c R C N) as (i & I). destruct (sensors_in _ _ _ _ I) as (x & a & j & X & _). congruence.
  - destruct (proj2 (proj2 (dipoles_facts r)) c (name_two r c R C N)) as (x & X). congruence.
Qed.

(** ** The channels of a run that was read *)
Lemma back_keys r : map fst (r_chans (back s r)) = names_back r.
Proof.
  cbn [back r_chans]. rewrite map_app, !map_map. unfold names_back. f_equal. cbn [fst ele_back]. apply map_id.
Qed.
Lemma back_nodup r : NoDup (map fst (r_chans (back s r))).
Proof.
  rewrite back_keys. unfold names_back. destruct (back_names r) as [A B]. destruct (dipoles_facts r) as (C & D & _).
  apply nodup_app_disjoint; [exact B|exact D|]. intros c X Y. exact (three_not_two c (A c X) (C c Y)).
Qed.
Lemma back_mag r c i : In (c, i) (sensors_back r) -> channel_of (back s r) c = Some (snd (mag_back s r (c, i))).
Proof.
  intros I. apply (In_dget text_dec); [exact (back_nodup r)|]. cbn [back r_chans]. apply in_or_app. left. apply in_map_iff. exists (c, i). split; [reflexivity|exact I].
Qed.
Lemma back_ele r c : In c (dipoles r) -> channel_of (back s r) c = Some (snd (ele_back s r c)).
Proof.
  intros I. apply (In_dget text_dec); [exact (back_nodup r)|]. cbn [back r_chans]. apply in_or_app. right. apply in_map_iff. exists c. split; [reflexivity|exact I].
Qed.
Lemma back_none r c : ~ In c (names_back r) -> channel_of (back s r) c = None.
Proof. intros N. apply (dget_None text_dec). fold (dkeys (r_chans (back s r))). unfold dkeys. rewrite back_keys. exact N. Qed.

Lemma names_last r c : In r s -> In c (names_back r) -> channel_of r c <> None /\ last_channel s c <> None /\ In c (three ++ two).
Proof.
  intros R I. unfold names_back in I. rewrite (sensors_back_same r R) in I. apply in_app_or in I.
  assert (channel_of r c <> None /\ In c (three ++ two)) as [A B].
  { destruct I as [I|I].
    - apply in_map_iff in I. destruct I as ([c' i] & E & I). cbn in E. subst c'. destruct (sensors_in _ _ _ _ I) as (x & a & j & X & _). split; [congruence|].
      apply in_or_app. left. exact (proj1 (proj1 (sensors_facts r three (fun y Y => Y) nodup_three) c i I)).
    - destruct (dipoles_facts r) as (C & _ & D). destruct (D c I) as (x & X). split; [congruence|]. apply in_or_app. right. exact (C c I). }
  split; [exact A|]. split; [|exact B]. exact (last_channel_some s c r R A).
Qed.

(** An electric channel that was read. *)
Lemma ele_form r c : In r s -> In c (dipoles r) -> exists len p m az tr pe x, channel_of r c = Some (mkChannel (KEle len p m) az tr pe) /\
  pots_ok (mkChannel (KEle len p m) az tr pe) /\ last_channel s c = Some x /\ is_electric x /\
  snd (ele_back s r c) = mkChannel (KEle len (mkPot (p_id p) (p_type p) (p_manu p) (0, 0, 0)%Q (second_end c x))
                                             (mkPot (p_id m) (p_type p) (p_manu p) (first_end x) (0, 0, 0)%Q)) (direction x) (Some (direction x)) (r_period r).
Proof.
  intros R C. destruct (dipoles_facts r) as (D1 & _ & D3). destruct (D3 c C) as (y & Y). pose proof (proj1 (Forall_forall _ _) OK r R) as (_ & TE & _).
  destruct (TE c y (D1 c C) Y) as [(len & p & m & K) PO]. destruct y as [k az tr pe]. cbn in K. subst k.
  assert (last_channel s c <> None) as L by (apply (last_channel_some s c r R); congruence). destruct (last_channel s c) as [x|] eqn:LX; [|congruence].
  exists len, p, m, az, tr, pe, x. split; [exact Y|]. split; [exact PO|]. split; [reflexivity|]. split.
  - destruct (last_channel_in s c x LX) as (r' & R' & X'). pose proof (proj1 (Forall_forall _ _) OK r' R') as (_ & TE' & _). exact (proj1 (TE' c x (D1 c C) X')).
  - unfold ele_back. cbn [snd]. rewrite Y, LX. reflexivity.
Qed.

Lemma back_run_ok r : In r s -> run_ok (back s r).
Proof.
  intros R. pose proof (proj1 (Forall_forall _ _) OK r R) as RO. split; [|split].
  - intros c x C X. destruct (in_dec text_dec c (names_back r)) as [N|N]; [|rewrite (back_none r c N) in X; discriminate X].
    destruct (name_three r c R C N) as (i & I). rewrite <- (sensors_back_same r R) in I. rewrite (back_mag r c i I) in X. injection X as <-.
    unfold mag_back. cbn [snd fst]. destruct (last_channel s c); eexists; eexists; reflexivity.
  - intros c x C X. destruct (in_dec text_dec c (names_back r)) as [N|N]; [|rewrite (back_none r c N) in X; discriminate X].
    pose proof (name_two r c R C N) as D. rewrite (back_ele r c D) in X. assert (XE : x = snd (ele_back s r c)) by congruence. clear X. subst x.
    destruct (ele_form r c R D) as (len & p & m & az & tr & pe & x & Y & PO & L & _ & ->). split; [eexists; eexists; eexists; reflexivity|].
    intros len' p' m' E. cbn in E. injection E as <- <- <-. cbn [p_id p_type]. exact (PO len p m eq_refl).
  - destruct RO as (_ & _ & RM). cbn [back r_comment]. unfold remark_ok. cbn [value].
    assert (B : remark_back (r_comment r) = [] \/ exists v, value (r_comment r) = Some v /\ In ":"%char v /\ remark_back (r_comment r) = v).
    { unfold remark_back. destruct (value (r_comment r)) as [v|]; [|left; reflexivity]. destruct (has_char ":" v) eqn:H; [|left; reflexivity].
      right. exists v. split; [reflexivity|]. split; [apply has_char_In; exact H|reflexivity]. }
    destruct B as [-> |(v & V & IC & ->)]; [left; intros v E; injection E as <-; intros []|].
    destruct RM as [NC|RM]; [exfalso; exact (NC v V IC)|]. right. destruct RM as (a & w & e & A & W & E & F). exists a, w, e. rewrite V in F. injection F as ->. auto.
Qed.

Definition s' : list run := map (back s) s.

(** The last run has every channel of the layout. *)
Lemma last_of s0 r0 c : s = s0 ++ [r0] -> In c (three ++ two) -> last_channel s c = channel_of r0 c /\ last_channel s' c = channel_of (back s r0) c.
Proof.
  intros E C. assert (R : In r0 s) by (rewrite E; apply in_or_app; right; left; reflexivity). split.
  - destruct (last_channel s c) as [x|] eqn:L.
    + pose proof (all_have r0 c R C) as H. rewrite L in H. specialize (H ltac:(discriminate)). rewrite E, last_channel_snoc in L.
      destruct (channel_of r0 c); [symmetry; exact L|congruence].
    + destruct (channel_of r0 c) eqn:Y; [|reflexivity]. exfalso. apply (last_channel_some s c r0 R); [congruence|exact L].
  - unfold s'. rewrite E at 2. rewrite map_app. cbn [map]. rewrite last_channel_snoc.
    destruct (channel_of (back s r0) c) eqn:Y; [reflexivity|].
    assert (N : ~ In c (names_back r0)).
    { intros N. rewrite <- back_keys in N. apply (proj1 (dget_None text_dec c _) Y). exact N. }
    assert (L : last_channel s c = None).
    { destruct (last_channel s c) eqn:L; [|reflexivity]. exfalso. apply N. apply (names_in r0 c R C). congruence. }
    destruct (last_channel (map (back s) s0) c) as [x|] eqn:L2; [|reflexivity]. exfalso.
    destruct (last_channel_in _ _ _ L2) as (r2 & R2 & X2). apply in_map_iff in R2. destruct R2 as (r1 & <- & R1).
    assert (In r1 s) by (rewrite E; apply in_or_app; left; exact R1).
    destruct (in_dec text_dec c (names_back r1)) as [N1|N1]; [|rewrite (back_none r1 c N1) in X2; discriminate X2].
    exact (proj1 (proj2 (names_last r1 c H N1)) L).
Qed.

Lemma second_end_again c len p m az tr pe az' tr' pe' : c = txt "ex" \/ c = txt "ey" ->
  let x := mkChannel (KEle len p m) az tr pe in
  forall i1 i2 i3 j1 j2 j3, second_end c (mkChannel (KEle len (mkPot i1 i2 i3 (0, 0, 0)%Q (second_end c x)) (mkPot j1 j2 j3 (first_end x) (0, 0, 0)%Q)) az' tr' pe') = second_end c x.
Proof.
  intros C x i1 i2 i3 j1 j2 j3. unfold second_end, first_end. subst x. cbn [c_kind p_at p_at2]. destruct (p_at m) as [[mx my] mz]. destruct (p_at2 p) as [[px py] pz].
  destruct (Qeq_bool mx 0 && Qeq_bool my 0 && Qeq_bool px 0 && Qeq_bool py 0)%bool eqn:B.
  - apply andb_prop in B. destruct B as [B B4]. apply andb_prop in B. destruct B as [B B3]. apply andb_prop in B. destruct B as [B1 B2].
    destruct C as [-> | ->].
    + change (text_eqb (txt "ex") (txt "ex")) with true. cbn iota. destruct (_ && _)%bool; reflexivity.
    + change (text_eqb (txt "ey") (txt "ex")) with false. cbn iota. destruct (_ && _)%bool; reflexivity.
  - rewrite B. reflexivity.
Qed.

Lemma same_layout c x : In c (three ++ two) -> last_channel s c = Some x ->
  exists y, last_channel s' c = Some y /\ direction y = direction x /\ first_end y = first_end x /\ second_end c y = second_end c x.
Proof.
  intros C L.
  destruct (@exists_last _ s) as (s0 & r0 & E); [intros E; rewrite E in L; discriminate L|].
  destruct (last_of s0 r0 c E C) as [A B]. assert (R : In r0 s) by (rewrite E; apply in_or_app; right; left; reflexivity).
  rewrite B. pose proof (names_in r0 c R C ltac:(congruence)) as N. pose proof C as C'. apply in_app_or in C'. destruct C' as [C3|C2].
  - destruct (name_three r0 c R C3 N) as (i & I). rewrite <- (sensors_back_same r0 R) in I. rewrite (back_mag r0 c i I). eexists. split; [reflexivity|].
    unfold mag_back. cbn [fst snd]. rewrite L. cbn. split; [reflexivity|]. split; [reflexivity|].
    destruct (proj1 (proj1 (Forall_forall _ _) OK r0 R) c x C3 ltac:(congruence)) as (j & a & K). unfold second_end. rewrite K. reflexivity.
  - pose proof (name_two r0 c R C2 N) as D. rewrite (back_ele r0 c D). eexists. split; [reflexivity|].
    destruct (ele_form r0 c R D) as (len & p & m & az & tr & pe & x' & Y & PO & L' & _ & ->). rewrite L in L'. injection L' as <-.
    assert (x = mkChannel (KEle len p m) az tr pe) as -> by congruence. split; [reflexivity|]. split; [reflexivity|].
    apply second_end_again. destruct C2 as [<- | [<- | []]]; auto.
Qed.

Lemma sensors_again r : In r s -> sensors three (back s r) = sensors three r.
Proof.
  intros R. destruct (sensors_facts r three (fun y Y => Y) nodup_three) as [F _].
  assert (G : forall c i, In (c, i) (sensors three r) -> In c three /\ i_name i = Some c /\ exists x p, channel_of (back s r) c = Some x /\ c_kind x = KMag i p).
  { intros c i I. destruct (F c i I) as [A B]. split; [exact A|]. split; [exact B|]. rewrite <- (sensors_back_same r R) in I. rewrite (back_mag r c i I).
    unfold mag_back. cbn [fst snd]. destruct (last_channel s c); eexists; eexists; split; reflexivity. }
  assert (H : forall c, In c three -> (forall i, ~ In (c, i) (sensors three r)) -> channel_of (back s r) c = None).
  { intros c C N. apply back_none. intros I. destruct (name_three r c R C I) as (i & X). exact (N i X). }
  assert (LP : forall c i, In c three -> i_name i = Some c -> is_long_period i = false).
  { intros c i C N. unfold is_long_period. rewrite N. destruct (i_type i); [|reflexivity]. destruct C as [<- | [<- | [<- | []]]]; reflexivity. }
  assert (M : forall comps, incl comps three -> NoDup comps -> (forall c, In c comps -> forall i, In (c, i) (sensors three r) <-> In (c, i) (sensors comps r)) ->
            sensors comps (back s r) = sensors comps r).
  { induction comps as [|c comps IH]; intros I N E; [reflexivity|]. apply NoDup_cons_iff in N. destruct N as [NI N].
    assert (I' : incl comps three) by (intros y Y; exact (I y (or_intror Y))).
    destruct (sensors_facts r comps I' N) as [F' _].
    assert (NC : forall i, ~ In (c, i) (sensors comps r)) by (intros i X; exact (NI (proj1 (F' c i X)))).
    pose proof (I c (or_introl eq_refl)) as C. pose proof (E c (or_introl eq_refl)) as EC.
    assert (ABSENT : sensors (c :: comps) r = sensors comps r -> sensors (c :: comps) (back s r) = sensors (c :: comps) r).
    { intros S. rewrite S in *. cbn [sensors]. rewrite (H c C) by (intros i X; apply EC in X; exact (NC i X)).
      apply IH; [exact I'|exact N|]. intros c' C' i. rewrite <- (E c' (or_intror C') i). reflexivity. }
    cbn [sensors] in ABSENT |- *. cbn [sensors] in E, EC. destruct (channel_of r c) as [x|] eqn:X; [|apply ABSENT; reflexivity].
    destruct (c_kind x) as [j a| |] eqn:K; try (apply ABSENT; reflexivity). clear ABSENT.
    set (i := mkInstr (i_id j) (Some c) (i_manu j) (i_type j)) in *.
    destruct (G c i (proj2 (EC i) (or_introl eq_refl))) as (_ & NM & y & p & Y & KY). rewrite Y, KY. rewrite (LP c i C NM). f_equal.
    destruct (is_long_period j).
    - assert (Z : forall l, incl l comps -> sensors l (back s r) = []).
      { induction l as [|d l IHl]; intros Il; [reflexivity|]. cbn [sensors]. rewrite (H d); [apply IHl; intros z Z; exact (Il z (or_intror Z))| |].
        - apply I'. apply Il. left. reflexivity.
        - intros i' X'. apply (E d (or_intror (Il d (or_introl eq_refl)))) in X'. destruct X' as [X'|[]]. injection X' as -> _. apply NI. apply Il. left. reflexivity. }
      apply Z. intros z Zz. exact Zz.
    - apply IH; [exact I'|exact N|]. intros c' C' i'. rewrite (E c' (or_intror C') i'). split; [|intros Q; right; exact Q].
      intros [Q|Q]; [|exact Q]. injection Q as -> _. exfalso. exact (NI C'). }
  apply M; [intros y Y; exact Y|exact nodup_three|]. intros c _ i. reflexivity.
Qed.

Lemma dipoles_again r : In r s -> dipoles (back s r) = dipoles r.
Proof.
  intros R. unfold dipoles. apply filter_ext_in. intros c C. destruct (channel_of r c) as [x|] eqn:X.
  - assert (D : In c (dipoles r)) by (apply filter_In; split; [exact C|rewrite X; reflexivity]). rewrite (back_ele r c D). reflexivity.
  - rewrite back_none; [reflexivity|]. intros N. destruct (names_last r c R N) as [A _]. exact (A X).
Qed.

Lemma back_again r : In r s -> back s' (back s r) = back s r.
Proof.
  intros R. assert (SB : sensors_back (back s r) = sensors_back r) by (unfold sensors_back; rewrite (sensors_again r R); reflexivity).
  unfold back at 1. rewrite SB, (dipoles_again r R). cbn [back r_id r_logger r_rate r_period r_comment i_id i_manu i_type]. unfold back.
  f_equal.
  - f_equal. f_equal. unfold remark_back at 1. cbn [value]. destruct (has_char ":" (remark_back (r_comment r))) eqn:H; [reflexivity|].
    unfold remark_back in *. destruct (value (r_comment r)) as [v|]; [|reflexivity]. destruct (has_char ":" v) eqn:H2; [congruence|reflexivity].
  - f_equal.
    + apply map_ext_in. intros [c i] I. unfold mag_back. cbn [fst snd r_period].
      assert (N : In c (names_back r)) by (unfold names_back; apply in_or_app; left; exact (in_map fst _ _ I)).
      destruct (names_last r c R N) as (_ & L & C). destruct (last_channel s c) as [x|] eqn:LX; [|congruence].
      destruct (same_layout c x C LX) as (y & -> & -> & -> & _). reflexivity.
    + apply map_ext_in. intros c D.
      assert (N : In c (names_back r)) by (unfold names_back; apply in_or_app; right; exact D).
      destruct (names_last r c R N) as (_ & _ & C).
      destruct (ele_form r c R D) as (len & p & m & az & tr & pe & x & Y & PO & L & _ & EQ).
      rewrite (surjective_pairing (ele_back s r c)), EQ. unfold ele_back at 1. cbn [fst snd]. change (fst (ele_back s r c)) with c. f_equal.
      pose proof (back_ele r c D) as BE. rewrite EQ in BE. unfold back in BE. rewrite BE. cbn [r_period].
      destruct (same_layout c x C L) as (y & -> & -> & -> & ->). reflexivity.
Qed.

Theorem stable : station_ok s' /\ kept s' = s' /\ covered s' = true /\ map (back s') s' = s'.
Proof.
  split; [|split; [|split]].
  - split; [unfold s'; rewrite map_map; exact ND|]. apply Forall_forall. intros r R. apply in_map_iff in R. destruct R as (r0 & <- & R). exact (back_run_ok r0 R).
  - unfold s', kept. assert (F : forall r, r_rate (back s r) = r_rate r) by reflexivity. generalize RATE. revert F. generalize (back s) as f. clear. intros f F.
    induction s as [|r l IH]; intros H; [reflexivity|]. cbn. rewrite F, (Forall_inv H). cbn. f_equal. exact (IH (Forall_inv_tail H)).
  - unfold covered. apply forallb_forall. intros r R. apply filter_In in R. destruct R as [R _]. apply in_map_iff in R. destruct R as (r0 & <- & R).
    apply forallb_forall. intros c C. destruct (last_channel s' c) as [y|] eqn:L; [|reflexivity]. apply existsb_exists. exists c. split; [|apply text_eqb_refl].
    unfold names_back. assert (SB : sensors_back (back s r0) = sensors_back r0) by (unfold sensors_back; rewrite (sensors_again r0 R); reflexivity).
    rewrite SB, (dipoles_again r0 R). apply (names_in r0 c R C).
    destruct (last_channel_in _ _ _ L) as (r2 & R2 & X2). apply in_map_iff in R2. destruct R2 as (r1 & <- & R1).
    destruct (in_dec text_dec c (names_back r1)) as [N1|N1]; [|rewrite (back_none r1 c N1) in X2; discriminate X2].
    exact (proj1 (proj2 (names_last r1 c R1 N1))).
  - unfold s' at 2 3. rewrite map_map. apply map_ext_in. intros r R. exact (back_again r R).
Qed.
End Stable.
