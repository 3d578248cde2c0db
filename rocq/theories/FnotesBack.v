(** Proofs about FnotesModel.v: the runs made from the field notes and the site layout *)
From Coq Require Import QArith.
From Verif Require Import PyBase PyFacts PyText TextFacts ContainerModel CommentModel LayModel FnotesModel FnotesSpec FnotesProofs FnotesRead.
Local Open Scope nat_scope.
Local Open Scope list_scope.

Section Back.
Variables (read : text -> option Z) (show : Z -> text) (other : text -> text -> frun -> result frun)
          (merge_chan : channel -> channel -> channel) (merge_run : run -> run -> run).

(** ** The channels of the field notes *)
Definition mag0 (p : Z * Z) (ci : text * instr) : text * channel := (fst ci, new_mag (snd ci) p).

Lemma add_new (chans : list (text * channel)) c x : ~ In c (map fst chans) -> add_channel merge_chan chans c x = chans ++ [(c, x)].
Proof.
  intros N. unfold add_channel. rewrite (proj2 (dget_None text_dec c chans) N). exact (dset_notin text_dec c x chans N).
Qed.

Lemma three_names c : In c three -> lower c = c /\ named ["h"; "b"; "r"]%char c = true /\ lower (capitalize c) = c.
Proof. intros [<- | [<- | [<- | []]]]; repeat split; reflexivity. Qed.
Lemma two_names c : In c two -> lower c = c /\ named ["e"]%char c = true /\ lower (capitalize c) = c.
Proof. intros [<- | [<- | []]]; repeat split; reflexivity. Qed.

Lemma read_mags_all p : forall l chans, (forall c i, In (c, i) l -> In c three /\ i_name i = Some c) -> NoDup (map fst l) ->
  (forall c, In c (map fst l) -> ~ In c (map fst chans)) ->
  read_mags merge_chan (map snd l) p chans = Ok (chans ++ map (mag0 p) l).
Proof.
  induction l as [|[c i] l IH]; intros chans H N D; cbn [map read_mags snd]; [rewrite app_nil_r; reflexivity|].
  destruct (H c i (or_introl eq_refl)) as [C NM]. rewrite NM. destruct (three_names c C) as (LO & NA & _). rewrite LO, NA.
  cbn [map fst] in N. apply NoDup_cons_iff in N. destruct N as [NI N].
  rewrite (add_new chans c _ (D c (or_introl eq_refl))). rewrite IH; [| |exact N|].
  - rewrite <- app_assoc. cbn [app]. unfold mag0 at 2. cbn [fst snd]. do 4 f_equal. destruct i. cbn in *. subst. reflexivity.
  - intros c' i' X. exact (H c' i' (or_intror X)).
  - intros c' X. rewrite map_app. intros I. apply in_app_or in I. destruct I as [I|[I|[]]]; [exact (D c' (or_intror X) I)|].
    cbn in I. subst c'. exact (NI X).
Qed.

Lemma sensors_facts r : forall comps, incl comps three -> NoDup comps ->
  (forall c i, In (c, i) (sensors comps r) -> In c comps /\ i_name i = Some c) /\ NoDup (map fst (sensors comps r)).
Proof.
  induction comps as [|c comps IH]; intros I N; [split; [intros c i []|constructor]|]. apply NoDup_cons_iff in N. destruct N as [NI N].
  destruct (IH (fun y Y => I y (or_intror Y)) N) as [A B].
  assert (A' : forall c' i, In (c', i) (sensors comps r) -> In c' (c :: comps) /\ i_name i = Some c') by (intros c' i X; destruct (A c' i X); split; [right; assumption|assumption]).
  cbn [sensors]. destruct (channel_of r c) as [x|]; [|split; assumption]. destruct (c_kind x) as [i a| |]; try (split; assumption).
  destruct (is_long_period i).
  - split; [|constructor; [intros []|constructor]]. intros c' i' [X|[]]. inversion X; subst. split; [left|]; reflexivity.
  - split; [intros c' i' [X|X]; [inversion X; subst; split; [left|]; reflexivity|exact (A' c' i' X)]|].
    cbn [map fst]. constructor; [|exact B]. intros X. apply in_map_iff in X. destruct X as ([c' i'] & E & X). cbn in E. subst c'.
    exact (NI (proj1 (A c i' X))).
Qed.

Lemma back_names r : incl (map fst (sensors_back r)) three /\ NoDup (map fst (sensors_back r)).
Proof.
  destruct (sensors_facts r three (fun y Y => Y) nodup_three) as [A B]. unfold sensors_back.
  destruct (sensors three r) as [|[c i] [|ci l]] eqn:E.
  - split; [intros x []|constructor].
  - split; [intros x X; exact X|exact nodup_three].
  - split; [|exact B]. intros x X. apply in_map_iff in X. destruct X as ([c' i'] & F & X). cbn in F. subst c'. exact (proj1 (A x i' X)).
Qed.

Lemma read_sensors r p :
  match map snd (sensors three r) with [i] => Ok (read_one_mag merge_chan i p []) | l => read_mags merge_chan l p [] end
  = Ok (map (mag0 p) (sensors_back r)).
Proof.
  destruct (sensors_facts r three (fun y Y => Y) nodup_three) as [A B]. unfold sensors_back.
  destruct (sensors three r) as [|[c i] [|ci l]] eqn:E.
  - reflexivity.
  - cbn [map snd]. unfold read_one_mag. f_equal. cbn [magnetics fold_left]. rewrite (add_new []) by (intros []).
    cbn [app]. rewrite (add_new [_]) by (cbn; intros [X|[]]; discriminate X). cbn [app]. rewrite (add_new [_; _]) by (cbn; intros [X|[X|[]]]; discriminate X). destruct i. reflexivity.
  - change (map snd ((c, i) :: ci :: l)) with (i :: snd ci :: map snd l). change (i :: snd ci :: map snd l) with (map snd ((c, i) :: ci :: l)).
    apply (read_mags_all p ((c, i) :: ci :: l) []); [exact A|exact B|]. intros c' _ [].
Qed.

Definition ele0 (r : run) (c : text) : text * channel :=
  (c, match channel_of r c with
      | Some (mkChannel (KEle len p m) _ tr _) =>
          mkChannel (KEle len (mkPot (p_id p) (p_type p) (p_manu p) origin origin) (mkPot (p_id m) (p_type p) (p_manu p) origin origin)) 0%Q tr (r_period r)
      | _ => mkChannel KAux 0%Q None (r_period r)
      end).

Lemma read_dips_all r : run_ok r -> forall ds chans, incl ds two -> (forall c, In c ds -> exists x, channel_of r c = Some x) -> NoDup ds ->
  (forall c, In c ds -> ~ In c (map fst chans)) ->
  read_dips show merge_chan (map (dip_note r) ds) (r_period r) chans = Ok (chans ++ map (ele0 r) ds).
Proof.
  intros (_ & TE & _). induction ds as [|c ds IH]; intros chans I H N D; cbn [map read_dips]; [rewrite app_nil_r; reflexivity|].
  apply NoDup_cons_iff in N. destruct N as [NI N]. destruct (H c (or_introl eq_refl)) as (x & X).
  destruct (TE c x (I c (or_introl eq_refl)) X) as [(len & p & m & K) PO]. destruct (PO len p m K) as ((n1 & N1) & (n2 & N2) & t & T1 & T2).
  destruct x as [k az tr pe]. cbn in K. subst k.
  destruct (two_names c (I c (or_introl eq_refl))) as (_ & NA & LO).
  assert (E : ele0 r c = (c, mkChannel (KEle len (mkPot (Some n1) (Some t) (p_manu p) origin origin) (mkPot (Some n2) (Some t) (p_manu p) origin origin)) 0%Q tr (r_period r))).
  { unfold ele0. rewrite X, N1, N2, T1. reflexivity. }
  rewrite E. assert (DN : dip_note r c = dip_note r c) by reflexivity. unfold dip_note at 2 in DN. rewrite X in DN. rewrite DN. clear DN.
  cbn [d_name d_length d_manu d_pots d_azimuth]. rewrite LO, NA, N1, N2, T1.
  match goal with |- context [fold_left ?f ?l ?z] =>
    replace (fold_left f l z) with (mkPot (Some n1) (Some t) (p_manu p) origin origin, mkPot (Some n2) (Some t) (p_manu p) origin origin)
      by (destruct (text_eqb c (txt "ex")); reflexivity) end.
  cbn [fst snd]. rewrite (add_new chans c _ (D c (or_introl eq_refl))), IH; [rewrite <- app_assoc; reflexivity| | |exact N|].
  - intros y Y. exact (I y (or_intror Y)).
  - intros y Y. exact (H y (or_intror Y)).
  - intros c' Y. rewrite map_app. intros J. apply in_app_or in J. destruct J as [J|[J|[]]]; [exact (D c' (or_intror Y) J)|].
    cbn in J. subst c'. exact (NI Y).
Qed.

(** ** Places *)
Definition pos (c : text) (h : chan) (k : kind) : kind := match put_position c h k with Ok k' => k' | Err _ => k end.
Definition upd (ios : list (text * chan)) (p : Z * Z) (cx : text * channel) : text * channel :=
  (fst cx, match dget text_dec (fst cx) ios with
           | Some h => mkChannel (pos (fst cx) h (c_kind (snd cx))) (azimuth_of h) (Some (azimuth_of h)) p
           | None => snd cx
           end).

Lemma dset_map (d : list (text * channel)) k v : NoDup (map fst d) -> In k (map fst d) ->
  dset text_dec k v d = map (fun cx => (fst cx, if text_dec (fst cx) k then v else snd cx)) d.
Proof.
  induction d as [|[c x] d IH]; intros N I; [destruct I|]. cbn [map fst] in *. apply NoDup_cons_iff in N. destruct N as [NI N]. cbn [dset fst snd].
  destruct (text_dec k c) as [-> |D].
  - destruct (text_dec c c); [|congruence]. f_equal. rewrite <- (map_id d) at 1. apply map_ext_in. intros [c' x'] X. cbn [fst snd].
    destruct (text_dec c' c) as [-> |]; [|reflexivity]. exfalso. apply NI. exact (in_map fst _ _ X).
  - destruct (text_dec c k); [congruence|]. f_equal. apply IH; [exact N|]. destruct I as [I|I]; [congruence|exact I].
Qed.

Lemma read_places_all p : forall ios chans,
  NoDup (map fst ios) -> (forall c h, In (c, h) ios -> lower (name_of h) = c) -> NoDup (map fst chans) ->
  (forall c h x, In (c, h) ios -> dget text_dec c chans = Some x -> exists k, put_position c h (c_kind x) = Ok k) ->
  read_places (map snd ios) p chans =
  if forallb (fun c => existsb (text_eqb c) (map fst chans)) (map fst ios) then Ok (map (upd ios p) chans) else Err AttributeError.
Proof.
  induction ios as [|[c h] ios IH]; intros chans NK NM NC CO; cbn [map read_places snd forallb fst].
  - f_equal. symmetry. rewrite <- (map_id chans) at 2. apply map_ext. intros [c x]. reflexivity.
  - rewrite (NM c h (or_introl eq_refl)). destruct (dget text_dec c chans) as [x|] eqn:G.
    + destruct (CO c h x (or_introl eq_refl) G) as (k & K). rewrite K. cbn [bindR].
      apply NoDup_cons_iff in NK. destruct NK as [NI NK].
      assert (IC : In c (map fst chans)) by exact (in_map fst _ _ (dget_In text_dec _ _ _ G)).
      assert (existsb (text_eqb c) (map fst chans) = true) as -> by (apply existsb_exists; exists c; split; [exact IC|apply text_eqb_refl]).
      set (v := mkChannel k _ _ _).
      assert (KS : map fst (dset text_dec c v chans) = map fst chans) by exact (dkeys_dset_in text_dec c v chans IC).
      rewrite IH; [|exact NK| |rewrite KS; exact NC|].
      * cbn [andb]. rewrite KS. destruct (forallb _ _); [|reflexivity]. f_equal. rewrite (dset_map chans c v NC IC), map_map. apply map_ext_in.
        intros [c' x'] X. unfold upd. cbn [fst snd dget]. destruct (text_dec c' c) as [-> |D].
        -- assert (dget text_dec c ios = None) as -> by (apply dget_None; exact NI).
           rewrite (In_dget text_dec c x' chans NC X) in G. injection G as ->. unfold pos. rewrite K. reflexivity.
        -- reflexivity.
      * intros c' h' X. exact (NM c' h' (or_intror X)).
      * intros c' h' x' X Y. assert (c' <> c) by (intros ->; apply NI; exact (in_map fst _ _ X)).
        rewrite dget_dset_neq in Y by assumption. exact (CO c' h' x' (or_intror X) Y).
    + assert (existsb (text_eqb c) (map fst chans) = false) as ->; [|reflexivity].
      destruct (existsb (text_eqb c) (map fst chans)) eqn:EX; [|reflexivity]. exfalso. apply existsb_exists in EX. destruct EX as (y & Y & Z).
      apply text_eqb_eq in Z. subst y. apply (proj1 (dget_None text_dec c chans)) in G. exact (G Y).
Qed.

(** ** A run *)
Lemma last_channel_in s c x : last_channel s c = Some x -> exists r, In r s /\ channel_of r c = Some x.
Proof.
  induction s as [|r s IH]; cbn [last_channel]; [discriminate|]. destruct (last_channel s c) eqn:L.
  - intros E. destruct (IH E) as (r' & R & X). exists r'. split; [right; exact R|exact X].
  - intros E. exists r. split; [left; reflexivity|exact E].
Qed.
Lemma last_channel_some s c r : In r s -> channel_of r c <> None -> last_channel s c <> None.
Proof.
  induction s as [|a s IH]; intros I N; [destruct I|]. cbn [last_channel]. destruct I as [-> |I].
  - destruct (last_channel s c); [discriminate|exact N].
  - specialize (IH I N). destruct (last_channel s c); [discriminate|congruence].
Qed.

Definition cov (s : list run) (r : run) : bool :=
  forallb (fun c => match last_channel s c with Some _ => existsb (text_eqb c) (names_back r) | None => true end) (three ++ two).

Lemma dipoles_facts r : incl (dipoles r) two /\ NoDup (dipoles r) /\ forall c, In c (dipoles r) -> exists x, channel_of r c = Some x.
Proof.
  unfold dipoles. split; [intros c C; exact (proj1 (proj1 (filter_In _ _ _) C))|]. split; [apply NoDup_filter; exact nodup_two|].
  intros c C. apply (proj1 (filter_In _ _ _)) in C. destruct C as [_ C]. destruct (channel_of r c) as [x|]; [exists x; reflexivity|discriminate].
Qed.

Lemma three_not_two c : In c three -> In c two -> False.
Proof. intros [<- | [<- | [<- | []]]] [H|[H|[]]]; discriminate H. Qed.

Lemma no_bar_join a v e : part_ok a -> part_ok v -> part_ok e ->
  ~ In "|"%char (join (txt "; ") (labelled (txt "comments.author:") a ++ labelled (txt "comments.value:") v ++ labelled (txt "errors:") e)).
Proof.
  intros A V E. assert (J : forall l, (forall x, In x l -> ~ In "|"%char x) -> ~ In "|"%char (join (txt "; ") l)).
  { induction l as [|x l IH]; intros H I; [destruct I|]. destruct l as [|y l]; [exact (H x (or_introl eq_refl) I)|].
    change (In "|"%char (x ++ txt "; " ++ join (txt "; ") (y :: l))) in I. apply in_app_or in I. destruct I as [I|I]; [exact (H x (or_introl eq_refl) I)|].
    apply in_app_or in I. destruct I as [I|I]; [cbn in I; repeat (destruct I as [I|I]; [discriminate I|]); exact I|].
    exact (IH (fun z Z => H z (or_intror Z)) I). }
  apply J. intros x X. apply in_app_or in X. destruct X as [X|X]; [|apply in_app_or in X; destruct X as [X|X]];
    [destruct a|destruct v|destruct e]; try destruct X as [<- |[]]; try destruct X; intros I; apply in_app_or in I; destruct I as [I|I];
    try (cbn in I; repeat (destruct I as [I|I]; [discriminate I|]); exact I);
    [destruct A as (_ & _ & _ & A); exact (A I)|destruct V as (_ & _ & _ & V); exact (V I)|destruct E as (_ & _ & _ & E); exact (E I)].
Qed.

Lemma given_part p l : part_ok p -> map (app l) (given p) = labelled l p.
Proof. destruct p as [[|c p]|]; [intros (H & _); congruence|reflexivity|reflexivity]. Qed.

Lemma read_run_back s r a v e lay : Forall run_ok s -> In r s -> part_ok a -> part_ok v -> part_ok e ->
  remark_back (r_comment r) = join (txt "; ") (labelled (txt "comments.author:") a ++ labelled (txt "comments.value:") v ++ labelled (txt "errors:") e) ->
  l_in lay ++ l_out lay = map snd (both (fold_left place_run s ([], []))) ->
  read_run read show merge_chan lay (note r a v e) (r_rate r) = if cov s r then Ok (back s r) else Err AttributeError.
Proof.
  intros OK IN A V E RB LAY. assert (RO : run_ok r) by exact (proj1 (Forall_forall _ _) OK r IN).
  assert (TS : Forall typed s) by (eapply Forall_impl; [|exact OK]; exact typed_ok).
  destruct (place_all s TS) as [IO G]. set (io := fold_left place_run s ([], [])) in *.
  destruct (both_keys io IO) as [NK IK].
  assert (G' : forall c, In c (three ++ two) -> dget text_dec c (both io) = option_map (lay_of c) (last_channel s c)) by (intros c C; rewrite (both_get io c IO C); exact (G c C)).
  assert (TM : forall c x, In c three -> last_channel s c = Some x -> is_magnetic x).
  { intros c x C L. destruct (last_channel_in s c x L) as (r' & R & X). exact (proj1 (proj1 (Forall_forall _ _) TS r' R) c x C X). }
  assert (TE : forall c x, In c two -> last_channel s c = Some x -> is_electric x).
  { intros c x C L. destruct (last_channel_in s c x L) as (r' & R & X). exact (proj2 (proj1 (Forall_forall _ _) TS r' R) c x C X). }
  assert (TG : forall c h, In (c, h) (both io) -> exists x, last_channel s c = Some x /\ h = lay_of c x /\ In c (three ++ two)).
  { intros c h H. pose proof (In_dget text_dec c h _ NK H) as D. assert (C : In c (three ++ two)) by (apply IK; exact (in_map fst _ _ H)).
    rewrite (G' c C) in D. destruct (last_channel s c) as [x|]; [|discriminate D]. injection D as <-. exists x. auto. }
  destruct (back_names r) as [SB1 SB2]. destruct (dipoles_facts r) as (D1 & D2 & D3).
  unfold read_run, note. cbn [f_comment f_errors f_mags f_dips f_run f_instr f_period i_id i_manu i_name].
  unfold comment_pieces. cbn [f_comment f_errors author value]. rewrite !given_part by assumption. unfold from_text.
  rewrite (comment_no_bar _ _ _ _ (no_bar_join a v e A V E)), <- RB. cbn [bindR]. rewrite read_sensors. cbn [bindR].
  assert (K0 : map fst (map (mag0 (r_period r)) (sensors_back r)) = map fst (sensors_back r)) by (rewrite map_map; reflexivity).
  rewrite (read_dips_all r RO (dipoles r)); [|exact D1|exact D3|exact D2|].
  2: { intros c C J. rewrite K0 in J. exact (three_not_two c (SB1 c J) (D1 c C)). }
  cbn [bindR]. rewrite LAY.
  assert (KS : map fst (map (mag0 (r_period r)) (sensors_back r) ++ map (ele0 r) (dipoles r)) = names_back r).
  { rewrite map_app, K0. unfold names_back. f_equal. rewrite map_map. apply map_id. }
  assert (KINDS : forall c x, In (c, x) (map (mag0 (r_period r)) (sensors_back r) ++ map (ele0 r) (dipoles r)) ->
            (In c three /\ exists i, In (c, i) (sensors_back r) /\ x = new_mag i (r_period r)) \/
            (In c two /\ In c (dipoles r) /\ x = snd (ele0 r c))).
  { intros c x X. apply in_app_or in X. destruct X as [X|X]; apply in_map_iff in X.
    - destruct X as ([c' i] & X & Y). unfold mag0 in X. cbn [fst snd] in X. injection X as -> <-. left. split; [exact (SB1 c (in_map fst _ _ Y))|]. exists i. auto.
    - destruct X as (c' & X & Y). assert (c' = c) by (injection X; auto). subst c'. right. split; [exact (D1 c Y)|]. split; [exact Y|]. rewrite X. reflexivity. }
  rewrite read_places_all; [|exact NK| |rewrite KS; apply nodup_app_disjoint; [exact SB2|exact D2|intros c X Y; exact (three_not_two c (SB1 c X) (D1 c Y))]|].
  - rewrite KS.
    assert (COV : forallb (fun c => existsb (text_eqb c) (names_back r)) (map fst (both io)) = cov s r).
    { apply eq_true_iff_eq. unfold cov. rewrite !forallb_forall. split.
      - intros F c C. destruct (last_channel s c) as [x|] eqn:L; [|reflexivity]. apply F. pose proof (G' c C) as D. rewrite L in D.
        exact (in_map fst _ _ (dget_In text_dec _ _ _ D)).
      - intros F c C. apply in_map_iff in C. destruct C as ([c' h] & EQ & H). cbn in EQ. subst c'. destruct (TG c h H) as (x & L & _ & C).
        specialize (F c C). rewrite L in F. exact F. }
    rewrite COV. destruct (cov s r); [|reflexivity]. cbn [bindR]. f_equal. unfold back. f_equal. rewrite map_app, !map_map. f_equal.
    + apply map_ext_in. intros [c i] X. unfold upd, mag_back, mag0. cbn [fst snd]. assert (C : In c three) by exact (SB1 c (in_map fst _ _ X)).
      f_equal. rewrite (G' c (in_or_app _ _ _ (or_introl C))). destruct (last_channel s c) as [x|] eqn:L; [|reflexivity]. cbn [option_map].
      destruct (TM c x C L) as (i' & pt & K). destruct x as [k az tr pe]. cbn in K. subst k. destruct pt as [[x1 y1] z1].
      unfold lay_of, first_end. cbn [c_kind new_mag azimuth_of]. unfold pos, put_position.
      replace (existsb (text_eqb c) magnetics) with true by (destruct C as [<- | [<- | [<- | []]]]; reflexivity). reflexivity.
    + apply map_ext_in. intros c X. unfold upd, ele_back, ele0. cbn [fst snd]. assert (C : In c two) by exact (D1 c X). f_equal.
      destruct (D3 c X) as (y & Y). pose proof RO as (_ & RE & _). destruct (RE c y C Y) as [(len & pp & pm & K) _].
      rewrite (G' c (in_or_app _ _ _ (or_intror C))). rewrite Y.
      assert (last_channel s c <> None) as LN by (apply (last_channel_some s c r IN); congruence).
      destruct (last_channel s c) as [x|] eqn:L; [|congruence]. cbn [option_map]. destruct y as [k az tr pe]. cbn in K. subst k. cbn [c_kind].
      destruct (TE c x C L) as (len' & p' & m' & K'). unfold lay_of. rewrite K'. destruct (first_end x) as [[x1 y1] z1]. destruct (second_end c x) as [[x2 y2] z2].
      cbn [azimuth_of]. unfold pos, put_position.
      replace (existsb (text_eqb c) magnetics) with false by (destruct C as [<- | [<- | []]]; reflexivity).
      replace (existsb (text_eqb c) electrics) with true by (destruct C as [<- | [<- | []]]; reflexivity). reflexivity.
  - intros c h H. destruct (TG c h H) as (x & L & -> & C). unfold lay_of.
    assert (lower (capitalize c) = c) as LC by (apply in_app_or in C; destruct C as [C|C]; [exact (proj2 (proj2 (three_names c C)))|exact (proj2 (proj2 (two_names c C)))]).
    destruct (c_kind x); destruct (first_end x) as [[? ?] ?]; try destruct (second_end c x) as [[? ?] ?]; exact LC.
  - intros c h x H X. destruct (TG c h H) as (y & L & -> & C). apply dget_In in X. destruct (KINDS c x X) as [(C3 & i & _ & ->)|(C2 & CD & ->)].
    + destruct (TM c y C3 L) as (i' & pt & K). unfold lay_of. rewrite K. destruct (first_end y) as [[? ?] ?]. unfold put_position.
      replace (existsb (text_eqb c) magnetics) with true by (destruct C3 as [<- | [<- | [<- | []]]]; reflexivity). eexists. reflexivity.
    + destruct (TE c y C2 L) as (len' & p' & m' & K). unfold lay_of. rewrite K. destruct (first_end y) as [[? ?] ?]. destruct (second_end c y) as [[? ?] ?].
      destruct (D3 c CD) as (w & W). pose proof RO as (_ & RE & _). destruct (RE c w C2 W) as [(len & pp & pm & K2) _].
      unfold ele0. cbn [snd]. rewrite W. destruct w as [k az tr pe]. cbn in K2. subst k. unfold put_position.
      replace (existsb (text_eqb c) magnetics) with false by (destruct C2 as [<- | [<- | []]]; reflexivity).
      replace (existsb (text_eqb c) electrics) with true by (destruct C2 as [<- | [<- | []]]; reflexivity). eexists. reflexivity.
Qed.

(** ** A station *)
Lemma add_run_new l r : ~ In (r_id r) (map r_id l) -> add_run merge_run l r = l ++ [r].
Proof.
  induction l as [|x l IH]; intros N; cbn; [reflexivity|]. destruct (text_eqb (r_id x) (r_id r)) eqn:T.
  - exfalso. apply N. left. apply text_eqb_eq. exact T.
  - f_equal. apply IH. intros I. apply N. right. exact I.
Qed.

Definition noted (s : list run) (fs : list frun) : Prop :=
  Forall2 (fun r f => exists a v e, part_ok a /\ part_ok v /\ part_ok e /\ f = note r a v e /\
     remark_back (r_comment r) = join (txt "; ") (labelled (txt "comments.author:") a ++ labelled (txt "comments.value:") v ++ labelled (txt "errors:") e)) s fs.

Lemma write_notes s : Forall run_ok s -> exists fs, mapR (write_run read other) s = Ok fs /\ noted s fs.
Proof.
  induction 1 as [|r s R _ (fs & E & F)]; [exists []; split; [reflexivity|constructor]|].
  destruct (write_run_note read other r R) as (a & v & e & A & V & EE & W & B). exists (note r a v e :: fs). cbn [mapR]. rewrite W. cbn [bindR].
  rewrite E. cbn [bindR]. split; [reflexivity|]. constructor; [|exact F]. exists a, v, e. auto.
Qed.

Lemma read_runs_back s lay : Forall run_ok s -> l_in lay ++ l_out lay = map snd (both (fold_left place_run s ([], []))) ->
  forall rest fs acc, incl rest s -> noted rest fs -> NoDup (map r_id acc ++ map r_id rest) ->
  read_runs read show merge_chan merge_run lay fs acc =
  if forallb (cov s) (kept rest) then Ok (acc ++ map (back s) (kept rest)) else Err AttributeError.
Proof.
  intros OK LAY. induction rest as [|r rest IH]; intros fs acc I F N; inversion F as [|? f ? fs' Hf F']; subst; cbn [read_runs kept filter].
  - cbn. rewrite app_nil_r. reflexivity.
  - destruct Hf as (a & v & e & A & V & E & -> & RB).
    assert (I' : incl rest s) by (intros y Y; exact (I y (or_intror Y))). cbn [note f_rate]. destruct (Qeq_bool (r_rate r) 0) eqn:Z; cbn [negb].
    + apply IH; [exact I'|exact F'|]. cbn [map] in N. exact (NoDup_remove_1 _ _ _ N).
    + rewrite (read_run_back s r a v e lay OK (I r (or_introl eq_refl)) A V E RB LAY). cbn [forallb].
      destruct (cov s r); [|reflexivity]. cbn [bindR andb map].
      rewrite add_run_new by (intros X; cbn [map back r_id] in N, X; apply NoDup_remove_2 in N; apply N; apply in_or_app; left; exact X).
      change (filter (fun r0 : run => negb (Qeq_bool (r_rate r0) 0)) rest) with (kept rest).
      rewrite IH; [|exact I'|exact F'|].
      * rewrite <- app_assoc. reflexivity.
      * rewrite map_app. cbn [map back r_id]. rewrite <- app_assoc. exact N.
Qed.

Theorem write_read s site nt per : station_ok s -> s <> [] -> exists o, write read other s = Ok o /\
  read_station read show merge_chan merge_run site nt per o = if covered s then Ok (map (back s) (kept s)) else Err AttributeError.
Proof.
  intros [ND OK] NE. destruct (write_notes s OK) as (fs & E & F). unfold write. rewrite E. cbn [bindR].
  eexists. split; [reflexivity|]. unfold read_station. cbn [fst snd].
  destruct fs as [|f fs]; [inversion F; subst; congruence|].
  rewrite (read_runs_back s _ OK) with (rest := s); [reflexivity| |intros y Y; exact Y|exact F|exact ND].
  cbn [l_in l_out]. unfold both. rewrite map_app. reflexivity.
Qed.
End Back.
