(** Lemmas for C53. *)
From Coq Require Import Permutation Sorted.
From Verif Require Import PyBase PyFacts PyText TextFacts PyNum IsoModel IsoProofs PyFloat PyFloatFacts PySci PySciFacts PyRepr PyReprFacts EdiProofs JfileModel JfileSpec.
Local Open Scope list_scope.

(** ** Kinds of lines *)
Lemma comp_name_inj a b : comp_name a = comp_name b -> a = b.
Proof. destruct a, b; intros E; try reflexivity; discriminate E. Qed.
Lemma component_words c : comp_name c = component_word c.
Proof. destruct c; reflexivity. Qed.
Lemma comp_of_some w c : comp_of w = Some c <-> w = comp_name c.
Proof.
  split.
  - intros E. unfold comp_of in E. apply List.find_some in E as [_ E]. apply text_eqb_eq in E. congruence.
  - intros ->. destruct c; vm_compute; reflexivity.
Qed.
Lemma prefix_one c w : prefix_of [c] w = true <-> exists s, w = c :: s.
Proof.
  destruct w as [|x w]; cbn [prefix_of]; [split; [discriminate|intros (s & E); discriminate E]|]. split.
  - intros E. apply andb_true_iff in E as [E _]. apply Ascii.eqb_eq in E. subst. exists w. reflexivity.
  - intros (s & E). injection E as -> ->. rewrite Ascii.eqb_refl. reflexivity.
Qed.
Lemma has_r low : has_char "r"%char low = true <-> In "r"%char low.
Proof.
  unfold has_char. rewrite existsb_exists. split.
  - intros (x & I & E). apply Ascii.eqb_eq in E. subst. exact I.
  - intros I. exists "r"%char. split; [exact I|apply Ascii.eqb_refl].
Qed.
Lemma kind_spec line :
  match kind_of line with
  | LHeader w => is_header line /\ exists v r, split_ws line = v :: r /\ lower v = w
  | LSkip => ~ is_header line /\ ~ ends line /\ List.length (split_ws line) = 1%nat
  | LStop => ends line
  | LRow ws => is_row line ws
  end.
Proof.
  unfold kind_of. rewrite split_ws_strip. 
  assert (HR : forall b, has_char "r"%char (lower line) = b -> ~ is_header line -> if b then ends line else ~ ends line).
  { intros b E NH. destruct b; [split; [exact NH|apply has_r; exact E]|]. intros [_ I]. apply has_r in I. congruence. }
  destruct (split_ws line) as [|w r] eqn:E.
  - assert (NH : ~ is_header line) by (intros (w & r & c & s & E' & _); rewrite E in E'; discriminate E').
    destruct (has_char "r"%char (lower line)) eqn:R; [exact (HR true eq_refl NH)|]. unfold is_row. rewrite E. split; [exact NH|]. split; [exact (HR false eq_refl NH)|]. split; [reflexivity|discriminate].
  - destruct (prefix_of (txt "z") (lower w) || prefix_of (txt "t") (lower w))%bool eqn:P.
    + split; [|exists w, r; split; reflexivity]. apply orb_true_iff in P as [P|P]; apply prefix_one in P as (s & P); exists w, r; [exists "z"%char|exists "t"%char]; exists s; split; [exact E| |exact E|]; split; [exact P| |exact P|]; tauto.
    + assert (NH : ~ is_header line).
      { intros (w' & r' & c & s & E' & L & C). rewrite E in E'. injection E' as <- <-. apply orb_false_iff in P as [P1 P2].
        destruct C as [->| ->]; [assert (T : prefix_of (txt "z") (lower w) = true) by (apply prefix_one; exists s; exact L)|assert (T : prefix_of (txt "t") (lower w) = true) by (apply prefix_one; exists s; exact L)]; congruence. }
      destruct (has_char "r"%char (lower line)) eqn:R.
      * rewrite andb_false_r. exact (HR true eq_refl NH).
      * rewrite andb_true_r. destruct (Nat.eqb_spec (List.length (w :: r)) 1) as [L|L]; [split; [exact NH|]; split; [exact (HR false eq_refl NH)|exact L]|].
        unfold is_row. rewrite E. split; [exact NH|]. split; [exact (HR false eq_refl NH)|]. split; [reflexivity|exact L].
Qed.
(** ** Lines listed under a component, also when the block began before *)
Definition listedK (key : option comp) (lines : list text) (c : comp) (ws post : list text) : Prop :=
  listed lines c ws post \/
  (key = Some c /\ exists mid row, lines = mid ++ row :: post /\ is_row row ws /\ Forall (fun l => ~ is_header l) mid /\ Forall (fun l => ~ ends l) mid).
Lemma begins_header l c : begins l c -> is_header l.
Proof. intros (w & r & E & L). exists w, r. destruct c; cbn in L; eexists; eexists; (split; [exact E|]; split; [exact L|]; tauto). Qed.
Lemma ends_not_header l : ends l -> ~ is_header l.
Proof. intros [H _]. exact H. Qed.
Lemma listed_nil c ws post : ~ listed [] c ws post.
Proof. intros (pre & h & mid & row & E & _). destruct pre; discriminate E. Qed.
Lemma listedK_nil key c ws post : ~ listedK key [] c ws post.
Proof. intros [H|[_ (mid & row & E & _)]]; [exact (listed_nil _ _ _ H)|destruct mid; discriminate E]. Qed.
Lemma listedK_stop key line r c ws post : ends line -> ~ listedK key (line :: r) c ws post.
Proof.
  intros EN [(pre & h & mid & row & E & B & R & _ & F)|(_ & mid & row & E & R & _ & F)].
  - destruct pre as [|x pre]; injection E as -> E; [apply (ends_not_header _ EN), begins_header with (c := c), B|]. inversion F; subst. contradiction.
  - destruct mid as [|x mid]; injection E as -> E; [destruct R as (_ & R & _); contradiction|]. inversion F; subst. contradiction.
Qed.
Lemma listedK_header key line r c ws post w v rest : is_header line -> split_ws line = v :: rest -> lower v = w ->
  (listedK key (line :: r) c ws post <-> listedK (comp_of w) r c ws post).
Proof.
  intros IH SP LW. assert (NE : ~ ends line) by (intros EN; exact (ends_not_header _ EN IH)). split.
  - intros [(pre & h & mid & row & E & B & R & F1 & F2)|(_ & mid & row & E & R & F1 & F2)].
    + destruct pre as [|x pre]; injection E as -> E.
      * right. split; [|exists mid, row; split; [exact E|]; split; [exact R|]; split; [exact F1|exact F2]].
        destruct B as (v' & r' & E' & L'). rewrite SP in E'. injection E' as <- <-. apply comp_of_some. rewrite component_words. congruence.
      * left. exists pre, h, mid, row. split; [exact E|]. split; [exact B|]. split; [exact R|]. split; [exact F1|]. inversion F2; assumption.
    + destruct mid as [|x mid]; injection E as -> E; [destruct R as (R & _); contradiction|inversion F1; contradiction].
  - intros [(pre & h & mid & row & E & B & R & F1 & F2)|(K & mid & row & E & R & F1 & F2)]; left.
    + exists (line :: pre), h, mid, row. split; [rewrite E; reflexivity|]. split; [exact B|]. split; [exact R|]. split; [exact F1|]. constructor; assumption.
    + exists [], line, mid, row. split; [rewrite E; reflexivity|]. split; [|split; [exact R|split; [exact F1|exact F2]]]. apply comp_of_some in K. rewrite component_words in K. exists v, rest. split; [exact SP|congruence].
Qed.
Lemma listedK_other key line r c ws post : ~ is_header line -> ~ ends line -> List.length (split_ws line) = 1%nat -> (listedK key (line :: r) c ws post <-> listedK key r c ws post).
Proof.
  intros NH NE L. split.
  - intros [(pre & h & mid & row & E & B & R & F1 & F2)|(K & mid & row & E & R & F1 & F2)].
    + destruct pre as [|x pre]; injection E as -> E; [destruct (NH (begins_header _ _ B))|]. left. exists pre, h, mid, row. inversion F2; subst. auto.
    + right. split; [exact K|]. destruct mid as [|x mid]; injection E as -> E; [destruct R as (_ & _ & SW & LW); congruence|]. exists mid, row. inversion F1; inversion F2; subst. auto.
  - intros [(pre & h & mid & row & E & B & R & F1 & F2)|(K & mid & row & E & R & F1 & F2)].
    + left. exists (line :: pre), h, mid, row. split; [rewrite E; reflexivity|]. split; [exact B|]. split; [exact R|]. split; [exact F1|]. constructor; assumption.
    + right. split; [exact K|]. exists (line :: mid), row. split; [rewrite E; reflexivity|]. split; [exact R|]. split; constructor; assumption.
Qed.
Lemma listedK_row key line r c ws post ws0 : is_row line ws0 -> (listedK key (line :: r) c ws post <-> (key = Some c /\ ws = ws0 /\ post = r) \/ listedK key r c ws post).
Proof.
  intros IR. pose proof IR as (NH & NE & SW & LW). split.
  - intros [(pre & h & mid & row & E & B & R & F1 & F2)|(K & mid & row & E & R & F1 & F2)].
    + right. destruct pre as [|x pre]; injection E as -> E; [destruct (NH (begins_header _ _ B))|]. left. exists pre, h, mid, row. inversion F2; subst. auto.
    + destruct mid as [|x mid]; injection E as -> E.
      * left. split; [exact K|]. destruct R as (_ & _ & SR & _). split; congruence.
      * right. right. split; [exact K|]. exists mid, row. inversion F1; inversion F2; subst. auto.
  - intros [(K & -> & ->)|[(pre & h & mid & row & E & B & R & F1 & F2)|(K & mid & row & E & R & F1 & F2)]].
    + right. split; [exact K|]. exists [], line. split; [reflexivity|]. split; [exact IR|]. split; constructor.
    + left. exists (line :: pre), h, mid, row. split; [rewrite E; reflexivity|]. split; [exact B|]. split; [exact R|]. split; [exact F1|]. constructor; assumption.
    + right. split; [exact K|]. exists (line :: mid), row. split; [rewrite E; reflexivity|]. split; [exact R|]. split; constructor; assumption.
Qed.
Lemma listedK_post key : forall lines c ws post, listedK key lines c ws post -> (List.length post < List.length lines)%nat.
Proof.
  intros lines c ws post [(pre & h & mid & row & -> & _)|(_ & mid & row & -> & _)]; rewrite ?app_length; cbn [List.length]; rewrite ?app_length; cbn [List.length]; lia.
Qed.
(** ** What the dictionaries hold *)
Definition hit (key : option comp) (lines : list text) (c : comp) (k : text) (v : list text) (post : list text) : Prop :=
  exists wp vs, listedK key lines c (wp :: vs) post /\ clean_word wp = k /\ map clean_word (firstn 3 vs) = v.
Definition last_hit key lines c k v : Prop := exists post, hit key lines c k v post /\ forall v' post', hit key lines c k v' post' -> (List.length post <= List.length post')%nat.
Lemma jset_same c k v d : jset c k v d c = dset text_dec k v (d c).
Proof. unfold jset. destruct (comp_dec c c); [reflexivity|congruence]. Qed.
Lemma jset_other c c' k v d : c' <> c -> jset c k v d c' = d c'.
Proof. intros N. unfold jset. destruct (comp_dec c' c); [congruence|reflexivity]. Qed.
Lemma hit_iff key key' lines lines' c k : (forall ws post, listedK key lines c ws post <-> listedK key' lines' c ws post) ->
  forall v, (last_hit key lines c k v <-> last_hit key' lines' c k v).
Proof.
  intros H. assert (HH : forall v post, hit key lines c k v post <-> hit key' lines' c k v post).
  { intros v post. split; intros (wp & vs & L & A); exists wp, vs; (split; [apply H; exact L|exact A]). }
  intros v. split; intros (post & A & B); exists post; (split; [apply HH; exact A|]); intros v' post' C; apply HH in C; exact (B v' post' C).
Qed.
Lemma read_lines_dict : forall lines key d d' c k, read_lines key d lines = Ok d' ->
  (exists v, last_hit key lines c k v /\ dget text_dec k (d' c) = Some v) \/
  ((forall v post, ~ hit key lines c k v post) /\ dget text_dec k (d' c) = dget text_dec k (d c)).
Proof.
  induction lines as [|line r IH]; intros key d d' c k E; cbn [read_lines] in E.
  - right. injection E as <-. split; [|reflexivity]. intros v post (wp & vs & L & _). exact (listedK_nil _ _ _ _ L).
  - pose proof (kind_spec line) as KS. destruct (kind_of line) as [w| | |ws].
    + destruct KS as (HD & v0 & rest & SP & LW). pose proof (fun ws post => listedK_header key line r c ws post w v0 rest HD SP LW) as EQ.
      destruct (IH (comp_of w) d d' c k E) as [(v & LH & G)|(NH & G)]; [left|right].
      * exists v. split; [apply (hit_iff key (comp_of w) (line :: r) r c k EQ); exact LH|exact G].
      * split; [|exact G]. intros v post (wp & vs & L & A). apply EQ in L. apply (NH v post). exists wp, vs. auto.
    + destruct KS as (NH0 & NE & LW). pose proof (fun ws post => listedK_other key line r c ws post NH0 NE LW) as EQ.
      destruct (IH key d d' c k E) as [(v & LH & G)|(NH & G)]; [left|right].
      * exists v. split; [apply (hit_iff key key (line :: r) r c k EQ); exact LH|exact G].
      * split; [|exact G]. intros v post (wp & vs & L & A). apply EQ in L. apply (NH v post). exists wp, vs. auto.
    + right. injection E as <-. split; [|reflexivity]. intros v post (wp & vs & L & _). exact (listedK_stop key line r c _ _ KS L).
    + pose proof (fun ws1 post => listedK_row key line r c ws1 post ws KS) as EQ. destruct key as [kc|].
      * destruct ws as [|wp vs]; cbn [map] in E; [discriminate E|]. rewrite firstn_map in E.
        destruct (IH (Some kc) _ d' c k E) as [(v & (post & HT & LA) & G)|(NH & G)].
        -- left. exists v. split; [|exact G]. exists post. split.
           ++ destruct HT as (wp' & vs' & L & A). exists wp', vs'. split; [apply EQ; right; exact L|exact A].
           ++ intros v' post' (wp' & vs' & L & A). apply EQ in L as [(_ & _ & ->)|L]; [|apply (LA v' post'); exists wp', vs'; auto].
              destruct HT as (wp2 & vs2 & L2 & _). apply listedK_post in L2. lia.
        -- destruct (comp_dec c kc) as [->|NC]; [destruct (text_dec k (clean_word wp)) as [->|NK]|].
           ++ left. exists (map clean_word (firstn 3 vs)). rewrite G, jset_same, dget_dset_eq. split; [|reflexivity]. exists r. split.
              ** exists wp, vs. split; [apply EQ; left; auto|]. split; reflexivity.
              ** intros v' post' (wp' & vs' & L & A). apply EQ in L as [(_ & _ & ->)|L]; [lia|]. exfalso. apply (NH v' post'). exists wp', vs'. auto.
           ++ right. rewrite G, jset_same, dget_dset_neq by congruence. split; [|reflexivity]. intros v post (wp' & vs' & L & A1 & A2). apply EQ in L as [(_ & X & _)|L]; [injection X as -> ->; congruence|]. apply (NH v post). exists wp', vs'. auto.
           ++ right. rewrite G, jset_other by exact NC. split; [|reflexivity]. intros v post (wp' & vs' & L & A). apply EQ in L as [(X & _)|L]; [congruence|]. apply (NH v post). exists wp', vs'. auto.
      * destruct (IH None d d' c k E) as [(v & LH & G)|(NH & G)]; [left|right].
        -- exists v. split; [|exact G]. apply (hit_iff None None (line :: r) r c k); [|exact LH]. intros ws1 post. rewrite EQ. split; [intros [(X & _)|L]; [discriminate X|exact L]|tauto].
        -- split; [|exact G]. intros v post (wp & vs & L & A). apply EQ in L as [(X & _)|L]; [discriminate X|]. apply (NH v post). exists wp, vs. auto.
Qed.
