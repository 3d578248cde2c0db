(** Frequencies, rows and arrays of AVG files. *)
From Coq Require Import Qabs.
From Verif Require Import PyBase PyText PyNum IsoModel PyFloat PySci PyFacts TextFacts PyFloatFacts PySciFacts ValidatorsModel ValidatorsProofs UnitsModel LocationModel EdiProofs Cplx AvgHeadModel AvgHeadSpec AvgHeadProofs AvgHeadValues AvgHeadProps AvgModel AvgSpec AvgText AvgFile.
From Coq Require Import Lqa.
Local Open Scope nat_scope.

(** ** Frequencies *)
Definition head_above (f : Q) (l : list Q) : Prop := match l with [] => True | x :: _ => (f < x)%Q end.
Lemma rising_cons f l : rising (f :: l) <-> head_above f l /\ rising l.
Proof. destruct l; cbn; tauto. Qed.
Lemma insert_rising f l : rising l -> rising (insert_freq f l) /\ forall g, (g < f)%Q -> head_above g l -> head_above g (insert_freq f l).
Proof.
  induction l as [|x l IH]; intros R; [split; [exact I|intros g G _; exact G]|]. apply rising_cons in R. destruct R as [H R]. cbn [insert_freq]. destruct (Qcompare_spec f x) as [E|L|G].
  - split; [apply rising_cons; split; assumption|intros g _ A; exact A].
  - split; [apply rising_cons; split; [exact L|apply rising_cons; split; assumption]|intros g G _; exact G].
  - destruct (IH R) as [R2 H2]. split; [apply rising_cons; split; [apply H2; assumption|exact R2]|intros g _ A; exact A].
Qed.
Lemma sort_rising l : rising (sort_freqs l).
Proof. induction l as [|x l IH]; [exact I|]. cbn [sort_freqs fold_right]. apply insert_rising. exact IH. Qed.
Lemma insert_freq_in f l x : In x (insert_freq f l) -> x = f \/ In x l.
Proof. induction l as [|y l IH]; cbn [insert_freq]; [cbn; intuition congruence|]. destruct (f ?= y)%Q; cbn [In]; intuition congruence. Qed.
Lemma insert_freq_has f l : (exists x, In x (insert_freq f l) /\ (f == x)%Q) /\ forall y, In y l -> In y (insert_freq f l).
Proof.
  induction l as [|y l [IH1 IH2]]; cbn [insert_freq]; [split; [exists f; split; [left; reflexivity|reflexivity]|intros y []]|]. destruct (Qcompare_spec f y) as [E|L|G].
  - split; [exists y; split; [left; reflexivity|exact E]|auto].
  - split; [exists f; split; [left; reflexivity|reflexivity]|intros z I; right; exact I].
  - destruct IH1 as (x & I & E). split; [exists x; split; [right; exact I|exact E]|]. intros z [<-|J]; [left; reflexivity|right; apply IH2; exact J].
Qed.
Lemma sort_in_freq l x : In x (sort_freqs l) -> In x l.
Proof. induction l as [|y l IH]; [auto|]. cbn [sort_freqs fold_right]. intros I. apply insert_freq_in in I. destruct I as [->|I]; [left; reflexivity|right; apply IH; exact I]. Qed.
Lemma sort_has_freq l f : In f l -> exists x, In x (sort_freqs l) /\ (f == x)%Q.
Proof.
  induction l as [|y l IH]; [intros []|]. intros [->|I]; cbn [sort_freqs fold_right]; fold (sort_freqs l); [apply insert_freq_has|]. destruct (IH I) as (x & J & E). exists x. split; [apply insert_freq_has; exact J|exact E].
Qed.
Lemma index_spec f l k : freq_index f l = Some k -> exists x, nth_error l k = Some x /\ (f == x)%Q.
Proof.
  revert k. induction l as [|y l IH]; intros k H; [discriminate H|]. cbn [freq_index] in H. destruct (Qeq_bool f y) eqn:E.
  - injection H as <-. exists y. split; [reflexivity|apply Qeq_bool_iff; exact E].
  - destruct (freq_index f l) as [n|]; [|discriminate H]. cbn [option_map] in H. injection H as <-. apply IH. reflexivity.
Qed.
Lemma index_has f l x : In x l -> (f == x)%Q -> exists k, freq_index f l = Some k.
Proof.
  induction l as [|y l IH]; intros I E; [destruct I|]. cbn [freq_index]. destruct (Qeq_bool f y) eqn:B; [exists 0; reflexivity|]. destruct I as [->|I]; [exfalso; apply Qeq_bool_iff in E; congruence|].
  destruct (IH I E) as (k & ->). exists (S k). reflexivity.
Qed.
Lemma index_comp f g l : (f == g)%Q -> freq_index f l = freq_index g l.
Proof.
  intros E. induction l as [|y l IH]; [reflexivity|]. cbn [freq_index]. assert (X : Qeq_bool f y = Qeq_bool g y). { apply eq_true_iff_eq. rewrite !Qeq_bool_iff. rewrite E. reflexivity. } rewrite X, IH. reflexivity.
Qed.
(** Rising frequencies are their own index. *)
Lemma rising_above l : rising l -> forall x k y, head_above x l -> nth_error l k = Some y -> (x < y)%Q.
Proof.
  induction l as [|z l IH]; intros R x k y H N; [destruct k; discriminate N|]. apply rising_cons in R. destruct R as [H2 R]. cbn in H. destruct k as [|k]; cbn in N; [injection N as <-; exact H|].
  apply Qlt_trans with z; [exact H|]. apply (IH R z k y H2 N).
Qed.
Lemma index_rising l : rising l -> forall k x, nth_error l k = Some x -> freq_index x l = Some k.
Proof.
  induction l as [|z l IH]; intros R k x N; [destruct k; discriminate N|]. apply rising_cons in R. destruct R as [H R]. destruct k as [|k]; cbn in N; cbn [freq_index].
  - injection N as ->. assert (X : Qeq_bool x x = true) by (apply Qeq_bool_iff; reflexivity). rewrite X. reflexivity.
  - pose proof (rising_above l R z k x H N) as L. destruct (Qeq_bool x z) eqn:E; [apply Qeq_bool_iff in E; rewrite E in L; exfalso; exact (Qlt_irrefl _ L)|]. rewrite (IH R k x N). reflexivity.
Qed.
(** ** Filling arrays *)
Definition hits (index : list (text * (bool * bool))) (freqs : list Q) (r : row) (k : nat) (i j : bool) : Prop :=
  place index (r_comp r) = Some (i, j) /\ exists f, r_freq r = Fin f /\ freq_index f freqs = Some k.
Lemma put_same {A} k i j (v : A) f : put k i j v f k i j = v.
Proof. unfold put. rewrite Nat.eqb_refl, !eqb_reflx. reflexivity. Qed.
Lemma put_other {A} k i j (v : A) f k' i' j' : (k, i, j) <> (k', i', j') -> put k i j v f k' i' j' = f k' i' j'.
Proof.
  intros N. unfold put. destruct (Nat.eqb_spec k k') as [->|]; [|reflexivity]. destruct (eqb_spec i i') as [->|]; [|reflexivity]. destruct (eqb_spec j j') as [->|]; [congruence|reflexivity].
Qed.
Lemma fill_spec value error index freqs : forall rows z e, (forall r, In r rows -> exists k i j, hits index freqs r k i j) ->
  exists z' e', fill value error index freqs rows z e = Ok (z', e') /\
    forall k i j (P : option Cx -> option R -> Prop), (forall r, In r rows -> hits index freqs r k i j -> P (value r) (error r)) ->
      (exists r, In r rows /\ hits index freqs r k i j) \/ P (z k i j) (e k i j) -> P (z' k i j) (e' k i j).
Proof.
  induction rows as [|r rows IH]; intros z e H.
  - exists z, e. split; [reflexivity|]. intros k i j P _ [(r & [] & _)|X]; exact X.
  - destruct (H r (or_introl eq_refl)) as (k0 & i0 & j0 & PL & f & F & IX). cbn [fill]. rewrite PL, F, IX.
    destruct (IH (put k0 i0 j0 (value r) z) (put k0 i0 j0 (error r) e)) as (z' & e' & E & S); [intros r' I; apply H; right; exact I|].
    exists z', e'. split; [exact E|]. intros k i j P A B. apply S; [intros r' I; apply A; right; exact I|].
    assert (D : (k0, i0, j0) = (k, i, j) \/ (k0, i0, j0) <> (k, i, j)). { destruct (Nat.eq_dec k0 k) as [->|]; [|right; congruence]. destruct (bool_dec i0 i) as [->|]; [|right; congruence]. destruct (bool_dec j0 j) as [->|]; [left; reflexivity|right; congruence]. }
    destruct D as [D|D].
    + injection D as -> -> ->. right. rewrite !put_same. apply A; [left; reflexivity|]. split; [exact PL|]. exists f. split; assumption.
    + destruct B as [(r' & [<-|I] & HT)|B]; [|left; exists r'; split; assumption|right; rewrite !put_other by exact D; exact B].
      exfalso. destruct HT as (PL' & f' & F' & IX'). rewrite PL in PL'. injection PL' as -> ->. rewrite F in F'. injection F' as <-. rewrite IX in IX'. injection IX' as ->. congruence.
Qed.
(** ** Rows of an object *)
Definition index_of (p : positive) : list (text * (bool * bool)) := match p with Down => index_down | Up => index_up | OtherWay => [] end.
Definition known_way (p : positive) : Prop := p = Down \/ p = Up.
Lemma comp_index_known p : known_way p -> comp_index p = Ok (index_of p).
Proof. intros [-> | ->]; reflexivity. Qed.
Lemma place_in p c ij : known_way p -> (place (index_of p) c = Some ij <-> In (c, ij) (index_of p)).
Proof.
  intros K. split.
  - unfold place. destruct (List.find (fun kv => text_eqb c (fst kv)) (index_of p)) as [[c' ij']|] eqn:F; [|discriminate]. cbn [option_map snd]. intros E. injection E as ->. apply find_some in F. destruct F as [I E]. cbn [fst] in E. apply text_eqb_eq in E. subst c'. exact I.
  - intros I. destruct K as [-> | ->]; cbn in I; repeat (destruct I as [I|I]; [injection I as <- <-; reflexivity|]); destruct I.
Qed.
Lemma index_words p c ij : known_way p -> In (c, ij) (index_of p) -> lower_word c /\ (starts "z" c = true \/ starts "t" c = true /\ starts "z" c = false /\ fst ij = false).
Proof.
  intros [-> | ->] I; cbn in I; repeat (destruct I as [I|I]; [injection I as <- <-; split; [split; [discriminate|repeat constructor]|first [left; reflexivity|right; repeat split; reflexivity]]|]); destruct I.
Qed.
Lemma index_z p i j : known_way p -> exists c, In (c, (i, j)) (index_of p) /\ starts "z" c = true.
Proof.
  intros [-> | ->]; destruct i, j; [exists (txt "zyy")|exists (txt "zyx")|exists (txt "zxy")|exists (txt "zxx")|exists (txt "zxx")|exists (txt "zxy")|exists (txt "zyx")|exists (txt "zyy")]; (split; [cbn; tauto|reflexivity]).
Qed.
Lemma index_t p j : known_way p -> exists c, In (c, (false, j)) (index_of p) /\ starts "t" c = true /\ starts "z" c = false.
Proof.
  intros [-> | ->]; destruct j; [exists (txt "tzy")|exists (txt "tzx")|exists (txt "tzx")|exists (txt "tzy")]; (split; [cbn; tauto|split; reflexivity]).
Qed.
Lemma in_numbered (l : list Q) k f : In (k, f) (combine (seq 0 (length l)) l) <-> nth_error l k = Some f.
Proof.
  assert (G : forall a, In (k, f) (combine (seq a (length l)) l) <-> a <= k /\ nth_error l (k - a) = Some f).
  { induction l as [|x l IH]; intros a; cbn [length seq combine In].
    - split; [intros []|]. intros [_ E]. destruct (k - a); discriminate E.
    - rewrite IH. split.
      + intros [E|[L E]]; [injection E as <- <-; rewrite Nat.sub_diag; split; [lia|reflexivity]|]. split; [lia|]. replace (k - a) with (S (k - S a)) by lia. exact E.
      + intros [L E]. destruct (Nat.eq_dec a k) as [->|N]; [rewrite Nat.sub_diag in E; injection E as ->; left; reflexivity|]. right. split; [lia|]. replace (k - a) with (S (k - S a)) in E by lia. exact E. }
  rewrite G, Nat.sub_0_r. split; [intros [_ E]; exact E|intros E; split; [lia|exact E]].
Qed.
Section Rows.
Variable amp phase : Q -> Q -> Q.
Definition z_error (o : avg) (p : nat) (i j : bool) : Q := match a_zerr o with Some e => e p i j | None => 0%Q end.
Definition t_error (o : avg) (p : nat) (j : bool) : Q := match a_terr o with Some e => e p j | None => 0%Q end.
(** One row of an object: its component, place and frequency. *)
Definition row_at (o : avg) (freqs : list Q) (c : text) (i j : bool) (p : nat) (f : Q) (r : row) : Prop :=
  In (c, (i, j)) (index_of (a_positive o)) /\ nth_error freqs p = Some f /\
  ((starts "z" c = true /\ exists z, a_z o = Some z /\ r = z_row amp phase c f (z p i j) (z_error o p i j)) \/
   (starts "t" c = true /\ starts "z" c = false /\ exists t, a_t o = Some t /\ r = t_row amp phase c f (t p j) (t_error o p j))).
Lemma comp_rows_in o freqs c ij r : known_way (a_positive o) -> In (c, ij) (index_of (a_positive o)) ->
  (In r (comp_rows amp phase o freqs c ij) <-> exists p f, row_at o freqs c (fst ij) (snd ij) p f r).
Proof.
  intros K IC. destruct ij as [i j]. cbn [fst snd]. unfold comp_rows, row_at. cbn [fst snd]. split.
  - destruct (starts "z" c) eqn:SZ.
    + destruct (a_z o) as [z|] eqn:Z; [|intros []]. intros I. apply in_map_iff in I. destruct I as ((p & f) & <- & I). cbn [fst snd]. apply in_numbered in I. exists p, f. split; [exact IC|]. split; [exact I|]. left. split; [reflexivity|]. exists z. split; reflexivity.
    + destruct (starts "t" c) eqn:ST; [|intros []]. destruct (a_t o) as [t|] eqn:T; [|intros []]. intros I. apply in_map_iff in I. destruct I as ((p & f) & <- & I). cbn [fst snd]. apply in_numbered in I. exists p, f. split; [exact IC|]. split; [exact I|]. right. split; [reflexivity|]. split; [reflexivity|]. exists t. split; reflexivity.
  - intros (p & f & _ & N & [(SZ & z & Z & ->)|(ST & SZ & t & T & ->)]).
    + rewrite SZ, Z. apply in_map_iff. exists (p, f). split; [reflexivity|apply in_numbered; exact N].
    + rewrite SZ, ST, T. apply in_map_iff. exists (p, f). split; [reflexivity|apply in_numbered; exact N].
Qed.
Definition rows_of (o : avg) (freqs : list Q) : list row := flat_map (fun ci => comp_rows amp phase o freqs (fst ci) (snd ci)) (index_of (a_positive o)).
Lemma rows_of_in o freqs r : known_way (a_positive o) -> (In r (rows_of o freqs) <-> exists c i j p f, row_at o freqs c i j p f r).
Proof.
  intros K. unfold rows_of. rewrite in_flat_map. split.
  - intros ((c & i & j) & I & J). cbn [fst snd] in J. apply (comp_rows_in o freqs c (i, j) r K I) in J. destruct J as (p & f & J). exists c, i, j, p, f. exact J.
  - intros (c & i & j & p & f & H). exists (c, (i, j)). assert (I : In (c, (i, j)) (index_of (a_positive o))) by apply H. split; [exact I|]. cbn [fst snd]. apply (comp_rows_in o freqs c (i, j) r K I). exists p, f. exact H.
Qed.
Lemma row_at_facts o freqs c i j p f r : row_at o freqs c i j p f r -> r_comp r = c /\ r_freq r = Fin f /\ exists s, row_line r = Ok s.
Proof. intros (_ & _ & [(_ & z & _ & ->)|(_ & _ & t & _ & ->)]); (split; [reflexivity|]; split; [reflexivity|]; eexists; reflexivity). Qed.
End Rows.
Lemma unique_in l c : In c (unique_texts l) <-> In c l.
Proof.
  induction l as [|x l IH]; [reflexivity|]. cbn [unique_texts In]. rewrite filter_In, IH. split.
  - intros [->|[I _]]; auto.
  - intros [->|I]; [auto|]. destruct (text_eqb c x) eqn:E; [apply text_eqb_eq in E; auto|right; split; [exact I|reflexivity]].
Qed.
Lemma map_result_all {A B} (g : A -> result B) l : (forall x, In x l -> exists y, g x = Ok y) -> exists ys, map_result g l = Ok ys.
Proof.
  induction l as [|x l IH]; intros H; [exists []; reflexivity|]. cbn [map_result]. destruct (H x (or_introl eq_refl)) as (y & ->). destruct IH as (ys & ->); [intros z I; apply H; right; exact I|]. exists (y :: ys). reflexivity.
Qed.
Lemma section_ok rows c : (forall r, In r rows -> exists s, row_line r = Ok s) -> exists lines, section rows c = Ok lines.
Proof.
  intros H. unfold section. destruct (filter (fun r => text_eqb (r_comp r) c) rows) as [|r0 l] eqn:F; [exists []; reflexivity|].
  destruct (map_result_all row_line (sort_rows (r0 :: l))) as (ls & ->); [|eexists; reflexivity]. intros r I. apply (proj1 (sort_in _ _)) in I. rewrite <- F in I. apply filter_In in I. apply H, I.
Qed.
Lemma of_comps_in rows r : In r (flat_map (of_comp rows) (unique_texts (map r_comp rows))) <-> In r rows.
Proof.
  rewrite in_flat_map. split.
  - intros (c & _ & I). apply of_comp_in in I. apply I.
  - intros I. exists (r_comp r). split; [apply unique_in, in_map; exact I|apply of_comp_in; split; [exact I|reflexivity]].
Qed.
Lemma Forall2_in_l {A B} (R : A -> B -> Prop) a b x : Forall2 R a b -> In x a -> exists y, In y b /\ R x y.
Proof. induction 1 as [|u v a b H F IH]; intros I; [destruct I|]. destruct I as [->|I]; [exists v; split; [left; reflexivity|exact H]|]. destruct (IH I) as (y & J & K). exists y. split; [right; exact J|exact K]. Qed.
Lemma Forall2_in_r {A B} (R : A -> B -> Prop) a b y : Forall2 R a b -> In y b -> exists x, In x a /\ R x y.
Proof. induction 1 as [|u v a b H F IH]; intros I; [destruct I|]. destruct I as [->|I]; [exists u; split; [left; reflexivity|exact H]|]. destruct (IH I) as (x & J & K). exists x. split; [right; exact J|exact K]. Qed.
(** ** Frequencies that are apart have different digits *)
Lemma five_near q v : (0 < q)%Q -> (v == sci_value 4 q)%Q -> (Qabs (v - q) <= (5 # 100000) * q)%Q.
Proof.
  intros P E. pose proof (sci_value_near 4 q) as H. rewrite (Qabs_pos q ltac:(lra)) in H. rewrite E. eapply Qle_trans; [exact H|].
  assert (X : ((1 # 2) * ten (- Z.of_nat 4) == 5 # 100000)%Q) by reflexivity. rewrite X. apply Qle_refl.
Qed.
Lemma apart_digits f g u v : (0 < f)%Q -> (0 < g)%Q -> apart f g -> (u == sci_value 4 f)%Q -> (v == sci_value 4 g)%Q -> ~ (u == v)%Q.
Proof.
  intros F G A U V E. pose proof (five_near f u F U) as NU. pose proof (five_near g v G V) as NV. apply Qabs_Qle_condition in NU, NV. unfold apart in A. destruct A as [A|A]; lra.
Qed.
