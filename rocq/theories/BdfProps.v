(** C143: the table of bands of a decimation level. *)
From Verif Require Import PyBase PyFacts PyText TextFacts PyNum BandModel BandSpec BandProofs BandProps BdfModel BdfSpec.
From Coq Require Import Permutation Sorted Lia Lqa.
Local Open Scope list_scope.
Local Open Scope nat_scope.

(** ** Sorted lists *)
Definition strong {A : Type} (R : A -> A -> Prop) (l : list A) : Prop := forall i j a b, i < j -> nth_error l i = Some a -> nth_error l j = Some b -> R a b.
Lemma strong_cons {A : Type} (R : A -> A -> Prop) x l : strong R (x :: l) <-> (forall y, In y l -> R x y) /\ strong R l.
Proof.
  split.
  - intros H. split.
    + intros y I. apply In_nth_error in I as (n & N). exact (H 0 (S n) x y ltac:(lia) eq_refl N).
    + intros i j a b L I J. exact (H (S i) (S j) a b ltac:(lia) I J).
  - intros [H G] [|i] [|j] a b L I J; try lia.
    + injection I as <-. cbn [nth_error] in J. apply nth_error_In in J. exact (H b J).
    + exact (G i j a b ltac:(lia) I J).
Qed.
Lemma strong_unique {A : Type} (R : A -> A -> Prop) l : forall l', strong R l -> strong R l' -> Permutation l l' -> (forall a b, In a l -> In b l -> R a b -> R b a -> a = b) -> l = l'.
Proof.
  induction l as [|x l IH]; intros l' S S' P U; [symmetry; apply Permutation_nil; exact P|]. destruct l' as [|y l']; [apply Permutation_sym, Permutation_nil in P; discriminate P|].
  apply strong_cons in S as [H S], S' as [H' S'].
  assert (E : x = y).
  { assert (I : In x (y :: l')) by (eapply Permutation_in; [exact P|left; reflexivity]). assert (J : In y (x :: l)) by (eapply Permutation_in; [apply Permutation_sym; exact P|left; reflexivity]).
    destruct I as [I|I]; [symmetry; exact I|]. destruct J as [J|J]; [exact J|]. apply U; [left; reflexivity|right; exact J|exact (H y J)|exact (H' x I)]. }
  subst y. f_equal. apply IH; [exact S|exact S'|eapply Permutation_cons_inv; exact P|]. intros a b I J. apply U; right; assumption.
Qed.
Lemma strong_map {A B : Type} (f : A -> B) (R : B -> B -> Prop) l : strong (fun a b => R (f a) (f b)) l -> strong R (map f l).
Proof.
  intros S i j a b L I J. rewrite nth_error_map in I, J. destruct (nth_error l i) as [x|] eqn:X; [|discriminate I]. destruct (nth_error l j) as [y|] eqn:Y; [|discriminate J]. injection I as <-. injection J as <-. exact (S i j x y L X Y).
Qed.
Lemma Forall2_In_r {A B : Type} (R : A -> B -> Prop) l l' : Forall2 R l l' -> forall y, In y l' -> exists x, In x l /\ R x y.
Proof. induction 1 as [|a b l l' H F IH]; intros y I; [destruct I|]. destruct I as [<-|I]; [exists a; split; [left; reflexivity|exact H]|]. destruct (IH y I) as (x & X & Y). exists x. split; [right; exact X|exact Y]. Qed.
Lemma rows_of bands : Forall has_level bands -> exists rows, mapR row_of bands = Ok rows /\ Forall2 is_row bands rows.
Proof.
  induction 1 as [|b bands (d & D) F IH]; [exists []; split; [reflexivity|constructor]|]. destruct IH as (rows & E & R). cbn [mapR]. unfold row_of at 1. rewrite D. cbn [bindR]. rewrite E. eexists. split; [reflexivity|]. constructor; [|exact R].
  split; [exists d; split; [exact D|reflexivity]|]. repeat split; reflexivity.
Qed.
Lemma row_unique b r r' : is_row b r -> is_row b r' -> r = r'.
Proof. intros ((d & D & E) & A & B & C & F) ((d' & D' & E') & A' & B' & C' & F'). destruct r, r'. cbn in *. subst. rewrite D in D'. injection D' as <-. reflexivity. Qed.
Lemma rows_unique bands : forall rows rows', Forall2 is_row bands rows -> Forall2 is_row bands rows' -> rows = rows'.
Proof. induction bands as [|b bands IH]; intros rows rows' F G; inversion F as [|? r ? rs R Rs]; inversion G as [|? r' ? rs' R' Rs']; subst; [reflexivity|]. f_equal; [exact (row_unique b r r' R R')|apply IH; assumption]. Qed.
Lemma Forall2_perm {A B : Type} (R : A -> B -> Prop) l l' : Permutation l l' -> forall r, Forall2 R l r -> exists r', Forall2 R l' r' /\ Permutation r r'.
Proof.
  induction 1 as [|x l l' P IH|x y l|l l' l'' P IH P' IH']; intros r F.
  - inversion F; subst. exists []. split; constructor.
  - inversion F as [|? b ? r0 X F0]; subst. destruct (IH r0 F0) as (r' & G & Q). exists (b :: r'). split; constructor; assumption.
  - inversion F as [|? b ? r0 X F0]; subst. inversion F0 as [|? c ? r1 Y F1]; subst. exists (c :: b :: r1). split; [repeat constructor; assumption|apply perm_swap].
  - destruct (IH r F) as (r' & G & Q). destruct (IH' r' G) as (r'' & G' & Q'). exists r''. split; [exact G'|eapply Permutation_trans; eassumption].
Qed.
Lemma mapR_bad {A B : Type} (f : A -> result B) e l : (forall x, In x l -> f x = Err e \/ exists y, f x = Ok y) -> (exists x, In x l /\ f x = Err e) -> mapR f l = Err e.
Proof.
  induction l as [|a l IH]; intros H (x & I & E); [destruct I|]. cbn [mapR]. destruct (H a (or_introl eq_refl)) as [W|(y & W)]; rewrite W; [reflexivity|]. cbn [bindR]. destruct I as [->|I]; [congruence|].
  rewrite IH; [reflexivity|intros z Z; apply H; right; exact Z|exists x; split; assumption].
Qed.

(** ** C143 *)
(** The table has one row for each band, in order of the lower index, for whatever sorting. *)
Theorem C143_table sort bands : sorts sort -> Forall has_level bands -> exists df rows, bands_dataframe sort bands = Ok df /\ Forall2 is_row bands rows /\ Permutation rows df /\ in_order df.
Proof.
  intros S F. destruct (rows_of bands F) as (rows & E & R). unfold bands_dataframe. rewrite E. cbn [bindR]. exists (sort rows), rows. split; [reflexivity|]. split; [exact R|]. exact (S rows).
Qed.
(** A band without a decimation level: no table. *)
Theorem C143_no_level sort bands : (exists b, In b bands /\ l_dec b = None) -> bands_dataframe sort bands = Err TypeError /\ frequency_bands_obj sort bands = Err TypeError.
Proof.
  intros (b & I & D). assert (E : mapR row_of bands = Err TypeError).
  { apply mapR_bad; [intros x X; unfold row_of; destruct (l_dec x); [right; eexists; reflexivity|left; reflexivity]|]. exists b. split; [exact I|]. unfold row_of. rewrite D. reflexivity. }
  unfold frequency_bands_obj, band_edges, bands_dataframe. rewrite E. split; reflexivity.
Qed.
(** If no two bands have the same lower index, the table does not depend on the sorting, nor on the order in which the bands were added. *)
Theorem C143_unique sort sort' bands bands' df df' : sorts sort -> sorts sort' -> NoDup (map l_lo bands) -> Permutation bands bands' -> bands_dataframe sort bands = Ok df -> bands_dataframe sort' bands' = Ok df' -> df = df'.
Proof.
  intros S S' N P E E'. assert (L : Forall has_level bands).
  { apply Forall_forall. intros b I. destruct (l_dec b) as [d|] eqn:D; [exists d; exact D|]. destruct (C143_no_level sort bands) as [X _]; [exists b; split; assumption|]. congruence. }
  assert (L' : Forall has_level bands') by (rewrite Forall_forall in *; intros b I; apply L; eapply Permutation_in; [apply Permutation_sym; exact P|exact I]).
  destruct (C143_table sort bands S L) as (df0 & rows & E0 & R & Q & O). destruct (C143_table sort' bands' S' L') as (df0' & rows' & E0' & R' & Q' & O'). rewrite E in E0. injection E0 as <-. rewrite E' in E0'. injection E0' as <-.
  destruct (Forall2_perm _ _ _ P rows R) as (rows2 & R2 & Q2). pose proof (rows_unique _ _ _ R2 R') as X. subst rows2.
  apply (strong_unique (fun a b => before (r_lo a) (r_lo b))); [exact O|exact O'| |].
  - eapply Permutation_trans; [apply Permutation_sym; exact Q|]. eapply Permutation_trans; [exact Q2|exact Q'].
  - assert (NR : NoDup (map r_lo rows)). { assert (M : map r_lo rows = map l_lo bands) by (clear -R; induction R as [|b r bs rs H F IH]; [reflexivity|]; cbn [map]; rewrite IH; destruct H as (_ & -> & _); reflexivity). rewrite M. exact N. }
    assert (ND : NoDup (map r_lo df)) by (eapply Permutation_NoDup; [apply Permutation_map; exact Q|exact NR]).
    intros a b I J A B. assert (K : r_lo a = r_lo b) by (unfold before in A, B; destruct (r_lo a), (r_lo b); try contradiction; [f_equal; lia|reflexivity]).
    clear -ND I J K. induction df as [|x df IH]; [destruct I|]. cbn [map] in ND. inversion ND as [|? ? N1 N2]; subst. destruct I as [->|I]; destruct J as [->|J]; [reflexivity| | |exact (IH N2 I J)]; exfalso; apply N1; [rewrite K|rewrite <- K]; apply in_map; assumption.
Qed.
(** The edges and the object of bands have the frequencies of the rows of the table, row by row; the bands it gives are those intervals, closed on the left. *)
Theorem C143_edges sort bands df : bands_dataframe sort bands = Ok df -> exists e, band_edges sort bands = Ok e /\ frequency_bands_obj sort bands = Ok e /\ length e = length df
  /\ (forall i r, nth_error df i = Some r -> nth_error e i = Some (r_fmin r, r_fmax r)) /\ fb_bands IncFrequency None e = Ok (map (fun r => mkBand (r_fmin r) (r_fmax r) CLeft) df).
Proof.
  intros E. unfold frequency_bands_obj, band_edges. rewrite E. cbn [bindR]. eexists. split; [reflexivity|]. split.
  - cbn [edges_of]. rewrite !map_map. reflexivity.
  - split; [apply map_length|]. split; [intros i r N; rewrite nth_error_map, N; reflexivity|]. unfold fb_bands. rewrite fb_bands_rows, map_map. reflexivity.
Qed.
(** If the indices are those of a frequency axis, and no two bands begin with the same harmonic, the rows are in order of frequency too. *)
Theorem C143_frequency_order sort bands df freqs i j a b : sorts sort -> Forall has_level bands -> nondecreasing freqs -> Forall (indexed freqs) bands -> NoDup (map l_lo bands) ->
  bands_dataframe sort bands = Ok df -> i < j -> nth_error df i = Some a -> nth_error df j = Some b -> (r_fmin a <= r_fmin b)%Q.
Proof.
  intros S L ND X N E IJ A B. destruct (C143_table sort bands S L) as (df0 & rows & E0 & R & Q & O). rewrite E in E0. injection E0 as <-.
  assert (G : forall r, In r df -> exists c lo hi, r_lo r = Some lo /\ r_fmin r = f_min c /\ set_indices c freqs = Ok (lo, hi)).
  { intros r I. assert (I2 : In r rows) by (eapply Permutation_in; [apply Permutation_sym; exact Q|exact I]). destruct (Forall2_In_r _ _ _ R r I2) as (c & C & (_ & H1 & _ & H3 & _)). rewrite Forall_forall in X. destruct (X c C) as (lo & hi & C1 & C2 & C3).
    exists (l_band c), lo, hi. split; [congruence|]. split; assumption. }
  destruct (G a (nth_error_In _ _ A)) as (ca & la & ha & A1 & A2 & A3). destruct (G b (nth_error_In _ _ B)) as (cb & lb & hb & B1 & B2 & B3).
  pose proof (O i j a b IJ A B) as AB. rewrite A1, B1 in AB. cbn [before] in AB.
  assert (NE : la <> lb).
  { intros ->. assert (M : map r_lo rows = map l_lo bands) by (clear -R; induction R as [|x r bs rs H F IH]; [reflexivity|]; cbn [map]; rewrite IH; destruct H as (_ & -> & _); reflexivity).
    assert (D : NoDup (map r_lo df)) by (eapply Permutation_NoDup; [apply Permutation_map; exact Q|rewrite M; exact N]).
    rewrite NoDup_nth_error in D. specialize (D i j). rewrite map_length, !nth_error_map, A, B in D. cbn [option_map] in D. rewrite A1, B1 in D. specialize (D ltac:(apply nth_error_Some; congruence) eq_refl). lia. }
  pose proof (indices_exact ca freqs la ha ND A3) as HA. pose proof (indices_exact cb freqs lb hb ND B3) as HB.
  assert (RG : forall c lo hi, set_indices c freqs = Ok (lo, hi) -> lo <= hi).
  { intros c lo hi H. unfold set_indices in H. destruct (indices_from_frequencies c freqs) as [[|x l]|] eqn:IF; cbn [bindR] in H; try discriminate H. injection H as <- <-.
    assert (SS : StronglySorted lt (x :: l)) by (unfold indices_from_frequencies in IF; destruct (to_interval c); [|discriminate IF]; cbn [bindR] in IF; injection IF as IF; rewrite <- IF; apply where_from_sorted).
    change (x <= last (x :: l) x). apply (sorted_head_last l x x SS). left. reflexivity. }
  pose proof (RG _ _ _ A3) as RA. pose proof (RG _ _ _ B3) as RB.
  destruct (proj1 (HA la)) as (fa & Na & Ia); [unfold harmonic_indices, arange; apply in_seq; lia|]. destruct (proj1 (HB lb)) as (fb & Nb & Ib); [unfold harmonic_indices, arange; apply in_seq; lia|].
  assert (NI : ~ in_band cb fa). { intros I. assert (J : In la (harmonic_indices lb hb)) by (apply HB; exists fa; split; assumption). unfold harmonic_indices, arange in J. apply in_seq in J. lia. }
  assert (LE : (fa <= fb)%Q) by (apply (ND la lb); [lia|assumption|assumption]).
  assert (MA : (f_min ca <= fa)%Q) by (destruct Ia as [Ia _]; destruct (b_closed ca); lra).
  assert (MB : (fa <= f_min cb)%Q). { destruct (Qlt_le_dec (f_min cb) fa) as [H|H]; [|exact H]. exfalso. apply NI. destruct Ib as [I1 I2]. split; destruct (b_closed cb); lra. }
  rewrite A2, B2. lra.
Qed.
(** The lower bounds of the level are the column of lower indices; the upper bounds are that of the upper ones if no band lies within another. *)
Theorem C143_columns sort bands df ps : sorts sort -> bands_dataframe sort bands = Ok df -> map (fun b => (l_lo b, l_hi b)) bands = map (fun p => (Some (fst p), Some (snd p))) ps ->
  map r_lo df = map Some (lower_bounds ps) /\ ((forall p q, In p ps -> In q ps -> fst p <= fst q -> snd p <= snd q) -> map r_hi df = map Some (upper_bounds ps)).
Proof.
  intros S E M. assert (L : Forall has_level bands).
  { apply Forall_forall. intros b I. destruct (l_dec b) as [d|] eqn:D; [exists d; exact D|]. destruct (C143_no_level sort bands) as [X _]; [exists b; split; assumption|]. congruence. }
  destruct (C143_table sort bands S L) as (df0 & rows & E0 & R & Q & O). rewrite E in E0. injection E0 as <-.
  assert (MR : map (fun r => (r_lo r, r_hi r)) rows = map (fun p => (Some (fst p), Some (snd p))) ps).
  { rewrite <- M. clear -R. induction R as [|b r bs rs H F IH]; [reflexivity|]. cbn [map]. rewrite IH. destruct H as (_ & -> & -> & _). reflexivity. }
  assert (PD : Permutation (map (fun r => (r_lo r, r_hi r)) df) (map (fun p => (Some (fst p), Some (snd p))) ps)) by (rewrite <- MR; apply Permutation_sym, Permutation_map; exact Q).
  assert (BU : forall a b : option nat, before a b -> before b a -> a = b) by (intros [x|] [y|] A B; cbn [before] in A, B; try contradiction; [f_equal; lia|reflexivity]).
  destruct (C57_bounds ps) as (P1 & S1 & P2 & S2).
  assert (SO : forall l, StronglySorted (fun a b => (a <=? b) = true) l -> strong before (map Some l)).
  { intros l. induction 1 as [|x l H IH F]; [intros i j a b _ I; destruct i; discriminate I|]. cbn [map]. apply strong_cons. split; [|exact IH]. intros y I. apply in_map_iff in I as (z & <- & Z). rewrite Forall_forall in F. cbn [before]. apply Nat.leb_le. exact (F z Z). }
  split.
  - apply (strong_unique before); [apply strong_map; exact O|apply SO; exact S1| |intros a b _ _; apply BU].
    apply (Permutation_map fst) in PD. rewrite !map_map in PD. cbn [fst] in PD. eapply Permutation_trans; [exact PD|]. rewrite <- map_map. apply Permutation_map. exact P1.
  - intros H. apply (strong_unique before); [|apply SO; exact S2| |intros a b _ _; apply BU].
    + intros i j a b IJ I J. rewrite nth_error_map in I, J. destruct (nth_error df i) as [x|] eqn:X; [|discriminate I]. destruct (nth_error df j) as [y|] eqn:Y; [|discriminate J]. injection I as <-. injection J as <-.
      pose proof (O i j x y IJ X Y) as B. assert (G : forall r, In r df -> exists p, In p ps /\ r_lo r = Some (fst p) /\ r_hi r = Some (snd p)).
      { intros r I. assert (I2 : In (r_lo r, r_hi r) (map (fun p => (Some (fst p), Some (snd p))) ps)) by (eapply Permutation_in; [exact PD|]; apply in_map_iff; exists r; split; [reflexivity|exact I]). apply in_map_iff in I2 as (p & P & Ip). injection P as <- <-. exists p. repeat split; assumption. }
      destruct (G x (nth_error_In _ _ X)) as (p & Ip & Lp & Hp). destruct (G y (nth_error_In _ _ Y)) as (q & Iq & Lq & Hq). rewrite Hp, Hq. rewrite Lp, Lq in B. cbn [before] in *. exact (H p q Ip Iq B).
    + apply (Permutation_map snd) in PD. rewrite !map_map in PD. cbn [snd] in PD. eapply Permutation_trans; [exact PD|]. rewrite <- map_map. apply Permutation_map. exact P2.
Qed.
(** Setting the edges: an array is taken exactly if it has two dimensions and two columns, a frame exactly if it has both columns, whatever others it has and in whatever
    order; otherwise the edges stay as they were. *)
Theorem C143_set_array old shape rows : (exists n, shape = [n; 2]) /\ set_edges old (EArray shape rows) = (map (fun r => (nth 0 r 0%Q, nth 1 r 0%Q)) rows, None)
  \/ (forall n, shape <> [n; 2]) /\ set_edges old (EArray shape rows) = (old, Some ValueError).
Proof.
  unfold set_edges. destruct shape as [|n [|[|[|[|m]]] [|k r]]]; cbn [edges_of]; try (right; split; [intros n0; discriminate|reflexivity]). left. split; [exists n; reflexivity|reflexivity].
Qed.
Theorem C143_set_frame old cols : (forall lo hi, dget text_dec (txt "lower_bound") cols = Some lo -> dget text_dec (txt "upper_bound") cols = Some hi -> length lo = length hi ->
    exists e, set_edges old (EFrame cols) = (e, None) /\ map fst e = lo /\ map snd e = hi)
  /\ (~ In (txt "lower_bound") (map fst cols) \/ ~ In (txt "upper_bound") (map fst cols) -> set_edges old (EFrame cols) = (old, Some ValueError)) /\ set_edges old EOther = (old, Some TypeError).
Proof.
  unfold set_edges. cbn [edges_of]. split; [|split; [|reflexivity]].
  - intros lo hi -> -> L. exists (combine lo hi). split; [reflexivity|]. revert hi L. induction lo as [|x lo IH]; intros [|y hi] L; try discriminate L; [split; reflexivity|]. injection L as L. destruct (IH hi L) as [A B]. cbn [combine map fst snd]. rewrite A, B. split; reflexivity.
  - intros [N|N]; apply (dget_None text_dec) in N; rewrite N; [reflexivity|]. destruct (dget text_dec (txt "lower_bound") cols); reflexivity.
Qed.
(** Which end of a band is closed is lost: a frequency of the level's bands that is in none of the bands of the object. *)
Theorem C143_closed_refuted : exists bands, Forall has_level bands /\ (exists b, In b bands /\ in_band (l_band b) 2%Q) /\
  forall sort, sorts sort -> exists e l, frequency_bands_obj sort bands = Ok e /\ fb_bands IncFrequency None e = Ok l /\ forall b, In b l -> ~ in_band b 2%Q.
Proof.
  set (b := mkLband (Some 0%Z) (Some 1) (Some 2) (mkBand 1 2 CRight)). exists [b]. split; [repeat constructor; exists 0%Z; reflexivity|]. split; [exists b; split; [left; reflexivity|split; cbn; lra]|].
  intros sort S. destruct (S [mkRow 1 (Some 1) (Some 2) 1 2]) as [P _]. apply Permutation_length_1_inv in P.
  assert (E : bands_dataframe sort [b] = Ok [mkRow 1 (Some 1) (Some 2) 1 2]) by (unfold bands_dataframe; cbn [mapR row_of bindR b l_dec l_lo l_hi l_band f_min f_max]; change (0 + 1)%Z with 1%Z; rewrite P; reflexivity).
  destruct (C143_edges sort [b] _ E) as (e & _ & F & _ & _ & B). exists e. eexists. split; [exact F|]. split; [exact B|]. cbn [map]. intros c [<-|[]] [_ H]. cbn in H. lra.
Qed.
(** Two bands that begin with the same harmonic: the table need not be in order of frequency, and depends on the sorting. *)
Theorem C143_ties_refuted : exists bands freqs sort df, sorts sort /\ Forall has_level bands /\ nondecreasing freqs /\ Forall (indexed freqs) bands /\ bands_dataframe sort bands = Ok df
  /\ exists a b, df = [a; b] /\ (r_fmin b < r_fmin a)%Q.
Proof.
  set (le := fun a b : row => match r_lo a, r_lo b with _, None => true | None, Some _ => false | Some x, Some y => x <=? y end).
  assert (V : sorts (sort_by le)).
  { intros l. split; [apply sort_by_perm|]. assert (H : StronglySorted (fun a b => le a b = true) (sort_by le l)).
    { apply sort_by_sorted; unfold le; intros a b; [destruct (r_lo a), (r_lo b); try discriminate; try reflexivity; intros H; apply Nat.leb_gt in H; apply Nat.leb_le; lia|]. intros c. destruct (r_lo a), (r_lo b), (r_lo c); try discriminate; try reflexivity. intros H G. apply Nat.leb_le in H, G. apply Nat.leb_le. lia. }
    induction H as [|x m H IH F]; [intros i j a b _ I; destruct i; discriminate I|]. apply (strong_cons (fun a b => before (r_lo a) (r_lo b))). split; [|exact IH]. intros y I. rewrite Forall_forall in F. specialize (F y I). unfold le in F. unfold before. destruct (r_lo x), (r_lo y); try discriminate F; try exact Logic.I. apply Nat.leb_le. exact F. }
  exists [mkLband (Some 0%Z) (Some 1) (Some 1) (mkBand 1 2 CLeft); mkLband (Some 0%Z) (Some 1) (Some 1) (mkBand (1#2) 2 CLeft)], [0; 1; 2]%Q, (sort_by le). eexists. split; [exact V|]. split; [repeat constructor; exists 0%Z; reflexivity|]. split.
  { intros [|[|[|i]]] [|[|[|j]]] a b L I J; try lia; cbn in I, J; try (destruct i; discriminate I); try (destruct j; discriminate J); injection I as <-; injection J as <-; lra. }
  split; [repeat constructor; exists 1, 1; repeat split; reflexivity|]. split; [reflexivity|]. eexists. eexists. split; [reflexivity|]. cbn. lra.
Qed.
(** A level with three bands that were added out of order. *)
Example C143_hyp : let bands := [mkLband (Some 0%Z) (Some 4) (Some 6) (mkBand 4 7 CLeft); mkLband (Some 0%Z) (Some 1) (Some 1) (mkBand 1 2 CLeft); mkLband (Some 0%Z) (Some 2) (Some 3) (mkBand 2 4 CLeft)] in
  Forall has_level bands /\ Forall (indexed [0; 1; 2; 3; 4; 5; 6; 7]%Q) bands /\ NoDup (map l_lo bands) /\ forall sort, sorts sort -> exists df, bands_dataframe sort bands = Ok df /\ map r_lo df = [Some 1; Some 2; Some 4] /\ map r_hi df = [Some 1; Some 3; Some 6].
Proof.
  cbn zeta. split; [repeat constructor; exists 0%Z; reflexivity|]. split.
  - constructor; [exists 4, 6; repeat split; reflexivity|]. constructor; [exists 1, 1; repeat split; reflexivity|]. constructor; [exists 2, 3; repeat split; reflexivity|constructor].
  - split; [repeat constructor; cbn; intuition discriminate|]. intros sort S. eexists. split; [reflexivity|]. split.
    + pose proof (fun df H => C143_columns sort [mkLband (Some 0%Z) (Some 4) (Some 6) (mkBand 4 7 CLeft); mkLband (Some 0%Z) (Some 1) (Some 1) (mkBand 1 2 CLeft); mkLband (Some 0%Z) (Some 2) (Some 3) (mkBand 2 4 CLeft)] df [(4, 6); (1, 1); (2, 3)] S H eq_refl) as C. exact (proj1 (C _ eq_refl)).
    + pose proof (fun df H => C143_columns sort [mkLband (Some 0%Z) (Some 4) (Some 6) (mkBand 4 7 CLeft); mkLband (Some 0%Z) (Some 1) (Some 1) (mkBand 1 2 CLeft); mkLband (Some 0%Z) (Some 2) (Some 3) (mkBand 2 4 CLeft)] df [(4, 6); (1, 1); (2, 3)] S H eq_refl) as C. apply (proj2 (C _ eq_refl)).
      intros p q P Q. cbn [In] in P, Q. destruct P as [<-|[<-|[<-|[]]]]; destruct Q as [<-|[<-|[<-|[]]]]; cbn; lia.
Qed.

Print Assumptions C143_unique.
Print Assumptions C143_frequency_order.
Print Assumptions C143_columns.
