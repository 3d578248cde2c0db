(** C125: the coherence of Fourier coefficients. *)
From Verif Require Import PyBase Cplx FccModel FccSpec FccProofs.
From Coq Require Import Permutation Lra Lia.
Local Open Scope list_scope.
Local Open Scope R_scope.

Lemma list_seq {A} (d : A) l : l = map (fun w => nth w l d) (seq 0 (List.length l)).
Proof. induction l as [|a l IH]; [reflexivity|]. cbn [List.length seq map nth]. f_equal. rewrite <- seq_shift, map_map. exact IH. Qed.
Lemma column_seq j a : column j a = map (fun w => at_cell a w j) (seq 0 (List.length (rows a))).
Proof. unfold column. rewrite (list_seq [] (rows a)) at 1. rewrite map_map. reflexivity. Qed.
Lemma combine_map {A B C} (f : A -> B) (g : A -> C) l : combine (map f l) (map g l) = map (fun w => (f w, g w)) l.
Proof. induction l as [|a l IH]; [reflexivity|]. cbn. f_equal. exact IH. Qed.
Lemma column_len j a : List.length (column j a) = List.length (rows a).
Proof. apply map_length. Qed.
Lemma over_sum f n : over f n = sumC (map f (seq 0 n)).
Proof.
  induction n as [|n IH]; [reflexivity|]. rewrite seq_S, map_app. cbn [over map]. rewrite IH. generalize (map f (seq 0 n)). intros l. cbn [Nat.add]. generalize (f n). intros x. unfold sumC. induction l as [|a l IHl]; cbn [app fold_right]; [unfold Cadd, C0; cbn [fst snd]; destruct x; f_equal; cbn [fst snd]; ring|]. rewrite <- IHl. unfold Cadd. cbn [fst snd]. f_equal; ring.
Qed.
Lemma pairs_seq a b j : List.length (rows a) = List.length (rows b) -> combine (column j a) (column j b) = map (fun w => (at_cell a w j, at_cell b w j)) (seq 0 (List.length (rows a))).
Proof. intros L. rewrite !column_seq, <- L. apply combine_map. Qed.
Lemma cross_crossed a b j : List.length (rows a) = List.length (rows b) -> cross a b j = crossed (combine (column j a) (column j b)).
Proof. intros L. unfold cross. rewrite over_sum. unfold crossed. rewrite pairs_seq by exact L. rewrite map_map. reflexivity. Qed.
Lemma alive_power a j : alive a j <-> power (column j a) <> 0.
Proof.
  split.
  - intros (w & W & N) Z. apply power_zero in Z. rewrite Forall_forall in Z. apply N. symmetry. apply Z. rewrite column_seq. apply (in_map (fun w => at_cell a w j)). apply in_seq. lia.
  - intros N. assert (X : ~ Forall (eq C0) (column j a)) by (intros F; apply N, power_dead; exact F). rewrite column_seq in X. clear N.
    assert (G : forall l, ~ Forall (eq C0) (map (fun w => at_cell a w j) l) -> exists w, In w l /\ at_cell a w j <> C0).
    { induction l as [|w l IH]; intros F; [contradiction F; constructor|]. destruct (at_cell a w j) as [u v] eqn:E. destruct (Req_EM_T u 0) as [->|U]; [destruct (Req_EM_T v 0) as [->|V]|].
      - destruct IH as (x & I & Y); [|exists x; split; [right; exact I|exact Y]]. intros Z. apply F. cbn [map]. constructor; [rewrite E; reflexivity|exact Z].
      - exists w. split; [left; reflexivity|]. rewrite E. intros Z. injection Z as Z. exact (V Z).
      - exists w. split; [left; reflexivity|]. rewrite E. intros Z. injection Z as Z _. exact (U Z). }
    destruct (G _ X) as (w & I & Y). exists w. split; [apply in_seq in I; lia|exact Y].
Qed.
Lemma compute_ok m a b : same_shape a b -> compute m a b = Ok (map (fun j => coherence_at (column j a) (column j b)) (seq 0 (nfreq a))).
Proof. intros (N & W). unfold compute. rewrite N, W, !Nat.eqb_refl. reflexivity. Qed.
Lemma compute_inv m a b l : compute m a b = Ok l -> same_shape a b /\ l = map (fun j => coherence_at (column j a) (column j b)) (seq 0 (nfreq a)).
Proof. unfold compute. destruct (Nat.eqb_spec (nfreq a) (nfreq b)) as [N|N], (Nat.eqb_spec (List.length (rows a)) (List.length (rows b))) as [W|W]; cbn [andb]; intros H; try discriminate H. injection H as <-. split; [split; assumption|reflexivity]. Qed.
Lemma result_at m a b l j : compute m a b = Ok l -> (j < nfreq a)%nat -> same_shape a b /\ nth j l 0 = coherence_at (column j a) (column j b).
Proof. intros H J. apply compute_inv in H as (S & ->). split; [exact S|]. rewrite (nth_indep _ 0 (coherence_at (column 0 a) (column 0 b))) by (rewrite map_length, seq_length; exact J). rewrite (map_nth (fun j => coherence_at (column j a) (column j b)) (seq 0 (nfreq a)) 0%nat j). rewrite seq_nth by exact J. reflexivity. Qed.
Lemma lengths_at a b j : same_shape a b -> List.length (column j a) = List.length (column j b).
Proof. intros (_ & W). rewrite !column_len. exact W. Qed.

(** One value per frequency, between 0 and 1. *)
Theorem C125_bounds m a b : same_shape a b -> exists l, compute m a b = Ok l /\ List.length l = nfreq a /\ Forall (fun g => 0 <= g <= 1) l.
Proof.
  intros S. eexists. split; [apply compute_ok; exact S|]. split; [rewrite map_length; apply seq_length|]. apply Forall_forall. intros g I. apply in_map_iff in I as (j & <- & _). apply bounds_at, lengths_at. exact S.
Qed.
Theorem C125_shapes m a b : ~ same_shape a b -> compute m a b = Err ValueError.
Proof. intros N. unfold compute. destruct (Nat.eqb_spec (nfreq a) (nfreq b)) as [X|X], (Nat.eqb_spec (List.length (rows a)) (List.length (rows b))) as [W|W]; cbn [andb]; try reflexivity. contradiction N. split; assumption. Qed.
(** 1 exactly where one channel is a multiple of the other. *)
Theorem C125_one m a b l j : compute m a b = Ok l -> (j < nfreq a)%nat -> nth j l 0 = 1 <-> alive a j /\ follows a b j.
Proof.
  intros H J. destruct (result_at m a b l j H J) as (S & ->). rewrite one_at by (apply lengths_at; exact S). rewrite alive_power. destruct S as (_ & W).
  rewrite pairs_seq by exact W. unfold follows. split; intros (P & c & C & F); (split; [exact P|]; exists c; split; [exact C|]).
  - intros w I. rewrite Forall_forall in F. apply (F (at_cell a w j, at_cell b w j)). apply (in_map (fun w => (at_cell a w j, at_cell b w j))). apply in_seq. lia.
  - apply Forall_forall. intros p I. apply in_map_iff in I as (w & <- & I). apply in_seq in I. cbn [fst snd]. apply F. lia.
Qed.
(** 0 exactly where the average of the cross products vanishes, a channel without coefficients included. *)
Theorem C125_zero m a b l j : compute m a b = Ok l -> (j < nfreq a)%nat -> nth j l 0 = 0 <-> cross a b j = C0.
Proof. intros H J. destruct (result_at m a b l j H J) as (S & ->). rewrite zero_at by (apply lengths_at; exact S). destruct S as (_ & W). rewrite cross_crossed by exact W. reflexivity. Qed.
(** The value itself. *)
Theorem C125_value m a b l j : compute m a b = Ok l -> (j < nfreq a)%nat -> nth j l 0 * (fst (cross a a j) * fst (cross b b j)) = Cnorm2 (cross a b j).
Proof.
  intros H J. destruct (result_at m a b l j H J) as (S & ->). pose proof (lengths_at a b j S) as L. rewrite coherence_value by exact L. destruct S as (_ & W). rewrite !cross_crossed by (try exact W; reflexivity).
  assert (P : forall x, fst (crossed (combine x x)) = power x). { intros x. unfold crossed, power. induction x as [|[u v] x IH]; [reflexivity|]. cbn [combine map sumC sumR fold_right]. unfold sumC, sumR in IH. rewrite <- IH. unfold prod, Cadd, Cmul, Cconj, Cnorm2. cbn [fst snd]. ring. }
  rewrite !P. destruct (Req_EM_T _ _) as [E|E]; [|field; destruct (powers_pos _ _ E); lra]. rewrite E. pose proof (cs _ _ L) as C. rewrite E in C. pose proof (Cnorm2_nonneg (crossed (combine (column j a) (column j b)))). lra.
Qed.
Theorem C125_swap m m' a b : compute m a b = compute m' b a.
Proof.
  unfold compute. rewrite (Nat.eqb_sym (nfreq b)), (Nat.eqb_sym (List.length (rows b))). destruct (Nat.eqb_spec (nfreq a) (nfreq b)) as [N|N], (Nat.eqb_spec (List.length (rows a)) (List.length (rows b))) as [W|W]; cbn [andb]; try reflexivity.
  rewrite N. f_equal. apply map_ext. intros j. apply swap_at. rewrite !column_len. exact W.
Qed.
(** The responses of the instruments do not matter. *)
Theorem C125_filtered m a b h g : (forall j, (j < nfreq a)%nat -> h j <> C0 /\ g j <> C0) -> same_shape a b -> compute m (filtered h a) (filtered g b) = compute m a b.
Proof.
  intros NZ S. rewrite (compute_ok m a b) by exact S. destruct S as (N & W). rewrite compute_ok by (split; cbn [filtered nfreq rows]; rewrite ?map_length; assumption). cbn [filtered nfreq]. f_equal. apply map_ext_in. intros j J. apply in_seq in J. destruct J as (_ & J). cbn [Nat.add] in J. destruct (NZ j J) as (H & G).
  assert (CF : forall k c, (j < nfreq c)%nat -> column j (filtered k c) = map (Cmul (k j)) (column j c)).
  { intros k c JC. unfold column, filtered. cbn [rows nfreq]. rewrite !map_map. apply map_ext. intros r. unfold cell at 1. rewrite (nth_indep _ C0 (Cmul (k 0%nat) (nth 0 r C0))) by (rewrite map_length, seq_length; exact JC). rewrite (map_nth (fun i => Cmul (k i) (nth i r C0)) (seq 0 (nfreq c)) 0%nat j). rewrite seq_nth by exact JC. reflexivity. }
  rewrite (CF h a J), (CF g b) by (rewrite <- N; exact J). apply scaled_at; [exact H|exact G|]. rewrite !column_len. exact W.
Qed.
Theorem C125_order m a b a' b' : same_shape a b -> same_shape a' b' -> reordered a b a' b' -> compute m a b = compute m a' b'.
Proof.
  intros S S' (N & _ & P). rewrite !compute_ok by assumption. rewrite <- N. f_equal. apply map_ext. intros j. apply perm_at; [apply lengths_at; exact S|apply lengths_at; exact S'|].
  assert (CC : forall x y, combine (column j x) (column j y) = map (fun p => (cell j (fst p), cell j (snd p))) (combine (rows x) (rows y))).
  { intros x y. unfold column. generalize (rows y). induction (rows x) as [|r l IH]; intros [|s k]; [reflexivity..|]. cbn. f_equal. apply IH. }
  rewrite !CC. apply Permutation_map. exact P.
Qed.
(** A single window is fully coherent, however many coefficients are required. *)
Theorem C125_minimum_refuted m x y : x <> C0 -> y <> C0 -> compute m (mkFcs 1 [[x]]) (mkFcs 1 [[y]]) = Ok [1].
Proof.
  intros X Y. rewrite compute_ok by (split; reflexivity). cbn [nfreq seq map]. f_equal. f_equal. apply one_at; [reflexivity|]. cbn [column rows map cell nth]. pose proof (Cnorm2_pos x X) as P. split; [unfold power; cbn [map sumR fold_right]; lra|].
  exists (Cdiv y x). assert (E : Cmul (Cdiv y x) x = y). { unfold Cdiv, Cinv, Cmul. cbn [fst snd]. unfold Cnorm2 in *. destruct x as [a b], y as [c d]. cbn [fst snd] in *. f_equal; field; lra. }
  split; [intros Z; apply Y; rewrite <- E, Z; unfold Cmul, C0; cbn [fst snd]; f_equal; ring|]. cbn [combine]. constructor; [cbn [fst snd]; symmetry; exact E|constructor].
Qed.

(** ** Examples *)
Definition ex_a : fcs := mkFcs 2 [[(1, 0); (1, 0)]; [(0, 1); (0, 0)]].
Definition ex_b : fcs := mkFcs 2 [[(0, 2); (0, 0)]; [(-2, 0); (1, 1)]].
Example C125_hyp : same_shape ex_a ex_b /\ well_formed ex_a /\ alive ex_a 0 /\ follows ex_a ex_b 0 /\ ~ follows ex_a ex_b 1 /\ cross ex_a ex_b 1 = C0.
Proof.
  split; [split; reflexivity|]. split; [repeat constructor|]. split; [exists 0%nat; split; [cbn; lia|unfold at_cell, C0; cbn; intros H; injection H as H; lra]|]. split; [exists (0, 2); split; [intros H; injection H as H; lra|]|split].
  - intros w W. cbn [ex_a rows List.length] in W. destruct w as [|[|w]]; [| |lia]; unfold at_cell, ex_a, ex_b, Cmul; cbn [rows nth fst snd]; f_equal; lra.
  - intros (c & C & H). specialize (H 0%nat ltac:(cbn; lia)). unfold at_cell, ex_a, ex_b, Cmul in H. cbn [rows nth fst snd] in H. injection H as H1 H2. apply C. destruct c as [u v]. unfold C0. cbn [fst snd] in *. f_equal; lra.
  - unfold cross, ex_a, ex_b. cbn [rows List.length over]. unfold at_cell, Cadd, Cmul, Cconj, C0. cbn [rows nth fst snd]. f_equal; ring.
Qed.
Example C125_values_hyp m : exists l, compute m ex_a ex_b = Ok l /\ nth 0 l 0 = 1 /\ nth 1 l 0 = 0.
Proof.
  destruct (C125_bounds m ex_a ex_b) as (l & E & _); [split; reflexivity|]. exists l. destruct C125_hyp as (_ & _ & A & F & _ & Z). split; [exact E|]. split; [apply (C125_one m ex_a ex_b l 0 E); [cbn; lia|split; assumption]|apply (C125_zero m ex_a ex_b l 1 E); [cbn; lia|exact Z]].
Qed.
Example C125_filtered_hyp : (forall j, (j < nfreq ex_a)%nat -> (fun _ : nat => (0, 3)) j <> C0 /\ (fun _ : nat => (1, 1)) j <> C0) /\ reordered ex_a ex_b (mkFcs 2 (rev (rows ex_a))) (mkFcs 2 (rev (rows ex_b))).
Proof. split; [intros j _; split; unfold C0; intros H; injection H; intros; lra|]. split; [reflexivity|]. split; [reflexivity|]. apply perm_swap. Qed.
Example C125_shapes_hyp : ~ same_shape ex_a (mkFcs 3 (rows ex_b)).
Proof. intros (H & _). discriminate H. Qed.
