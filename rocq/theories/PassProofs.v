(** Proofs for C85 and C100. *)
From Coq Require Import Reals Lra Lia.
From Verif Require Import PyBase PyText Cplx FilterModel PassModel PassSpec.
From Coq Require Import Lra.
Local Open Scope R_scope.

(** ** Rounding *)
Lemma rint_near x : Rabs (IZR (rint x) - x) <= / 2.
Proof.
  unfold rint. destruct (base_Int_part x) as [A B]. set (n := Int_part x) in *.
  destruct (Rlt_dec (x - IZR n) (/ 2)) as [L|L]; [apply Rabs_le; lra|].
  destruct (Rlt_dec (/ 2) (x - IZR n)) as [G|G]; [rewrite plus_IZR; apply Rabs_le; lra|].
  destruct (Z.even n); [|rewrite plus_IZR]; apply Rabs_le; lra.
Qed.
Lemma Int_part_is x n : IZR n <= x < IZR n + 1 -> Int_part x = n.
Proof.
  intros [A B]. destruct (base_Int_part x) as [C D]. set (m := Int_part x) in *.
  assert ((m < n + 1)%Z) by (apply lt_IZR; rewrite plus_IZR; lra).
  assert ((n < m + 1)%Z) by (apply lt_IZR; rewrite plus_IZR; lra). lia.
Qed.
Lemma rint_even x n : Z.even n = true -> Rabs (x - IZR n) <= / 2 -> rint x = n.
Proof.
  intros E H. assert (H' : - / 2 <= x - IZR n <= / 2) by (revert H; unfold Rabs; destruct (Rcase_abs _); lra). unfold rint.
  destruct (Rle_dec (IZR n) x) as [L|L].
  - rewrite (Int_part_is x n) by lra. destruct (Rlt_dec (x - IZR n) (/ 2)); [reflexivity|].
    destruct (Rlt_dec (/ 2) (x - IZR n)); [lra|]. now rewrite E.
  - assert (P : IZR (n - 1) = IZR n - 1) by (rewrite minus_IZR; lra).
    rewrite (Int_part_is x (n - 1)) by (rewrite P; lra). rewrite P.
    destruct (Rlt_dec (x - (IZR n - 1)) (/ 2)); [lra|]. destruct (Rlt_dec (/ 2) (x - (IZR n - 1))); [lia|].
    rewrite Z.even_sub, E. cbn. lia.
Qed.
Lemma rint_even_iff x n : Z.even n = true -> (rint x = n <-> Rabs (x - IZR n) <= / 2).
Proof. intros E. split; [|now apply rint_even]. intros <-. rewrite Rabs_minus_sym. apply rint_near. Qed.
Lemma ten_pos d : 0 < powerRZ 10 d. Proof. apply powerRZ_lt. lra. Qed.
Lemma ten_inv d : powerRZ 10 d * powerRZ 10 (- d) = 1.
Proof. rewrite <- powerRZ_add by lra. now replace (d + - d)%Z with 0%Z by lia. Qed.
Lemma round_at_near d x : Rabs (round_at d x - x) <= / 2 * powerRZ 10 (- d).
Proof.
  unfold round_at. pose proof (rint_near (x * powerRZ 10 d)) as H. set (n := IZR (rint _)) in *.
  replace (n * powerRZ 10 (- d) - x) with ((n - x * powerRZ 10 d) * powerRZ 10 (- d))
    by (rewrite Rmult_minus_distr_r, Rmult_assoc, ten_inv; ring).
  rewrite Rabs_mult, (Rabs_right (powerRZ 10 (- d))) by (pose proof (ten_pos (- d)); lra).
  apply Rmult_le_compat_r; [pose proof (ten_pos (- d)); lra|exact H].
Qed.
Lemma round_at_even d x n : Z.even n = true ->
  (round_at d x = IZR n * powerRZ 10 (- d) <-> Rabs (x - IZR n * powerRZ 10 (- d)) <= / 2 * powerRZ 10 (- d)).
Proof.
  intros E. pose proof (ten_pos d). pose proof (ten_pos (- d)). unfold round_at. split.
  - intros Q. apply Rmult_eq_reg_r in Q; [|lra]. rewrite <- Q. rewrite Rabs_minus_sym. apply round_at_near.
  - intros Q. rewrite (rint_even (x * powerRZ 10 d) n E); [reflexivity|].
    replace (x * powerRZ 10 d - IZR n) with ((x - IZR n * powerRZ 10 (- d)) * powerRZ 10 d)
      by (rewrite Rmult_minus_distr_r, Rmult_assoc, (Rmult_comm (powerRZ 10 (- d))), ten_inv; ring).
    rewrite Rabs_mult, (Rabs_right (powerRZ 10 d)) by lra.
    replace (/ 2) with (/ 2 * powerRZ 10 (- d) * powerRZ 10 d) by (rewrite Rmult_assoc, (Rmult_comm (powerRZ 10 (- d))), ten_inv; ring).
    apply Rmult_le_compat_r; lra.
Qed.
Lemma round_zero d x : round_at d x = 0 <-> Rabs x <= / 2 * powerRZ 10 (- d).
Proof. pose proof (round_at_even d x 0 eq_refl) as H. rewrite Rmult_0_l, Rminus_0_r in H. exact H. Qed.
Lemma p6 : powerRZ 10 (Z.opp 6) = / 1000000. Proof. change (powerRZ 10 (Z.opp 6)) with (/ 10 ^ 6). f_equal. ring. Qed.
Lemma p3 : powerRZ 10 (Z.opp 3) = / 1000. Proof. change (powerRZ 10 (Z.opp 3)) with (/ 10 ^ 3). f_equal. ring. Qed.
Lemma round_one x : round_at 6 x = 1 <-> Rabs (x - 1) <= / 2000000.
Proof.
  pose proof (round_at_even 6 x 1000000 eq_refl) as H. rewrite p6 in H.
  replace (1000000 * / 1000000) with 1 in H by lra. replace (/ 2 * / 1000000) with (/ 2000000) in H by lra. exact H.
Qed.

(** ** Smallest and largest *)
Lemma rmin_le l : forall x a, In a (x :: l) -> rmin x l <= a.
Proof.
  induction l as [|b l IH]; intros x a H; cbn.
  - destruct H as [<-|[]]. lra.
  - destruct H as [<-|[<-|H]]; [eapply Rle_trans; [apply Rmin_r|]; apply IH; now left|apply Rmin_l|
      eapply Rle_trans; [apply Rmin_r|]; apply IH; now right].
Qed.
Lemma rmin_in l : forall x, In (rmin x l) (x :: l).
Proof.
  induction l as [|b l IH]; intros x; [now left|]. change (rmin x (b :: l)) with (Rmin b (rmin x l)).
  assert (C : Rmin b (rmin x l) = b \/ Rmin b (rmin x l) = rmin x l) by (unfold Rmin; destruct (Rle_dec _ _); auto).
  destruct C as [-> | ->]; [right; now left|]. destruct (IH x) as [E|E]; [left; exact E|right; right; exact E].
Qed.
Lemma rmax_ge l : forall x a, In a (x :: l) -> a <= rmax x l.
Proof.
  induction l as [|b l IH]; intros x a H; cbn.
  - destruct H as [<-|[]]. lra.
  - destruct H as [<-|[<-|H]]; [eapply Rle_trans; [|apply Rmax_r]; apply IH; now left|apply Rmax_l|
      eapply Rle_trans; [|apply Rmax_r]; apply IH; now right].
Qed.
Lemma rmax_in l : forall x, In (rmax x l) (x :: l).
Proof.
  induction l as [|b l IH]; intros x; [now left|]. change (rmax x (b :: l)) with (Rmax b (rmax x l)).
  assert (C : Rmax b (rmax x l) = b \/ Rmax b (rmax x l) = rmax x l) by (unfold Rmax; destruct (Rle_dec _ _); auto).
  destruct C as [-> | ->]; [right; now left|]. destruct (IH x) as [E|E]; [left; exact E|right; right; exact E].
Qed.
Lemma rmin_is x l m : In m (x :: l) -> (forall a, In a (x :: l) -> m <= a) -> rmin x l = m.
Proof. intros A B. apply Rle_antisym; [now apply rmin_le|apply B, rmin_in]. Qed.
Lemma rmax_is x l m : In m (x :: l) -> (forall a, In a (x :: l) -> a <= m) -> rmax x l = m.
Proof. intros A B. apply Rle_antisym; [apply B, rmax_in|now apply rmax_ge]. Qed.

(** ** Windows *)
Lemma ln10 : 0 < ln 10. Proof. rewrite <- ln_1. apply ln_increasing; lra. Qed.
Lemma log10_ratio a b : ln b <> 0 -> log10 a / log10 b = ln a / ln b.
Proof. intros H. unfold log10. pose proof ln10. field. split; [exact H|lra]. Qed.
Lemma ln_zero x : 0 < x -> ln x = 0 -> x = 1.
Proof. intros P E. rewrite <- ln_1 in E. now apply ln_inv in E; [|lra|lra]. Qed.
Lemma window_passes_iff tol w : window_passes tol w = true <-> flat tol w /\ w <> [].
Proof.
  destruct w as [|a r]; cbn [window_passes]; [split; [discriminate|intros [_ []]; reflexivity]|].
  pose proof (rmin_le r a) as L. pose proof (rmax_ge r a) as G. pose proof (rmin_in r a) as Li. pose proof (rmax_in r a) as Gi.
  set (mn := rmin a r) in *. set (mx := rmax a r) in *. split.
  - destruct (Rle_dec mn 0); [discriminate|]. destruct (Req_EM_T mx 1) as [|N]; [discriminate|].
    destruct (Rle_dec (Rabs (1 - log10 mn / log10 mx)) tol) as [T|]; [|discriminate]. intros _. split; [|discriminate].
    assert (P : forall b, In b (a :: r) -> 0 < b) by (intros b Hb; specialize (L b Hb); lra).
    assert (K : ln mx <> 0) by (intros K; apply N, ln_zero; [now apply P|exact K]).
    split; [exact P|]. exists mn, mx. repeat split; auto. now rewrite <- (log10_ratio _ _ K).
  - intros [[P (lo & hi & Ilo & Ihi & B & N & T)] _].
    assert (E1 : mn = lo) by (apply rmin_is; [exact Ilo|intros b Hb; apply B, Hb]).
    assert (E2 : mx = hi) by (apply rmax_is; [exact Ihi|intros b Hb; apply B, Hb]). rewrite E1, E2. clear E1 E2.
    destruct (Rle_dec lo 0) as [C|_]; [specialize (P lo Ilo); lra|]. destruct (Req_EM_T hi 1); [contradiction|].
    assert (K : ln hi <> 0) by (intros K; apply N, ln_zero; [now apply P|exact K]). rewrite (log10_ratio _ _ K).
    destruct (Rle_dec _ tol); [reflexivity|contradiction].
Qed.
Lemma window_stretch n i amp : (i + n <= length amp)%nat -> stretch n i amp (window n i amp).
Proof.
  intros H. unfold window. split.
  - rewrite firstn_length, skipn_length. lia.
  - intros k K. rewrite <- (firstn_skipn i amp) at 2. rewrite app_nth2; rewrite firstn_length; [|lia].
    rewrite Nat.min_l by lia. replace (i + k - i)%nat with k by lia.
    rewrite <- (firstn_skipn n (skipn i amp)) at 2. rewrite app_nth1; [reflexivity|]. rewrite firstn_length, skipn_length. lia.
Qed.
Lemma stretch_unique n i amp w w' : stretch n i amp w -> stretch n i amp w' -> w = w'.
Proof.
  intros [L H] [L' H']. apply (nth_ext w w' 0 0); [congruence|]. intros k K. rewrite H, H' by lia. reflexivity.
Qed.
Lemma passes_at tol n amp i : (0 < n)%nat -> (i + n <= length amp)%nat ->
  window_passes tol (window n i amp) = true <-> flat_at tol n amp i.
Proof.
  intros N L. rewrite window_passes_iff. pose proof (window_stretch n i amp L) as S. split.
  - intros [F _]. eexists. split; [exact S|exact F].
  - intros (w & Sw & F). rewrite (stretch_unique _ _ _ _ _ Sw S) in F. split; [exact F|].
    intros E. destruct S as [S _]. rewrite E in S. cbn in S. lia.
Qed.
Lemma passing_iff n tol amp i : (0 < n)%nat ->
  In i (passing n tol amp) <-> (i + n < length amp)%nat /\ flat_at tol n amp i.
Proof.
  intros N. unfold passing. rewrite filter_In, in_seq. split.
  - intros [A B]. split; [lia|]. apply (passes_at tol n amp i N); [lia|exact B].
  - intros [A B]. split; [lia|]. apply (passes_at tol n amp i N); [lia|exact B].
Qed.
(** The first and the last of an increasing list. *)
Lemma filter_seq_order (p : nat -> bool) n s : forall first more, filter p (seq s n) = first :: more ->
  (forall x, In x (first :: more) -> (first <= x <= last more first)%nat) /\ In (last more first) (first :: more).
Proof.
  revert s. induction n as [|n IH]; intros s first more E; cbn in E; [discriminate|].
  destruct (p s); [|exact (IH _ _ _ E)]. injection E as <- <-.
  destruct (filter p (seq (S s) n)) as [|f m] eqn:F.
  - cbn [last]. split; [intros x [<-|[]]; lia|now left].
  - destruct (IH _ _ _ F) as [A B].
    assert (Hf : (s < f)%nat) by (assert (In f (filter p (seq (S s) n))) as I by (rewrite F; now left); apply filter_In in I as [I _]; apply in_seq in I; lia).
    assert (EL : last (f :: m) s = last m f) by (destruct m; [reflexivity|]; cbn; clear; revert n0; induction m as [|x m IH]; intros; [reflexivity|]; cbn; apply IH). rewrite EL.
    split.
    + intros x [<-|H]; [|specialize (A x H); lia]. assert (I : In f (f :: m)) by now left. apply A in I. lia.
    + right. exact B.
Qed.
Lemma passing_cases n tol amp : (0 < n)%nat ->
  match passing n tol amp with
  | [] => forall i, (i + n < length amp)%nat -> ~ flat_at tol n amp i
  | first :: more =>
      let k := last more first in
      (first <= k)%nat /\ (k + n < length amp)%nat /\ flat_at tol n amp first /\ flat_at tol n amp k /\
      forall i, (i + n < length amp)%nat -> flat_at tol n amp i -> (first <= i <= k)%nat
  end.
Proof.
  intros N. pose proof (fun i => passing_iff n tol amp i N) as I. destruct (passing n tol amp) as [|first more] eqn:E.
  - intros i A B. exact (proj2 (I i) (conj A B)).
  - cbv zeta. unfold passing in E. destruct (filter_seq_order _ _ _ _ _ E) as [A B].
    pose proof (proj1 (I first) (or_introl eq_refl)) as [F1 F2]. pose proof (proj1 (I _) B) as [L1 L2].
    split; [exact (proj1 (A _ B))|]. split; [exact L1|]. split; [exact F2|]. split; [exact L2|].
    intros i X Y. apply A. apply I. now split.
Qed.

(** ** Every d-th value *)
Lemma every_from_nth d (D : (0 < d)%nat) : forall l k i, nth i (every_from k d l) 0 = nth (k + i * d) l 0.
Proof.
  induction l as [|a l IH]; intros k i; cbn [every_from]; [now destruct i, (k + _)%nat|].
  destruct k as [|k].
  - destruct i as [|i]; [reflexivity|]. cbn [nth]. rewrite IH. replace (0 + S i * d)%nat with (S (d - 1 + i * d)) by (cbn; lia). reflexivity.
  - cbn [nth Nat.add]. apply IH.
Qed.
Lemma every_from_length d (D : (0 < d)%nat) : forall l k i, (i < length (every_from k d l) <-> k + i * d < length l)%nat.
Proof.
  induction l as [|a l IH]; intros k i; cbn [every_from length]; [lia|].
  destruct k as [|k].
  - destruct i as [|i]; cbn [length]; [lia|]. specialize (IH (d - 1)%nat i). replace (0 + S i * d)%nat with (S (d - 1 + i * d)) by (cbn; lia). lia.
  - specialize (IH k i). lia.
Qed.
Lemma every_nth_one l : every_nth 1 l = l.
Proof.
  unfold every_nth. induction l as [|a l IH]; [reflexivity|]. cbn. f_equal. exact IH.
Qed.
Lemma every_nth_nth d l i : (0 < d)%nat -> nth i (every_nth d l) 0 = nth (i * d) l 0.
Proof. intros D. exact (every_from_nth d D l 0 i). Qed.
Lemma every_nth_length d l i : (0 < d)%nat -> (i < length (every_nth d l) <-> i * d < length l)%nat.
Proof. intros D. exact (every_from_length d D l 0 i). Qed.

(** ** The flat test *)
Lemma mean_average amp : amp <> [] -> average amp (mean amp) /\ forall m, average amp m -> m = mean amp.
Proof.
  intros N. assert (P : INR (length amp) <> 0) by (apply not_0_INR; destruct amp; [contradiction|discriminate]).
  unfold average, mean. split; [field; exact P|]. intros m H. rewrite <- H. field. exact P.
Qed.
Lemma seems_flat_iff amp : amp <> [] -> amplitude_list amp -> seems_flat amp = true <-> averages_one amp \/ averages_zero amp.
Proof.
  intros N A. unfold seems_flat. set (every := forallb _ amp).
  assert (E : every = true <-> forall a, In a amp -> / 2000000 < a).
  { unfold every. rewrite forallb_forall. split; intros H a Ha; specialize (H a Ha).
    - destruct (Req_EM_T (round_at 6 a) 0) as [|Z]; [discriminate|]. rewrite round_zero in Z. rewrite p6 in Z.
      pose proof (A a Ha). rewrite Rabs_right in Z by lra. lra.
    - destruct (Req_EM_T (round_at 6 a) 0) as [Z|]; [|reflexivity]. apply round_zero in Z. rewrite p6 in Z.
      pose proof (A a Ha). rewrite Rabs_right in Z by lra. lra. }
  destruct (mean_average amp N) as [M U]. assert (M0 : 0 <= mean amp).
  { unfold mean. apply Rmult_le_pos; [|apply Rlt_le, Rinv_0_lt_compat, lt_0_INR; destruct amp; [contradiction|cbn; lia]].
    clear -A. induction amp as [|a l IH]; cbn; [lra|]. pose proof (A a (or_introl eq_refl)). assert (0 <= fold_right Rplus 0 l) by (apply IH; intros x Hx; apply A; now right). lra. }
  destruct every.
  - destruct (Req_EM_T 1 (round_at 6 (mean amp))) as [Q|Q].
    + split; [|reflexivity]. intros _. left. split; [now apply E|]. exists (mean amp). split; [exact M|]. apply round_one. now symmetry.
    + split; [discriminate|]. intros [[_ (m & Hm & K)]|[(a & Ha & La) _]].
      * destruct Q. rewrite (U m Hm) in K. symmetry. now apply round_one.
      * pose proof (proj1 E eq_refl a Ha). lra.
  - destruct (Req_EM_T 0 (round_at 6 (mean amp))) as [Q|Q].
    + split; [|reflexivity]. intros _. right. split.
      * destruct (Exists_dec (fun a => a <= / 2000000) amp) as [X|X]; [intros a; destruct (Rle_dec a (/ 2000000)); [now left|now right]|apply Exists_exists in X; exact X|].
        assert (false = true) by (apply E; intros a Ha; destruct (Rlt_dec (/ 2000000) a); [assumption|]; destruct X; apply Exists_exists; exists a; split; [exact Ha|lra]). discriminate.
      * exists (mean amp). split; [exact M|]. symmetry in Q. apply round_zero in Q. rewrite p6, Rabs_right in Q by lra. lra.
    + split; [discriminate|]. intros [[F _]|[_ (m & Hm & K)]]; [apply E in F; discriminate|].
      destruct Q. symmetry. apply round_zero. rewrite p6, <- (U m Hm), Rabs_right by (rewrite (U m Hm); lra). lra.
Qed.

(** ** Increasing frequencies *)
Lemma increasing_ends f0 f1 rest : increasing (f0 :: f1 :: rest) ->
  rmin f0 (f1 :: rest) = nth 0 (f0 :: f1 :: rest) 0 /\ rmax f0 (f1 :: rest) = nth (length (f1 :: rest)) (f0 :: f1 :: rest) 0.
Proof.
  intros I. set (l := f1 :: rest) in *. split.
  - apply rmin_is; [now left|]. intros a Ha. apply (In_nth _ _ 0) in Ha as (i & Li & <-). destruct i as [|i]; [lra|].
    apply Rlt_le, (I 0%nat (S i)). lia.
  - apply rmax_is; [apply nth_In; cbn; lia|]. intros a Ha. apply (In_nth _ _ 0) in Ha as (i & Li & <-). cbn [length] in Li.
    destruct (Nat.eq_dec i (length l)) as [->|Ne]; [lra|]. apply Rlt_le, I. cbn [length]. lia.
Qed.
