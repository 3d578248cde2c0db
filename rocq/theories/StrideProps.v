(** C126: coherence over striding windows. *)
From Verif Require Import PyBase StrideModel StrideSpec StrideProofs.
From Coq Require Import QArith Qround Lqa Permutation Lia.
Local Open Scope Z_scope.
Local Open Scope list_scope.

Section Theorems.
  Variables (A F G : Type) (clean : A -> A) (coherence : list A -> list A -> result (F * G)).
  Notation serial := (compute_serial A F G clean coherence).
  Notation parallel := (compute_parallel A F G clean coherence).
  Notation at_window len step i ts1 ts2 := (coherence (nth_window len step i (map clean ts1)) (nth_window len step i (map clean ts2))).
Lemma setup w len step n ts1 ts2 : moving w len step -> List.length ts1 = n -> (n <= List.length ts2)%nat ->
    exists k l, windows_inside len step n k /\ starts w n = Ok l /\ List.length l = k /\ forall i, nth_error (map (segment A F G coherence w (map clean ts1) (map clean ts2)) l) i = if (i <? k)%nat then Some (at_window len step i ts1 ts2) else None.
Proof.
    intros M N N2. destruct (starts_inside w len step n M) as (k & K & S). exists k. eexists. split; [exact K|]. split; [exact S|]. split; [rewrite map_length; apply seq_length|]. intros i. rewrite map_map. destruct (Nat.ltb_spec i k) as [I|I].
    - rewrite <- (segment_window A F G clean coherence w len step n k ts1 ts2 i M K N N2 I). rewrite nth_error_map, (nth_error_nth' _ 0%nat) by (rewrite seq_length; exact I). rewrite seq_nth by exact I. reflexivity.
    - apply nth_error_None. rewrite map_length, seq_length. exact I.
Qed.
  (** One result per window inside the series, in their order. *)
Theorem C126_windows w len step ts1 ts2 f cs : moving w len step -> (List.length ts1 <= List.length ts2)%nat -> serial w ts1 ts2 = Ok (f, cs) ->
    windows_inside len step (List.length ts1) (List.length cs) /\ forall i c, nth_error cs i = Some c -> exists f', at_window len step i ts1 ts2 = Ok (f', c).
Proof.
    intros M N2 E. destruct (setup w len step _ ts1 ts2 M eq_refl N2) as (k & l & K & S & LK & NTH). rewrite (serial_each A F G clean coherence w ts1 ts2 l S) in E. destruct (each F G _) as [ps|e] eqn:P; [|discriminate E].
    destruct (each_nth F G _ _ P) as (LP & NP). rewrite map_length, LK in LP. assert (CS : cs = map snd ps) by (destruct ps as [|[f0 c0] ps]; [discriminate E|injection E as _ <-; reflexivity]). subst cs. rewrite map_length, LP. split; [exact K|].
    intros i c I. rewrite nth_error_map in I. destruct (nth_error ps i) as [[f' c']|] eqn:Q; [|discriminate I]. injection I as <-. exists f'. apply NP in Q. rewrite NTH in Q. destruct (i <? k)%nat; [injection Q as Q; exact Q|discriminate Q].
Qed.
  (** If every window has a result, so has the series, unless it is shorter than a window. *)
Theorem C126_complete w len step ts1 ts2 : moving w len step -> (len <= List.length ts1 <= List.length ts2)%nat ->
    (forall i, (i * step + len <= List.length ts1)%nat -> exists p, at_window len step i ts1 ts2 = Ok p) -> exists f cs, serial w ts1 ts2 = Ok (f, cs).
Proof.
    intros M (N1 & N2) H. destruct (setup w len step _ ts1 ts2 M eq_refl N2) as (k & l & K & S & LK & NTH). rewrite (serial_each A F G clean coherence w ts1 ts2 l S). destruct (each F G _) as [ps|e] eqn:P.
    - destruct (each_nth F G _ _ P) as (LP & _). rewrite map_length, LK in LP. assert (0 < k)%nat by (apply K; lia). destruct ps as [|[f c] ps]; [cbn in LP; lia|]. eexists. eexists. reflexivity.
    - apply each_err in P as (i & X & _). rewrite NTH in X. destruct (Nat.ltb_spec i k) as [I|I]; [|discriminate X]. injection X as X. apply K in I. destruct (H i I) as (p & Y). rewrite Y in X. discriminate X.
Qed.
  (** Otherwise the error is that of the first window that has one. *)
Theorem C126_error w len step ts1 ts2 e : moving w len step -> (len <= List.length ts1 <= List.length ts2)%nat ->
    serial w ts1 ts2 = Err e <-> exists i, (i * step + len <= List.length ts1)%nat /\ at_window len step i ts1 ts2 = Err e /\ forall j, (j < i)%nat -> exists p, at_window len step j ts1 ts2 = Ok p.
Proof.
    intros M (N1 & N2). destruct (setup w len step _ ts1 ts2 M eq_refl N2) as (k & l & K & S & LK & NTH). rewrite (serial_each A F G clean coherence w ts1 ts2 l S).
    assert (EE : (match each F G (map (segment A F G coherence w (map clean ts1) (map clean ts2)) l) with Err e => Err e | Ok [] => Err UnboundLocalError | Ok ((f, c) :: ps) => Ok (last (map fst ps) f, c :: map snd ps) end) = Err e <-> each F G (map (segment A F G coherence w (map clean ts1) (map clean ts2)) l) = Err e).
    { destruct (each F G _) as [[|[f c] ps]|e'] eqn:P; [|split; discriminate|split; intros X; injection X as ->; reflexivity]. destruct (each_nth F G _ _ P) as (LP & _). rewrite map_length, LK in LP. assert (0 < k)%nat by (apply K; lia). cbn in LP. lia. }
    rewrite EE, each_err. split.
    - intros (i & X & Y). rewrite NTH in X. destruct (Nat.ltb_spec i k) as [I|I]; [|discriminate X]. injection X as X. exists i. split; [apply K; exact I|]. split; [exact X|]. intros j J. destruct (Y j J) as (p & Z). rewrite NTH in Z. destruct (j <? k)%nat; [|discriminate Z]. injection Z as Z. exists p. exact Z.
    - intros (i & I & X & Y). apply K in I. exists i. rewrite NTH. destruct (Nat.ltb_spec i k); [|lia]. split; [rewrite X; reflexivity|]. intros j J. destruct (Y j J) as (p & Z). exists p. rewrite NTH. destruct (Nat.ltb_spec j k); [|lia]. rewrite Z. reflexivity.
Qed.
  (** Workers give the same, in whatever order they finish. *)
Theorem C126_parallel done w len step ts1 ts2 k : moving w len step -> (len <= List.length ts1 <= List.length ts2)%nat -> regular coherence ->
    windows_inside len step (List.length ts1) k -> Permutation done (seq 0 k) -> parallel done w ts1 ts2 = serial w ts1 ts2.
Proof.
    intros M (N1 & N2) R K0 D. destruct (setup w len step _ ts1 ts2 M eq_refl N2) as (k' & l & K & S & LK & NTH).
    assert (KK : k' = k). { destruct (Nat.lt_trichotomy k' k) as [X|[X|X]]; [exfalso|exact X|exfalso]; [assert (Y : (k' < k')%nat) by (apply K, K0; exact X)|assert (Y : (k < k)%nat) by (apply K0, K; exact X)]; lia. } rewrite KK in K, LK, NTH. clear KK k'.
    rewrite (serial_each A F G clean coherence w ts1 ts2 l S). rewrite (parallel_each A F G clean coherence done w ts1 ts2 l S); [|intros i I; apply (Permutation_in (l := seq 0 k)); [symmetry; exact D|apply in_seq; lia]].
    destruct (each F G _) as [[|[f c] ps]|e] eqn:P; [|f_equal; f_equal|reflexivity].
    - destruct (each_nth F G _ _ P) as (LP & _). rewrite map_length, LK in LP. assert (0 < k)%nat by (apply K; lia). cbn in LP. lia.
    - destruct (each_nth F G _ _ P) as (LP & NP). assert (ALL : forall p, In p ((f, c) :: ps) -> fst p = f).
      { intros p I. apply In_nth_error in I as (i & I). apply NP in I. rewrite NTH in I. destruct (Nat.ltb_spec i k) as [J|J]; [|discriminate I]. injection I as I. pose proof (proj2 (NP 0%nat (f, c))) as _. assert (Z : nth_error (map (segment A F G coherence w (map clean ts1) (map clean ts2)) l) 0 = Some (Ok (f, c))) by (apply NP; reflexivity).
        rewrite NTH in Z. destruct (Nat.ltb_spec 0 k) as [O|O]; [|discriminate Z]. injection Z as Z. destruct p as [f' c']. cbn [fst]. apply K in J. apply K in O. eapply R; [| |exact I|exact Z]; rewrite !window_length by (rewrite map_length; lia); reflexivity. }
      destruct ps as [|p ps] using rev_ind; [reflexivity|]. rewrite map_app. cbn [map]. rewrite last_last. symmetry. apply ALL. right. apply in_or_app. right. left. reflexivity.
Qed.
  (** ** Boundaries *)
  (** A series shorter than a window has no result but an error, one that depends on the use of workers. *)
Theorem C126_short_refuted done w len step ts1 ts2 : moving w len step -> (List.length ts1 < len)%nat -> serial w ts1 ts2 = Err UnboundLocalError /\ parallel done w ts1 ts2 = Err IndexError.
Proof.
    intros M N. destruct (starts_inside w len step (List.length ts1) M) as (k & K & S). assert (k = 0%nat) by (destruct k as [|k]; [reflexivity|exfalso; assert (X : (0 * step + len <= List.length ts1)%nat) by (apply K; lia); lia]). subst k. cbn [seq map] in S.
    split; [rewrite (serial_each A F G clean coherence w ts1 ts2 [] S); reflexivity|]. rewrite (parallel_each A F G clean coherence done w ts1 ts2 [] S); [reflexivity|]. intros i I. cbn in I. lia.
Qed.
  (** Windows that overlap fully. *)
Theorem C126_full_overlap_refuted done w ts1 ts2 : overlap w = num_samples w -> serial w ts1 ts2 = Err ValueError /\ parallel done w ts1 ts2 = Err ValueError.
Proof. intros H. unfold compute_serial, compute_parallel, starts, py_range, advance. rewrite H, Z.sub_diag. split; reflexivity. Qed.
  (** With more overlap than samples, a series that lacks two samples or more for a window is taken as a window. *)
Theorem C126_more_overlap_refuted w ts1 ts2 p : num_samples w < overlap w -> Z.of_nat (List.length ts1) + 1 < num_samples w -> overlap w - num_samples w >= num_samples w - Z.of_nat (List.length ts1) - 1 -> List.length ts1 = List.length ts2 ->
    coherence (map clean ts1) (map clean ts2) = Ok p -> serial w ts1 ts2 = Ok (fst p, [snd p]).
Proof.
    intros O N X L E. destruct p as [f c]. cbn [fst snd]. rewrite (serial_each A F G clean coherence w ts1 ts2 [0]).
    - cbn [map each]. unfold segment. rewrite Z.add_0_l. assert (SL : forall l : list A, List.length l = List.length ts1 -> pyslice l 0 (num_samples w) = l).
      { intros l Y. unfold pyslice, clip. destruct (Z.ltb_spec 0 0); [lia|]. destruct (Z.ltb_spec (num_samples w) 0); [lia|]. rewrite Y. rewrite (Z.min_l _ (num_samples w)), (Z.min_r _ 0) by lia. cbn [Z.to_nat skipn]. rewrite Z.sub_0_r, Nat2Z.id, <- Y. apply firstn_all. }
      rewrite !SL by (rewrite map_length; lia). rewrite E. reflexivity.
    - unfold starts, py_range, advance. destruct (Z.eqb_spec (num_samples w - overlap w) 0); [lia|]. f_equal. replace (range_count _ _) with 1%nat; [cbn [seq map]; f_equal; lia|].
      unfold range_count. destruct (Z.ltb_spec 0 (num_samples w - overlap w)); [lia|]. set (s := - (num_samples w - overlap w)). set (t := - (Z.of_nat (List.length ts1) - num_samples w + 1)).
      replace (t - (num_samples w - overlap w) - 1) with (t - 1 + 1 * s) by (unfold s; lia). rewrite Z.div_add by (unfold s; lia). rewrite Z.div_small by (unfold s, t; lia). reflexivity.
Qed.
End Theorems.

(** The window inside a window: the fraction of its samples, rounded down, half of them overlapping. *)
Theorem C126_subwindow q w : (0 <= q <= 1)%Q -> 0 <= num_samples w -> let s := subwindow_of q w in
  (inject_Z (num_samples s) <= inject_Z (num_samples w) * q)%Q /\ (inject_Z (num_samples w) * q < inject_Z (num_samples s + 1))%Q /\ 0 <= num_samples s <= num_samples w /\ 2 * overlap s <= num_samples s <= 2 * overlap s + 1.
Proof.
  intros (Q0 & Q1) W. cbv zeta. unfold subwindow_of. cbn [num_samples overlap]. set (x := (inject_Z (num_samples w) * q)%Q). assert (W' : (0 <= inject_Z (num_samples w))%Q) by (change 0%Q with (inject_Z 0); rewrite <- Zle_Qle; exact W).
  assert (X : (0 <= x)%Q) by (unfold x; apply Qmult_le_0_compat; assumption). unfold trunc. destruct (Qle_bool 0 x) eqn:B; [|apply Qle_bool_iff in X; rewrite X in B; discriminate B].
  pose proof (Qfloor_le x) as FL. pose proof (Qlt_floor x) as FG. split; [exact FL|]. split; [exact FG|]. split.
  - split; [change 0 with (Qfloor 0); apply Qfloor_resp_le; exact X|]. rewrite <- (Qfloor_Z (num_samples w)). apply Qfloor_resp_le. unfold x. setoid_replace (inject_Z (num_samples w)) with (inject_Z (num_samples w) * 1)%Q at 2 by ring. rewrite !(Qmult_comm (inject_Z (num_samples w))). apply Qmult_le_compat_r; assumption.
  - pose proof (Z.div_mod (Qfloor x) 2 ltac:(lia)). pose proof (Z.mod_pos_bound (Qfloor x) 2 ltac:(lia)). lia.
Qed.
(** A short window has a subwindow without samples. *)
Theorem C126_empty_subwindow_refuted w : 0 <= num_samples w < 5 -> num_samples (subwindow_of (1 # 5) w) = 0.
Proof. intros H. assert (X : num_samples w = 0 \/ num_samples w = 1 \/ num_samples w = 2 \/ num_samples w = 3 \/ num_samples w = 4) by lia. unfold subwindow_of. cbn [num_samples]. destruct X as [->|[->|[->|[->| ->]]]]; reflexivity. Qed.

(** ** Examples *)
Definition mean_of (x y : list Z) : result (nat * Z) := Ok (List.length x, fold_right Z.add 0 x * fold_right Z.add 0 y).
Definition ex_w : window := mkWindow 4 1.
Definition ex_ts : list Z := [1; 2; 3; 4; 5; 6; 7; 8; 9].
Example C126_moving_hyp : moving ex_w 4 3 /\ (4 <= List.length ex_ts <= List.length ex_ts)%nat /\ windows_inside 4 3 (List.length ex_ts) 2 /\ regular mean_of /\ compute_serial Z nat Z (fun z => z) mean_of ex_w ex_ts ex_ts = Ok (4%nat, [100; 484]).
Proof.
  split; [split; [reflexivity|split; [reflexivity|lia]]|]. split; [cbn; lia|]. split; [intros i; cbn [ex_ts List.length]; lia|]. split; [|reflexivity]. intros x y x' y' f c f' c' L _ E E'. unfold mean_of in *. injection E as <- _. injection E' as <- _. exact L.
Qed.
Example C126_parallel_hyp : Permutation [1%nat; 0%nat] (seq 0 2) /\ compute_parallel Z nat Z (fun z => z) mean_of [1%nat; 0%nat] ex_w ex_ts ex_ts = Ok (4%nat, [100; 484]).
Proof. split; [apply perm_swap|reflexivity]. Qed.
Example C126_more_overlap_hyp : let w := mkWindow 8 12 in num_samples w < overlap w /\ Z.of_nat (List.length [1; 2; 3; 4; 5]) + 1 < num_samples w /\ overlap w - num_samples w >= num_samples w - Z.of_nat (List.length [1; 2; 3; 4; 5]) - 1.
Proof. cbn. lia. Qed.
Example C126_subwindow_hyp : (0 <= 1 # 5 <= 1)%Q /\ subwindow_of (1 # 5) (mkWindow 256 128) = mkWindow 51 25.
Proof. split; [split; discriminate|reflexivity]. Qed.
