From Verif Require Import PyBase StrideModel StrideSpec.
From Coq Require Import QArith Qround Lqa Permutation Lia.
Local Open Scope Z_scope.
Local Open Scope list_scope.

Section Facts.
  Variables (A F G : Type) (clean : A -> A) (coherence : list A -> list A -> result (F * G)).
  Let serial := compute_serial A F G clean coherence.
  Let parallel := compute_parallel A F G clean coherence.
  Lemma slice_inside (l : list A) s len : (s + len <= List.length l)%nat -> pyslice l (Z.of_nat s) (Z.of_nat s + Z.of_nat len) = firstn len (skipn s l).
  Proof.
    intros H. unfold pyslice, clip. destruct (Z.ltb_spec (Z.of_nat s) 0); [lia|]. destruct (Z.ltb_spec (Z.of_nat s + Z.of_nat len) 0); [lia|].
    rewrite !Z.min_r by lia. rewrite Nat2Z.id. replace (Z.to_nat (Z.of_nat s + Z.of_nat len - Z.of_nat s)) with len by lia. reflexivity.
  Qed.
  Lemma starts_inside w len step n : moving w len step -> exists k, windows_inside len step n k /\ starts w n = Ok (map (fun i => Z.of_nat (i * step)) (seq 0 k)).
  Proof.
    intros (L & O & S). unfold starts, py_range, advance. rewrite L, O. replace (Z.of_nat len - (Z.of_nat len - Z.of_nat step)) with (Z.of_nat step) by lia. destruct (Z.eqb_spec (Z.of_nat step) 0); [lia|].
    eexists. split; [|f_equal; apply map_ext; intros i; rewrite Nat2Z.inj_mul; apply Z.mul_comm].
    intros i. unfold range_count. destruct (Z.ltb_spec 0 (Z.of_nat step)); [|lia]. set (q := (Z.of_nat n - Z.of_nat len + 1 + Z.of_nat step - 1) / Z.of_nat step).
    pose proof (Z.div_mod (Z.of_nat n - Z.of_nat len + 1 + Z.of_nat step - 1) (Z.of_nat step) ltac:(lia)) as D. fold q in D. pose proof (Z.mod_pos_bound (Z.of_nat n - Z.of_nat len + 1 + Z.of_nat step - 1) (Z.of_nat step) ltac:(lia)) as B. split; intros I.
    - assert (Z.of_nat i < q) by lia. nia.
    - assert (Z.of_nat i < q) by nia. lia.
  Qed.
  (** The results of the windows in order, or the first error. *)
  Fixpoint each (rs : list (result (F * G))) : result (list (F * G)) :=
    match rs with [] => Ok [] | Ok p :: r => match each r with Ok ps => Ok (p :: ps) | Err e => Err e end | Err e :: _ => Err e end.
  Lemma loop_each w x y l : forall f out, loop A F G coherence w x y l f out = match each (map (segment A F G coherence w x y) l) with Ok ps => Ok (last (map (fun p => Some (fst p)) ps) f, out ++ map snd ps) | Err e => Err e end.
  Proof.
    induction l as [|s l IH]; intros f out; cbn [loop map each]; [cbn [last map]; rewrite app_nil_r; reflexivity|]. destruct (segment A F G coherence w x y s) as [[f' c]|e]; [|reflexivity]. rewrite IH. destruct (each _) as [ps|e]; [|reflexivity].
    f_equal. f_equal; [|rewrite <- app_assoc; reflexivity]. cbn [map fst]. destruct ps as [|p ps]; [reflexivity|]. cbn [map]. clear. revert p. induction ps as [|q ps IH]; intros p; [reflexivity|]. cbn [map] in *. change (last (Some (fst q) :: map (fun p0 => Some (fst p0)) ps) (Some f') = last (Some (fst q) :: map (fun p0 => Some (fst p0)) ps) f). rewrite (IH q). reflexivity.
  Qed.
  Lemma each_nth rs ps : each rs = Ok ps -> List.length ps = List.length rs /\ forall i p, nth_error ps i = Some p <-> nth_error rs i = Some (Ok p).
  Proof.
    revert ps. induction rs as [|[q|e] rs IH]; intros ps H; cbn [each] in H; [injection H as <-; split; [reflexivity|intros [|i] p; split; discriminate]| |discriminate H].
    destruct (each rs) as [qs|e]; [|discriminate H]. injection H as <-. destruct (IH qs eq_refl) as (L & N). split; [cbn; rewrite L; reflexivity|]. intros [|i] p; cbn [nth_error]; [split; intros X; injection X as <-; reflexivity|apply N].
  Qed.
  Lemma each_err rs e : each rs = Err e <-> exists i, nth_error rs i = Some (Err e) /\ forall j, (j < i)%nat -> exists p, nth_error rs j = Some (Ok p).
  Proof.
    induction rs as [|[q|e'] rs IH]; cbn [each].
    - split; [discriminate|]. intros ([|i] & X & _); discriminate X.
    - destruct (each rs) as [qs|e']; split.
      + discriminate.
      + intros ([|i] & X & Y); [discriminate X|]. destruct IH as (_ & IH). exfalso. assert (Z : Ok qs = Err e); [|discriminate Z]. apply IH. exists i. split; [exact X|]. intros j J. apply (Y (S j)). lia.
      + intros X. destruct IH as (IH & _). destruct (IH X) as (i & U & V). exists (S i). split; [exact U|]. intros [|j] J; [exists q; reflexivity|apply V; lia].
      + intros ([|i] & X & Y); [discriminate X|]. destruct IH as (_ & IH). apply IH. exists i. split; [exact X|]. intros j J. apply (Y (S j)). lia.
    - split; [intros X; injection X as ->; exists 0%nat; split; [reflexivity|intros j J; lia]|]. intros ([|i] & X & Y); [injection X as ->; reflexivity|]. destruct (Y 0%nat ltac:(lia)) as (p & Z). discriminate Z.
  Qed.
  Lemma slots_done w x y l done : forall slots, (forall i r, slot F G i slots = Some r -> option_map (segment A F G coherence w x y) (nth_error l i) = Some r) ->
    (forall i r, slot F G i (fold_left (finish A F G coherence w x y l) done slots) = Some r -> option_map (segment A F G coherence w x y) (nth_error l i) = Some r) /\
    (forall i, (i < List.length l)%nat -> In i done \/ slot F G i slots <> None -> slot F G i (fold_left (finish A F G coherence w x y l) done slots) <> None).
  Proof.
    induction done as [|d done IH]; intros slots INV; cbn [fold_left]; [split; [exact INV|intros i _ [[]|X]; exact X]|].
    assert (INV' : forall i r, slot F G i (finish A F G coherence w x y l slots d) = Some r -> option_map (segment A F G coherence w x y) (nth_error l i) = Some r).
    { intros i r. unfold finish. destruct (nth_error l d) as [s|] eqn:E; [|apply INV]. cbn [slot]. destruct (Nat.eqb_spec i d) as [->|_]; [|apply INV]. intros X. injection X as <-. rewrite E. reflexivity. }
    destruct (IH _ INV') as (P & Q). split; [exact P|]. intros i I H. apply Q; [exact I|]. destruct H as [[->|H]|H]; [right|left; exact H|right]; unfold finish.
    - destruct (nth_error l i) as [s|] eqn:E; [|apply nth_error_None in E; lia]. cbn [slot]. rewrite Nat.eqb_refl. discriminate.
    - destruct (nth_error l d) as [s|]; [|exact H]. cbn [slot]. destruct (Nat.eqb i d); [discriminate|exact H].
  Qed.
  Lemma gather_each w x y l slots : (forall i, (i < List.length l)%nat -> exists s, nth_error l i = Some s /\ slot F G i slots = Some (segment A F G coherence w x y s)) -> gather F G slots (seq 0 (List.length l)) = each (map (segment A F G coherence w x y) l).
  Proof.
    intros H. assert (K : forall l' i0, (forall i s, nth_error l' i = Some s -> slot F G (i0 + i) slots = Some (segment A F G coherence w x y s)) -> gather F G slots (seq i0 (List.length l')) = each (map (segment A F G coherence w x y) l')).
    { induction l' as [|s l' IH]; intros i0 X; [reflexivity|]. cbn [List.length seq gather map each]. specialize (IH (S i0)). pose proof (X 0%nat s eq_refl) as X0. rewrite Nat.add_0_r in X0. rewrite X0. destruct (segment A F G coherence w x y s) as [p|e]; [|reflexivity]. rewrite IH; [reflexivity|]. intros i t T. replace (S i0 + i)%nat with (i0 + S i)%nat by lia. apply X. exact T. }
    apply K. intros i s E. destruct (H i) as (s' & E' & S'); [apply nth_error_Some; rewrite E; discriminate|]. rewrite E in E'. injection E' as <-. exact S'.
  Qed.
  Lemma parallel_each done w ts1 ts2 l : starts w (List.length ts1) = Ok l -> (forall i, (i < List.length l)%nat -> In i done) ->
    parallel done w ts1 ts2 = match each (map (segment A F G coherence w (map clean ts1) (map clean ts2)) l) with Err e => Err e | Ok [] => Err IndexError | Ok ((f, c) :: ps) => Ok (f, c :: map snd ps) end.
  Proof.
    intros S D. unfold parallel, compute_parallel. rewrite S. rewrite (gather_each w (map clean ts1) (map clean ts2)); [reflexivity|].
    destruct (slots_done w (map clean ts1) (map clean ts2) l done []) as (P & Q); [intros i r X; discriminate X|]. intros i I. destruct (nth_error l i) as [s|] eqn:E; [|apply nth_error_None in E; lia]. exists s. split; [reflexivity|].
    destruct (slot F G i _) as [r|] eqn:R; [|exfalso; exact (Q i I (or_introl (D i I)) R)]. apply P in R. rewrite E in R. injection R as <-. reflexivity.
  Qed.
  Lemma serial_each w ts1 ts2 l : starts w (List.length ts1) = Ok l ->
    serial w ts1 ts2 = match each (map (segment A F G coherence w (map clean ts1) (map clean ts2)) l) with Err e => Err e | Ok [] => Err UnboundLocalError | Ok ((f, c) :: ps) => Ok (last (map fst ps) f, c :: map snd ps) end.
  Proof.
    intros S. unfold serial, compute_serial. rewrite S, loop_each. destruct (each _) as [[|[f c] ps]|e]; [reflexivity| |reflexivity]. cbn [map fst snd app]. replace (last (Some f :: map (fun p => Some (fst p)) ps) None) with (Some (last (map fst ps) f)); [reflexivity|].
    revert f. induction ps as [|q ps IH]; intros f; [reflexivity|]. cbn [map]. change (last (Some f :: Some (fst q) :: map (fun p => Some (fst p)) ps) None) with (last (Some (fst q) :: map (fun p => Some (fst p)) ps) None). rewrite <- IH. f_equal. destruct ps as [|q' ps]; [reflexivity|]. cbn [map]. change (last (fst q :: fst q' :: map fst ps) f) with (last (fst q' :: map fst ps) f). generalize (fst q'). clear. induction ps as [|r ps IH]; intros a; [reflexivity|]. cbn [map]. change (last (fst r :: map fst ps) f = last (fst r :: map fst ps) (fst q)). apply IH.
  Qed.
  (** The segments of a moving window. *)
  Lemma segment_window w len step n k ts1 ts2 i : moving w len step -> windows_inside len step n k -> List.length ts1 = n -> (n <= List.length ts2)%nat -> (i < k)%nat ->
    segment A F G coherence w (map clean ts1) (map clean ts2) (Z.of_nat (i * step)) = coherence (nth_window len step i (map clean ts1)) (nth_window len step i (map clean ts2)).
  Proof.
    intros (L & _ & _) K N N2 I. apply K in I. unfold segment. rewrite L. rewrite !slice_inside by (rewrite map_length; lia). reflexivity.
  Qed.
  Lemma window_length (l : list A) len step i : (i * step + len <= List.length l)%nat -> List.length (nth_window len step i l) = len.
  Proof. intros H. unfold nth_window. rewrite firstn_length, skipn_length. lia. Qed.
End Facts.
