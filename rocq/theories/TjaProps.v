(** C133: transfer functions read from J files and Zonge AVG files. *)
From Coq Require Import QArith ZArith.
From Verif Require Import PyBase PyFacts PyText TextFacts TfModel TfSpec TfProofs TfEffects TfProps TjaModel TjaSpec TjaProofs.
From Coq Require Import Lia.
Local Open Scope nat_scope.
Local Open Scope list_scope.

Section Props.
Variables (num : nums) (meta : Type).
Notation entry := (entry num).
Notation periods := (periods num).
Notation consistent := (consistent num).
Notation holds := (holds num).
Notation untouched := (untouched num).
Notation whole := (whole num meta).
Notation with_meta := (mkWhole num meta).

Lemma settle l t : consistent t -> untouched t \/ length l = length (periods t) ->
  exists t', set_period num l t = (t', None) /\ t_names num t' = t_names num t /\ same_periods (periods t') l = true /\ consistent t' /\
    (untouched t -> forall v p o i, entry t' v p o i = vzero num) /\ (~ untouched t -> forall v p o i, entry t' v p o i = entry t v p o i).
Proof.
  intros C H. assert (D : untouched t \/ ~ untouched t).
  { unfold TjaSpec.untouched. destruct (periods t) as [|q [|q' r]]; [right; intros (x & E & _); discriminate| |right; intros (x & E & _); discriminate].
    destruct (Qeq_dec q 1) as [E|E]; [left; exists q; auto|right; intros (x & E1 & E2); injection E1 as <-; contradiction]. }
  destruct D as [D|D].
  - destruct (period_new num l t D C) as (t' & E & N & P & C' & Z). exists t'. split; [exact E|]. split; [exact N|]. split; [rewrite P; apply same_periods_refl|]. split; [exact C'|]. split; [intros _; exact Z|contradiction].
  - destruct H as [H|H]; [contradiction|]. destruct (proj2 (period_used num l t D C) H) as (t' & E & N & P & C' & Z). exists t'. split; [exact E|]. split; [exact N|]. split; [exact P|]. split; [exact C'|]. split; [contradiction|intros _; exact Z].
Qed.

(** A J file read into a new TF, or into one of as many periods: its periods, impedances, tipper and errors are those of the file, and so are
    its metadata.  What a J file does not have is zero in a new TF. *)
Theorem C133_jfile (j : jobj num meta) t m : consistent t -> untouched t \/ length (j_periods num meta j) = length (periods t) ->
  exists t', from_jfile num meta j (with_meta t m) = (with_meta t' (j_meta num meta j), None) /\ t_names num t' = t_names num t /\ consistent t' /\
    same_periods (periods t') (j_periods num meta j) = true /\
    holds t' VTf electric (j_z num meta j) /\ holds t' VErr electric (j_zerr num meta j) /\ holds t' VTf vertical (j_t num meta j) /\ holds t' VErr vertical (j_terr num meta j) /\
    (untouched t -> forall v p o i, v <> VTf -> v <> VErr -> entry t' v p o i = vzero num).
Proof.
  intros C H. destruct (settle (j_periods num meta j) t C H) as (t1 & E1 & N1 & P1 & C1 & Z1 & _). pose proof (same_length _ _ P1) as L1.
  destruct (two_arrays num meta AImp AImpErr (length (j_periods num meta j)) (j_z num meta j) (j_zerr num meta j) t1 m (or_introl eq_refl) C1 L1) as (t2 & E2 & (N2 & P2) & C2 & A2 & B2 & O2).
  assert (L2 : length (periods t2) = length (j_periods num meta j)) by congruence.
  destruct (two_arrays num meta ATip ATipErr (length (j_periods num meta j)) (j_t num meta j) (j_terr num meta j) t2 m (or_intror eq_refl) C2 L2) as (t3 & E3 & (N3 & P3) & C3 & A3 & B3 & O3).
  exists t3. split.
  { unfold from_jfile. change (steps num meta ([set_periods num meta (j_periods num meta j)] ++ ([TjaModel.set_array num meta AImp [length (j_periods num meta j); length (rows AImp); 2] (j_z num meta j); TjaModel.set_array num meta AImpErr [length (j_periods num meta j); length (rows AImp); 2] (j_zerr num meta j)] ++
       [TjaModel.set_array num meta ATip [length (j_periods num meta j); length (rows ATip); 2] (j_t num meta j); TjaModel.set_array num meta ATipErr [length (j_periods num meta j); length (rows ATip); 2] (j_terr num meta j)] ++ [set_meta num meta (j_meta num meta j)])) (with_meta t m) = (with_meta t3 (j_meta num meta j), None)).
    rewrite steps_app. cbn [steps]. unfold set_periods. cbn [w_tf w_meta]. rewrite E1. rewrite steps_app, E2, steps_app, E3. reflexivity. }
  split; [congruence|]. split; [exact C3|]. split; [rewrite P3, P2; exact P1|].
  split; [intros p r c o i R I; rewrite O3; [exact (A2 p r c o i R I)|right; left; apply nth_error_In in R; cbn in R |- *; intros [<-|[]]; intuition discriminate]|].
  split; [intros p r c o i R I; rewrite O3; [exact (B2 p r c o i R I)|right; left; apply nth_error_In in R; cbn in R |- *; intros [<-|[]]; intuition discriminate]|].
  split; [exact A3|]. split; [exact B3|]. intros U v p o i V1 V2. rewrite O3, O2 by (left; split; assumption). apply Z1, U.
Qed.

(** An AVG file read likewise: the periods are one over its frequencies; a file without a tipper leaves the tipper of a new TF zero. *)
Theorem C133_avg (a : aobj num meta) t m : consistent t -> untouched t \/ length (a_freqs num meta a) = length (periods t) ->
  exists t', from_avg num meta a (with_meta t m) = (with_meta t' (a_meta num meta a), None) /\ t_names num t' = t_names num t /\ consistent t' /\
    same_periods (periods t') (map (fun f => (1 / f)%Q) (a_freqs num meta a)) = true /\
    holds t' VTf electric (a_z num meta a) /\ holds t' VErr electric (a_zerr num meta a) /\
    match a_tip num meta a with
    | Some (x, e) => holds t' VTf vertical x /\ holds t' VErr vertical e
    | None => untouched t -> forall v p i, entry t' v p Hz i = vzero num
    end /\
    (untouched t -> forall v p o i, v <> VTf -> v <> VErr -> entry t' v p o i = vzero num).
Proof.
  intros C H. destruct (settle (map Qinv (a_freqs num meta a)) t C) as (t1 & E1 & N1 & P1 & C1 & Z1 & _). { now rewrite map_length. }
  pose proof (same_length _ _ P1) as L1. rewrite map_length in L1.
  assert (Q1 : forall l l', same_periods l (map Qinv l') = true -> same_periods l (map (fun f => (1 / f)%Q) l') = true).
  { clear. induction l as [|x l IH]; intros [|y l']; cbn; try discriminate; [reflexivity|]. intros H. apply andb_true_iff in H. destruct H as (A & B). apply andb_true_iff. split; [|apply IH, B].
    apply Qeq_bool_iff in A. apply Qeq_bool_iff. rewrite A. unfold Qdiv. ring. }
  destruct (two_arrays num meta AImp AImpErr (length (a_freqs num meta a)) (a_z num meta a) (a_zerr num meta a) t1 (a_meta num meta a) (or_introl eq_refl) C1 L1) as (t2 & E2 & (N2 & P2) & C2 & A2 & B2 & O2).
  assert (L2 : length (periods t2) = length (a_freqs num meta a)) by congruence.
  assert (E : forall rest, steps num meta ([set_meta num meta (a_meta num meta a); set_periods num meta (map Qinv (a_freqs num meta a)); TjaModel.set_array num meta AImp [length (a_freqs num meta a); 2; 2] (a_z num meta a); TjaModel.set_array num meta AImpErr [length (a_freqs num meta a); 2; 2] (a_zerr num meta a)] ++ rest) (with_meta t m) = steps num meta rest (with_meta t2 (a_meta num meta a))).
  { intros rest. change (steps num meta ([set_meta num meta (a_meta num meta a); set_periods num meta (map Qinv (a_freqs num meta a))] ++ ([TjaModel.set_array num meta AImp [length (a_freqs num meta a); length (rows AImp); 2] (a_z num meta a); TjaModel.set_array num meta AImpErr [length (a_freqs num meta a); length (rows AImp); 2] (a_zerr num meta a)] ++ rest)) (with_meta t m) = steps num meta rest (with_meta t2 (a_meta num meta a))).
    rewrite steps_app. cbn [steps]. unfold set_meta, set_periods. cbn [w_tf w_meta]. rewrite E1. rewrite steps_app, E2. reflexivity. }
  unfold from_avg. rewrite E. destruct (a_tip num meta a) as [[x e]|].
  - destruct (two_arrays num meta ATip ATipErr (length (a_freqs num meta a)) x e t2 (a_meta num meta a) (or_intror eq_refl) C2 L2) as (t3 & E3 & (N3 & P3) & C3 & A3 & B3 & O3).
    exists t3. split; [exact E3|]. split; [congruence|]. split; [exact C3|]. split; [rewrite P3, P2; apply Q1, P1|].
    split; [intros p r c o i R I; rewrite O3; [exact (A2 p r c o i R I)|right; left; apply nth_error_In in R; cbn in R |- *; intros [<-|[]]; intuition discriminate]|].
    split; [intros p r c o i R I; rewrite O3; [exact (B2 p r c o i R I)|right; left; apply nth_error_In in R; cbn in R |- *; intros [<-|[]]; intuition discriminate]|].
    split; [split; [exact A3|exact B3]|]. intros U v p o i V1 V2. rewrite O3, O2 by (left; split; assumption). apply Z1, U.
  - exists t2. split; [reflexivity|]. split; [congruence|]. split; [exact C2|]. split; [rewrite P2; apply Q1, P1|]. split; [exact A2|]. split; [exact B2|]. split.
    + intros U v p i. rewrite O2; [apply Z1, U|right; left; cbn; intuition discriminate].
    + intros U v p o i V1 V2. rewrite O2 by (left; split; assumption). apply Z1, U.
Qed.

(** What the user then reads: the impedance if it has an entry that is not zero, otherwise None; the same for the tipper (where nan counts as zero). *)
Theorem C133_reads (j : jobj num meta) t m : consistent t -> untouched t \/ length (j_periods num meta j) = length (periods t) ->
  exists t', fst (from_jfile num meta j (with_meta t m)) = with_meta t' (j_meta num meta j) /\
  let n := length (j_periods num meta j) in
  ((exists p r c, p < n /\ r < 2 /\ c < 2 /\ is_zero num (j_z num meta j p r c) = false) ->
     exists l, get num AImp t' = Ok (Some l) /\ same_periods (l_periods num l) (j_periods num meta j) = true /\
       forall p r c o i, nth_error electric r = Some o -> nth_error [Hx; Hy] c = Some i -> l_at num l p (name (t_names num t) o) (name (t_names num t) i) = j_z num meta j p r c) /\
  ((forall p c, p < n -> c < 2 -> is_zero num (j_t num meta j p 0 c) = true \/ is_nan num (j_t num meta j p 0 c) = true) -> get num ATip t' = Ok None).
Proof.
  intros C H. destruct (C133_jfile j t m C H) as (t' & E & N & C' & P & A & _ & T & _ & _). exists t'. rewrite E. split; [reflexivity|]. cbn zeta. pose proof (same_length _ _ P) as L. split.
  - intros (p & r & c & Hp & Hr & Hc & Z).
    assert (R : exists o, nth_error electric r = Some o) by (destruct r as [|[|r]]; [eexists; reflexivity|eexists; reflexivity|lia]).
    assert (I : exists i, nth_error [Hx; Hy] c = Some i) by (destruct c as [|[|c]]; [eexists; reflexivity|eexists; reflexivity|lia]).
    destruct R as (o & R). destruct I as (i & I).
    assert (TH : there num AImp t'). { exists p, o, i. split; [lia|]. split; [exact (nth_error_In _ _ R)|]. split; [exact (nth_error_In _ _ I)|]. cbn [base part]. rewrite (A p r c o i R I). intros [X|(X & _)]; [congruence|discriminate]. }
    destruct (proj1 (C89_get num t' AImp C') TH) as (l & G & S1 & _ & _ & S4). exists l. split; [exact G|]. split; [rewrite S1; exact P|].
    intros p' r' c' o' i' R' I'. rewrite <- N, S4; [exact (A p' r' c' o' i' R' I')|exact (nth_error_In _ _ R')|exact (nth_error_In _ _ I')].
  - intros Z. apply (proj2 (C89_get num t' ATip C')). intros (p & o & i & Hp & Ho & Hi & NN). apply NN. clear NN. cbn [base rows cols part] in *.
    destruct Ho as [<-|[]]. assert (X : exists c, c < 2 /\ nth_error [Hx; Hy] c = Some i) by (destruct Hi as [<-|[<-|[]]]; [exists 0|exists 1]; split; (lia || reflexivity)).
    destruct X as (c & Hc & I). rewrite (T p 0 c Hz i eq_refl I). destruct (Z p c ltac:(lia) Hc) as [X|X]; [now left|right; auto].
Qed.

(** A TF that has another number of periods refuses: a J file leaves it as it was. *)
Theorem C133_refused (j : jobj num meta) t m : consistent t -> ~ untouched t -> length (j_periods num meta j) <> length (periods t) ->
  from_jfile num meta j (with_meta t m) = (with_meta t m, Some TFError).
Proof. intros C U L. unfold from_jfile. cbn [steps]. unfold set_periods. cbn [w_tf w_meta]. now rewrite (proj1 (period_used num _ t U C) L). Qed.

(** Refuted (an AVG file that is refused changes nothing): the metadata are those of the file afterwards, the data those of before. *)
Theorem C133_refused_refuted (a : aobj num meta) t m : consistent t -> ~ untouched t -> length (a_freqs num meta a) <> length (periods t) ->
  from_avg num meta a (with_meta t m) = (with_meta t (a_meta num meta a), Some TFError).
Proof.
  intros C U L. unfold from_avg. rewrite steps_app. cbn [steps]. unfold set_meta, set_periods. cbn [w_tf w_meta]. rewrite (proj1 (period_used num _ t U C)); [reflexivity|]. now rewrite map_length.
Qed.

(** Refuted (after reading, the TF holds the file and nothing else): in a TF that was used, an AVG file without tipper leaves the tipper of before,
    and both kinds of files leave the covariances and model errors of before. *)
Theorem C133_stale_refuted (a : aobj num meta) (j : jobj num meta) t m : consistent t -> ~ untouched t ->
  (length (a_freqs num meta a) = length (periods t) -> exists t', from_avg num meta a (with_meta t m) = (with_meta t' (a_meta num meta a), None) /\
     (forall v p o i, v <> VTf -> v <> VErr -> entry t' v p o i = entry t v p o i) /\
     (a_tip num meta a = None -> forall v p i, entry t' v p Hz i = entry t v p Hz i)) /\
  (length (j_periods num meta j) = length (periods t) -> exists t', from_jfile num meta j (with_meta t m) = (with_meta t' (j_meta num meta j), None) /\
     (forall v p o i, v <> VTf -> v <> VErr -> entry t' v p o i = entry t v p o i)).
Proof.
  intros C U. split; intros L.
  - destruct (settle (map Qinv (a_freqs num meta a)) t C) as (t1 & E1 & N1 & P1 & C1 & _ & Z1). { right. now rewrite map_length. }
    pose proof (same_length _ _ P1) as L1. rewrite map_length in L1. specialize (Z1 U).
    destruct (two_arrays num meta AImp AImpErr (length (a_freqs num meta a)) (a_z num meta a) (a_zerr num meta a) t1 (a_meta num meta a) (or_introl eq_refl) C1 L1) as (t2 & E2 & (N2 & P2) & C2 & A2 & B2 & O2).
    assert (L2 : length (periods t2) = length (a_freqs num meta a)) by congruence.
    assert (E : forall rest, steps num meta ([set_meta num meta (a_meta num meta a); set_periods num meta (map Qinv (a_freqs num meta a)); TjaModel.set_array num meta AImp [length (a_freqs num meta a); 2; 2] (a_z num meta a); TjaModel.set_array num meta AImpErr [length (a_freqs num meta a); 2; 2] (a_zerr num meta a)] ++ rest) (with_meta t m) = steps num meta rest (with_meta t2 (a_meta num meta a))).
    { intros rest. change (steps num meta ([set_meta num meta (a_meta num meta a); set_periods num meta (map Qinv (a_freqs num meta a))] ++ ([TjaModel.set_array num meta AImp [length (a_freqs num meta a); length (rows AImp); 2] (a_z num meta a); TjaModel.set_array num meta AImpErr [length (a_freqs num meta a); length (rows AImp); 2] (a_zerr num meta a)] ++ rest)) (with_meta t m) = steps num meta rest (with_meta t2 (a_meta num meta a))).
      rewrite steps_app. cbn [steps]. unfold set_meta, set_periods. cbn [w_tf w_meta]. rewrite E1. rewrite steps_app, E2. reflexivity. }
    unfold from_avg. rewrite E. destruct (a_tip num meta a) as [[x e]|].
    + destruct (two_arrays num meta ATip ATipErr (length (a_freqs num meta a)) x e t2 (a_meta num meta a) (or_intror eq_refl) C2 L2) as (t3 & E3 & (N3 & P3) & C3 & A3 & B3 & O3).
      exists t3. split; [exact E3|]. split; [|discriminate]. intros v p o i V1 V2. rewrite O3, O2 by (left; split; assumption). apply Z1.
    + exists t2. split; [reflexivity|]. split; [intros v p o i V1 V2; rewrite O2 by (left; split; assumption); apply Z1|].
      intros _ v p i. rewrite O2; [apply Z1|right; left; cbn; intuition discriminate].
  - destruct (settle (j_periods num meta j) t C (or_intror L)) as (t1 & E1 & N1 & P1 & C1 & _ & Z1). pose proof (same_length _ _ P1) as L1. specialize (Z1 U).
    destruct (two_arrays num meta AImp AImpErr (length (j_periods num meta j)) (j_z num meta j) (j_zerr num meta j) t1 m (or_introl eq_refl) C1 L1) as (t2 & E2 & (N2 & P2) & C2 & A2 & B2 & O2).
    assert (L2 : length (periods t2) = length (j_periods num meta j)) by congruence.
    destruct (two_arrays num meta ATip ATipErr (length (j_periods num meta j)) (j_t num meta j) (j_terr num meta j) t2 m (or_intror eq_refl) C2 L2) as (t3 & E3 & (N3 & P3) & C3 & A3 & B3 & O3).
    exists t3. split.
    { unfold from_jfile. change (steps num meta ([set_periods num meta (j_periods num meta j)] ++ ([TjaModel.set_array num meta AImp [length (j_periods num meta j); length (rows AImp); 2] (j_z num meta j); TjaModel.set_array num meta AImpErr [length (j_periods num meta j); length (rows AImp); 2] (j_zerr num meta j)] ++
       [TjaModel.set_array num meta ATip [length (j_periods num meta j); length (rows ATip); 2] (j_t num meta j); TjaModel.set_array num meta ATipErr [length (j_periods num meta j); length (rows ATip); 2] (j_terr num meta j)] ++ [set_meta num meta (j_meta num meta j)])) (with_meta t m) = (with_meta t3 (j_meta num meta j), None)).
      rewrite steps_app. cbn [steps]. unfold set_periods. cbn [w_tf w_meta]. rewrite E1. rewrite steps_app, E2, steps_app, E3. reflexivity. }
    intros v p o i V1 V2. rewrite O3, O2 by (left; split; assumption). apply Z1.
Qed.
End Props.

(** Concrete cases. *)
Definition new_tf (l : list Q) : tf z_nums := mkTf z_nums default_names [] (initialize z_nums default_names l).
Lemma new_tf_consistent l : consistent z_nums (new_tf l).
Proof. split; [intros [] []; cbn; intros H; try reflexivity; discriminate H|intros []; cbn; tauto]. Qed.
Definition some_j : jobj z_nums nat :=
  mkJ z_nums nat [2%Q; 8%Q] (fun p r c => Some (Z.of_nat (10 * p + 2 * r + c))) (fun p r c => Some 1%Z) (fun p r c => Some 0%Z) (fun p r c => Some 3%Z) 7.
Definition some_a (tip : option _) : aobj z_nums nat := mkA z_nums nat [2%Q; (1 # 4)%Q] (fun p r c => Some (Z.of_nat (10 * p + 2 * r + c))) (fun p r c => Some 1%Z) tip 7.
Example C133_jfile_hyp : consistent z_nums (new_tf [1%Q]) /\ untouched z_nums (new_tf [1%Q]) /\
  let w := from_jfile z_nums nat some_j (mkWhole z_nums nat (new_tf [1%Q]) 0) in
  snd w = None /\ w_meta z_nums nat (fst w) = 7 /\ entry z_nums (w_tf z_nums nat (fst w)) VTf 1 Ey Hx = Some 12%Z /\ entry z_nums (w_tf z_nums nat (fst w)) VErr 1 Hz Hy = Some 3%Z /\
  get z_nums ATip (w_tf z_nums nat (fst w)) = Ok None.
Proof. split; [apply new_tf_consistent|]. split; [exists 1%Q; split; reflexivity|]. cbn zeta. repeat split. Qed.
Example C133_avg_hyp : let w := from_avg z_nums nat (some_a (Some (fun p r c => Some 4%Z, fun p r c => Some 5%Z))) (mkWhole z_nums nat (new_tf [1%Q]) 0) in
  snd w = None /\ periods z_nums (w_tf z_nums nat (fst w)) = [(1 # 2)%Q; 4%Q] /\ entry z_nums (w_tf z_nums nat (fst w)) VTf 1 Hz Hx = Some 4%Z.
Proof. repeat split. Qed.
(** A TF of two periods with a tipper. *)
Definition used : tf z_nums := fst (set z_nums ATip (GArray z_nums [2; 1; 2] (fun _ _ _ => Some 9%Z)) (new_tf [2%Q; 3%Q])).
Example C133_stale_hyp : consistent z_nums used /\ ~ untouched z_nums used /\ length (a_freqs z_nums nat (some_a None)) = length (periods z_nums used) /\
  entry z_nums (w_tf z_nums nat (fst (from_avg z_nums nat (some_a None) (mkWhole z_nums nat used 0)))) VTf 1 Hz Hy = Some 9%Z.
Proof.
  split; [exact (new_tf_consistent [2%Q; 3%Q])|]. split; [intros (q & E & _); discriminate E|]. split; reflexivity.
Qed.
Example C133_refused_hyp : consistent z_nums (new_tf [2%Q]) /\ ~ untouched z_nums (new_tf [2%Q]) /\ length (j_periods z_nums nat some_j) <> length (periods z_nums (new_tf [2%Q])) /\
  length (a_freqs z_nums nat (some_a None)) <> length (periods z_nums (new_tf [2%Q])).
Proof.
  split; [apply new_tf_consistent|]. split; [intros (q & E & Q1); injection E as <-; discriminate Q1|]. split; discriminate.
Qed.
Example C133_reads_hyp : exists p r c, p < 2 /\ r < 2 /\ c < 2 /\ is_zero z_nums (j_z z_nums nat some_j p r c) = false.
Proof. exists 1, 0, 0. repeat split; lia. Qed.

Print Assumptions C133_jfile.
Print Assumptions C133_avg.
Print Assumptions C133_reads.
Print Assumptions C133_stale_refuted.
