(** Proofs for C141. *)
From Verif Require Import PyBase PyFacts PyText TextFacts NmcModel NmcSpec.
From Coq Require Import Lia.
Local Open Scope list_scope.
Local Open Scope nat_scope.

Lemma nth_update {A} (x : A) l : forall n m, nth_error (update n x l) m = if Nat.eqb n m then option_map (fun _ => x) (nth_error l m) else nth_error l m.
Proof.
  induction l as [|y l IH]; intros n m; [destruct n, m; cbn [update nth_error option_map]; try reflexivity; destruct (Nat.eqb (S n) (S m)); reflexivity|].
  destruct n as [|n], m as [|m]; cbn [update nth_error Nat.eqb option_map]; try reflexivity. apply IH.
Qed.
Lemma update_length {A} (x : A) l : forall n, length (update n x l) = length l.
Proof. induction l as [|y l IH]; intros [|n]; cbn [update length]; try reflexivity. f_equal. apply IH. Qed.
Lemma nth_by_error {A} (e : A) l : forall m, nth m l e = match nth_error l m with Some x => x | None => e end.
Proof. induction l as [|y l IH]; intros [|m]; cbn [nth nth_error]; try reflexivity. apply IH. Qed.
Lemma nth_update_d {A} (x e : A) l n m : nth m (update n x l) e = if Nat.eqb n m then (if Nat.ltb m (length l) then x else e) else nth m l e.
Proof.
  rewrite !nth_by_error, nth_update. destruct (Nat.eqb n m); [|reflexivity]. destruct (Nat.ltb_spec m (length l)) as [L|L].
  - destruct (nth_error l m) eqn:E; [reflexivity|]. apply nth_error_None in E. lia.
  - assert (N : nth_error l m = None) by (apply nth_error_None; exact L). rewrite N. reflexivity.
Qed.

(* ---------------------------------------------------------------- names of a dictionary *)

Lemma names_in_unique d n m : names_in d n -> names_in d m -> n = m.
Proof.
  intros N M.
  assert (H : forall c v w, In (c, v) (name_list n) -> In (c, w) (name_list m) -> v = w).
  { intros c v w I J. specialize (N c v I). specialize (M c w J). congruence. }
  destruct n as [n1 n2 n3 n4 n5], m as [m1 m2 m3 m4 m5]. unfold name_list in H. cbn [n_ex n_ey n_hx n_hy n_hz] in H.
  f_equal; [apply (H (txt "ex"))|apply (H (txt "ey"))|apply (H (txt "hx"))|apply (H (txt "hy"))|apply (H (txt "hz"))]; cbn [In]; tauto.
Qed.
Lemma names_in_iff d n : names_in d n <-> get (txt "ex") d = Some (n_ex n) /\ get (txt "ey") d = Some (n_ey n) /\ get (txt "hx") d = Some (n_hx n) /\ get (txt "hy") d = Some (n_hy n) /\ get (txt "hz") d = Some (n_hz n).
Proof.
  unfold names_in, name_list. split.
  - intros H. repeat split; apply H; cbn [In]; tauto.
  - intros (A & B & C & D & E) c v I. cbn [In] in I. destruct I as [I|[I|[I|[I|[I|[]]]]]]; injection I as <- <-; assumption.
Qed.
Lemma set_names_Some d m n l : names_in d m -> set_names d n l = (m, m, None).
Proof. intros H. apply names_in_iff in H as (A & B & C & D & E). unfold set_names. rewrite A, B, C, D, E. destruct m. reflexivity. Qed.
Lemma set_names_cases d n l : (exists m, names_in d m) \/ (exists n', set_names d n l = (n', l, Some KeyError)) /\ exists c, In c comps /\ get c d = None.
Proof.
  unfold set_names. destruct (get (txt "ex") d) as [a|] eqn:A; [|right; split; [eexists; reflexivity|exists (txt "ex"); split; [unfold comps; cbn [In]; tauto|exact A]]].
  destruct (get (txt "ey") d) as [b|] eqn:B; [|right; split; [eexists; reflexivity|exists (txt "ey"); split; [unfold comps; cbn [In]; tauto|exact B]]].
  destruct (get (txt "hx") d) as [c|] eqn:C; [|right; split; [eexists; reflexivity|exists (txt "hx"); split; [unfold comps; cbn [In]; tauto|exact C]]].
  destruct (get (txt "hy") d) as [e|] eqn:D; [|right; split; [eexists; reflexivity|exists (txt "hy"); split; [unfold comps; cbn [In]; tauto|exact D]]].
  destruct (get (txt "hz") d) as [f|] eqn:E; [|right; split; [eexists; reflexivity|exists (txt "hz"); split; [unfold comps; cbn [In]; tauto|exact E]]].
  left. exists (mkNames a b c e f). apply names_in_iff. repeat split; assumption.
Qed.
Lemma set_names_None d n l n' l' : set_names d n l = (n', l', None) -> names_in d n' /\ l' = n'.
Proof.
  intros H. destruct (set_names_cases d n l) as [(m & M)|[(x & E) _]]; [|rewrite E in H; discriminate H]. rewrite (set_names_Some d m n l M) in H. injection H as <- <-. split; [exact M|reflexivity].
Qed.
Lemma names_in_nil n : ~ names_in [] n.
Proof. intros H. apply names_in_iff in H as (A & _). discriminate A. Qed.
Lemma names_in_more d d' n : (forall c v, get c d = Some v -> get c d' = Some v) -> names_in d n -> names_in d' n.
Proof. intros M H c v I. apply M. exact (H c v I). Qed.

(* ---------------------------------------------------------------- ZMM *)

Lemma zmm_fill_get cs : forall d c, get c (zmm_fill cs d) = match get c d with Some v => Some v | None => if in_dec text_dec c cs then Some c else None end.
Proof.
  induction cs as [|a cs IH]; intros d c; cbn [zmm_fill].
  - destruct (get c d); reflexivity.
  - rewrite IH. destruct (get a d) as [v|] eqn:A.
    + destruct (get c d) eqn:C; [reflexivity|]. destruct (in_dec text_dec c cs) as [I|I], (in_dec text_dec c (a :: cs)) as [J|J]; try reflexivity; exfalso; [apply J; right; exact I|].
      destruct J as [->|J]; [congruence|exact (I J)].
    + unfold get, put. rewrite (dget_dset text_dec). destruct (text_dec c a) as [->|N].
      * change (dget text_dec a d) with (get a d). rewrite A. destruct (in_dec text_dec a (a :: cs)) as [_|J]; [reflexivity|]. exfalso. apply J. left. reflexivity.
      * change (dget text_dec c d) with (get c d). destruct (get c d); [reflexivity|]. destruct (in_dec text_dec c cs) as [I|I], (in_dec text_dec c (a :: cs)) as [J|J]; try reflexivity; exfalso; [apply J; right; exact I|].
        destruct J as [->|J]; [apply N; reflexivity|exact (I J)].
Qed.
Lemma zmm_fill_same cs : forall d, (forall c, In c cs -> get c d <> None) -> zmm_fill cs d = d.
Proof.
  induction cs as [|a cs IH]; intros d H; [reflexivity|]. cbn [zmm_fill]. destruct (get a d) eqn:A; [|exfalso; exact (H a (or_introl eq_refl) A)]. apply IH. intros c I. apply H. right. exact I.
Qed.
Lemma zmm_fill_app cs : forall d, NoDup cs -> zmm_fill cs d = d ++ map (fun c => (c, c)) (filter (fun c => match get c d with Some _ => false | None => true end) cs).
Proof.
  induction cs as [|a cs IH]; intros d N; [cbn [zmm_fill filter map]; rewrite app_nil_r; reflexivity|]. inversion N as [|x y N1 N2]; subst. cbn [zmm_fill filter]. destruct (get a d) as [v|] eqn:A; [apply IH; exact N2|].
  rewrite IH by exact N2. unfold put. rewrite dset_notin by (apply (dget_None text_dec); exact A). rewrite <- app_assoc. cbn [map app]. do 3 f_equal.
  assert (G : forall c, In c cs -> get c (d ++ [(a, a)]) = get c d).
  { intros c I. unfold get. rewrite dget_app. destruct (dget text_dec c d); [reflexivity|]. cbn [dget]. destruct (text_dec c a) as [->|]; [contradiction|reflexivity]. }
  clear -G. induction cs as [|c cs IH]; [reflexivity|]. cbn [filter]. rewrite G by (left; reflexivity). destruct (get c d); [apply IH|f_equal; apply IH]; intros e I; apply G; right; exact I.
Qed.
Lemma zmm_default : zmm_fill zmm_comps default_dict = default_dict.
Proof. vm_compute. reflexivity. Qed.

(* ---------------------------------------------------------------- dictionaries in the heap *)

Lemma dict_zmm s r q : dict_at (fst (step s (NewZmm r))) q = dict_at s q \/ q < length (heap s) /\ exists d, (d = dict_at s q \/ d = zmm_fill zmm_comps (dict_at s q)) /\ dict_at (fst (step s (NewZmm r))) q = zmm_fill zmm_comps d.
Proof.
  unfold dict_at. cbn [step fst heap]. rewrite !nth_update_d, update_length. destruct (Nat.eqb_spec r q) as [E|E].
  - subst q. destruct (Nat.ltb_spec r (length (heap s))) as [L|L].
    + right. split; [exact L|]. exists (dict_at s r). split; [left; reflexivity|reflexivity].
    + left. rewrite nth_overflow by exact L. reflexivity.
  - destruct (Nat.eqb_spec 0 q) as [F|F].
    + subst q. destruct (Nat.ltb_spec 0 (length (heap s))) as [L|L]; [|left; rewrite nth_overflow by exact L; reflexivity]. right. split; [exact L|]. exists (dict_at s 0). split; [left; reflexivity|reflexivity].
    + left. reflexivity.
Qed.
Lemma dict_zmm_more s r q c v : get c (dict_at s q) = Some v -> get c (dict_at (fst (step s (NewZmm r))) q) = Some v.
Proof.
  intros H. destruct (dict_zmm s r q) as [-> | (_ & d & D & ->)]; [exact H|]. rewrite zmm_fill_get. destruct D as [-> | ->]; [rewrite H; reflexivity|]. rewrite zmm_fill_get, H. reflexivity.
Qed.
Lemma dict_step s o q c v : ~ edits o -> get c (dict_at s q) = Some v -> get c (dict_at (fst (step s o)) q) = Some v.
Proof.
  intros N H. destruct o as [d|r k w| |i r|i|i|r].
  - cbn [step fst]. unfold dict_at in *. cbn [heap]. rewrite app_nth1; [exact H|]. destruct (Nat.ltb_spec q (length (heap s))) as [L|L]; [exact L|]. rewrite nth_overflow in H by exact L. discriminate H.
  - exfalso. apply N. exists r, k, w. reflexivity.
  - cbn [step]. destruct (set_obj s (mkObj 0 blank blank [] []) 0) as [x [e|]]; [exact H|]. destruct (initialize s x) as [c0 l0]. exact H.
  - cbn [step]. destruct (nth_error (objs s) i) as [x|]; [|exact H]. destruct (set_obj s x r) as [y e]. exact H.
  - cbn [step]. destruct (nth_error (objs s) i) as [x|]; [|exact H]. destruct (initialize s x) as [c0 l0]. exact H.
  - cbn [step]. destruct (nth_error (objs s) i) as [x|]; exact H.
  - apply dict_zmm_more. exact H.
Qed.

(* ---------------------------------------------------------------- the invariant of clean histories *)

Definition good_obj (s : state) (x : obj) : Prop := names_in (dict_at s (o_ref x)) (o_names x) /\ o_lists x = o_names x.
Definition good (s : state) : Prop :=
  (forall x, In x (objs s) -> good_obj s x) /\ forall d l, In (d, l) (cache s) -> exists n, names_in d n /\ l = all_names n.
Lemma same_dict_get a b c v : same_dict a b = true -> get c a = Some v -> get c b = Some v.
Proof.
  unfold same_dict. intros H G. apply andb_true_iff in H as [_ H]. rewrite forallb_forall in H. apply (dget_In text_dec) in G. specialize (H _ G). cbn [fst snd] in H. destruct (get c b) as [w|]; [|discriminate H].
  apply text_eqb_eq in H. subst w. reflexivity.
Qed.
Lemma initialize_good s x : good s -> good_obj s x -> snd (initialize s x) = all_names (o_names x) /\ forall d l, In (d, l) (fst (initialize s x)) -> exists n, names_in d n /\ l = all_names n.
Proof.
  intros [_ C] [N _]. unfold initialize, cached. destruct (List.find (fun e => same_dict (fst e) (dict_at s (o_ref x))) (cache s)) as [[d l]|] eqn:F; cbn [option_map snd fst].
  - apply find_some in F as [I S]. cbn [fst] in S. destruct (C d l I) as (n & M & ->). split; [|exact C]. f_equal. apply (names_in_unique (dict_at s (o_ref x))); [|exact N].
    intros c v J. exact (same_dict_get _ _ c v S (M c v J)).
  - split; [reflexivity|]. intros d l [E|I]; [|exact (C d l I)]. injection E as <- <-. exists (o_names x). split; [exact N|reflexivity].
Qed.
Lemma In_update {A} (x y : A) l n : In y (update n x l) -> y = x \/ In y l.
Proof.
  revert n. induction l as [|z l IH]; intros [|n] I; cbn [update] in I; [destruct I|destruct I| |].
  - destruct I as [<-|I]; [left; reflexivity|right; right; exact I].
  - destruct I as [<-|I]; [right; left; reflexivity|]. destruct (IH n I) as [->|J]; [left; reflexivity|right; right; exact J].
Qed.
Lemma good_step s o : good s -> ~ edits o -> snd (step s o) = None -> good (fst (step s o)).
Proof.
  intros G N E. assert (K : forall x, good_obj s x -> good_obj (fst (step s o)) x).
  { intros x [A B]. split; [|exact B]. intros c v I. apply dict_step; [exact N|exact (A c v I)]. }
  destruct G as [GO GC]. assert (G : good s) by (split; assumption).
  assert (T : forall x c, set_obj s x c = (fst (set_obj s x c), None) -> good_obj s (fst (set_obj s x c))).
  { intros x c S. unfold set_obj in *. destruct (set_names (dict_at s c) (o_names x) (o_lists x)) as [[n l] e] eqn:M. cbn [fst] in *. injection S as S. subst e. apply set_names_None in M as [M ->]. split; [exact M|reflexivity]. }
  split.
  - intros x I. apply K. destruct o as [d|r k w| |i r|i|i|r]; try (exact (GO x I)).
    + cbn [step] in I, E. destruct (set_obj s (mkObj 0 blank blank [] []) 0) as [y [e|]] eqn:S; [exact (GO x I)|]. specialize (T (mkObj 0 blank blank [] []) 0). rewrite S in T. specialize (T eq_refl). cbn [fst] in T.
      destruct (initialize s y) as [c0 l0]. cbn [fst objs] in I. apply in_app_or in I as [I|[<-|[]]]; [exact (GO x I)|exact T].
    + cbn [step] in I, E. destruct (nth_error (objs s) i) as [y|] eqn:Y; [|exact (GO x I)]. specialize (T y r). destruct (set_obj s y r) as [z e] eqn:S. cbn [snd] in E. subst e. specialize (T eq_refl). cbn [fst objs] in I, T.
      apply In_update in I as [->|I]; [exact T|exact (GO x I)].
    + cbn [step] in I. destruct (nth_error (objs s) i) as [y|] eqn:Y; [|exact (GO x I)]. apply nth_error_In in Y. destruct (initialize s y) as [c0 l0]. cbn [fst objs] in I. apply In_update in I as [->|I]; [exact (GO y Y)|exact (GO x I)].
    + cbn [step] in I. destruct (nth_error (objs s) i) as [y|] eqn:Y; [|exact (GO x I)]. apply nth_error_In in Y. cbn [fst objs] in I. apply In_update in I as [->|I]; [exact (GO y Y)|exact (GO x I)].
  - intros d l I. destruct o as [d0|r k w| |i r|i|i|r]; try (exact (GC d l I)).
    + cbn [step] in I, E. destruct (set_obj s (mkObj 0 blank blank [] []) 0) as [y [e|]] eqn:S; [exact (GC d l I)|]. specialize (T (mkObj 0 blank blank [] []) 0). rewrite S in T. specialize (T eq_refl). cbn [fst] in T.
      destruct (initialize_good s y G T) as [_ C]. destruct (initialize s y) as [c0 l0]. cbn [fst cache] in I, C. exact (C d l I).
    + cbn [step] in I. destruct (nth_error (objs s) i) as [y|]; [|exact (GC d l I)]. destruct (set_obj s y r) as [z e]. exact (GC d l I).
    + cbn [step] in I. destruct (nth_error (objs s) i) as [y|] eqn:Y; [|exact (GC d l I)]. apply nth_error_In in Y. destruct (initialize_good s y G (GO y Y)) as [_ C]. destruct (initialize s y) as [c0 l0]. cbn [fst cache] in I, C. exact (C d l I).
    + cbn [step] in I. destruct (nth_error (objs s) i) as [y|]; exact (GC d l I).
Qed.
Lemma good_run l : forall s, good s -> clean s l -> good (run s l).
Proof.
  induction l as [|o l IH]; intros s G C; [exact G|]. inversion C as [|s0 o0 l0 N E C']; subst. unfold run. cbn [fold_left]. apply IH; [|exact C']. apply good_step; assumption.
Qed.
Lemma good_start : good start.
Proof. split; intros; contradiction. Qed.
