From Coq Require Import Qabs Qpower Lqa.
From Verif Require Import PyBase PyFacts PyText TextFacts PyNum IsoModel PyFloat PyFloatFacts PySci PySciFacts EdiModel EdiSpec EdiProofs EdiFile EdiNumbers.
Local Open Scope Z_scope.
Open Scope list_scope.

(** ** The second file is the first *)
Lemma map_value (g : Q -> pynum) l l2 : (forall x, In x l -> exists v, g x = Fin v /\ printed x v) ->
  Forall2 (fun p q => p = Fin q) (map g l) l2 -> Forall2 printed l l2.
Proof.
  revert l2. induction l as [|x l IH]; intros l2 H F; cbn [map] in F; inversion F as [|? q ? l3 E F']; subst; constructor.
  - destruct (H x (or_introl eq_refl)) as (v & E1 & E2). rewrite E1 in E. injection E as <-. exact E2.
  - apply IH; [intros y I; apply H; right; exact I|exact F'].
Qed.
Lemma map_value2 (g : Q -> pynum) l l2 : (forall p, In p l -> (exists v, g (fst p) = Fin v /\ printed (fst p) v) /\ (exists v, g (snd p) = Fin v /\ printed (snd p) v)) ->
  Forall2 (on_pair (fun p q => p = Fin q)) (map (fun p => (g (fst p), g (snd p))) l) l2 -> Forall2 (on_pair printed) l l2.
Proof.
  revert l2. induction l as [|x l IH]; intros l2 H F; cbn [map] in F; inversion F as [|? q ? l3 [E E'] F']; subst; constructor.
  - cbn [fst snd] in E, E'. destruct (H x (or_introl eq_refl)) as [(v & E1 & E2) (w & E3 & E4)]. rewrite E1 in E. rewrite E3 in E'.
    split; [injection E as <-; exact E2|injection E' as <-; exact E4].
  - apply IH; [intros y I; apply H; right; exact I|exact F'].
Qed.
Lemma seen_printed empty e n e2 : sizes n e -> good_marker empty -> all_numbers (writable empty) e ->
  same_data (fun p q => p = Fin q) (seen empty e) e2 -> printed_data e e2.
Proof.
  intros (S1 & S2 & S3 & S4 & S5 & S6) G (N1 & N2 & N3 & N4 & N5 & N6) (D1 & D2 & D3 & D4 & D5 & D6).
  unfold seen in *. cbn [e_freq e_rot e_z e_zvar e_t e_tvar] in *.
  assert (GV : forall key l, Forall (writable empty) l -> forall x, In x l -> exists v, got empty key x = Fin v /\ printed x v).
  { intros key l H x I. rewrite Forall_forall in H. exact (got_value empty key x G (H x I)). }
  assert (GP : forall key (l : list (Q * Q)), Forall (fun p => writable empty (fst p) /\ writable empty (snd p)) l ->
     forall p, In p l -> (exists v, got empty key (fst p) = Fin v /\ printed (fst p) v) /\ (exists v, got empty key (snd p) = Fin v /\ printed (snd p) v)).
  { intros key l H p I. rewrite Forall_forall in H. destruct (H p I) as [A B]. split; apply got_value; assumption. }
  assert (T : no_tipper e = false -> (forall c, Forall2 (on_pair printed) (e_t e c) (e_t e2 c)) /\ (forall c, Forall2 printed (e_tvar e c) (e_tvar e2 c))).
  { intros NT. split; intros c; specialize (D5 c); specialize (D6 c); rewrite NT in D5, D6.
    - exact (map_value2 _ _ _ (GP _ _ (N5 c)) D5).
    - exact (map_value _ _ _ (GV _ _ (N6 c)) D6). }
  repeat split.
  - exact (map_value _ _ _ (GV _ _ N1) D1).
  - exact (map_value _ _ _ (GV _ _ N2) D2).
  - intros c. exact (map_value2 _ _ _ (GP _ _ (N3 c)) (D3 c)).
  - intros c. exact (map_value _ _ _ (GV _ _ (N4 c)) (D4 c)).
  - destruct (no_tipper e) eqn:NT.
    + apply zero_tipper. intros c. specialize (D5 c). unfold zeros in D5. apply Forall_forall. intros p I.
      assert (X : forall m l2, Forall2 (on_pair (fun p q => p = Fin q)) (repeat (Fin 0%Q, Fin 0%Q) m) l2 -> forall p : Q * Q, In p l2 -> (fst p == 0 /\ snd p == 0)%Q).
      { clear. induction m as [|m IH]; cbn [repeat]; intros l2 F p I; inversion F as [|? q ? l3 [E1 E2] F']; subst; [destruct I|].
        destruct I as [<-|I]; [|exact (IH _ F' p I)]. cbn [fst snd] in E1, E2. injection E1 as <-. injection E2 as <-. split; reflexivity. }
      exact (X _ _ D5 p I).
    + destruct (T eq_refl) as [T1 _]. destruct (no_tipper e2) eqn:N2'; [|reflexivity]. exfalso.
      assert (C : no_tipper e = true); [|congruence]. apply zero_tipper. intros c. pose proof (proj1 (zero_tipper e2) N2' c) as Z2. specialize (T1 c).
      clear - Z2 T1. induction T1 as [|p q l l' [A B] F IH]; [constructor|]. inversion Z2 as [|? ? [Z3 Z4] Z5]; subst. constructor; [|exact (IH Z5)].
      unfold printed in A, B. split; apply (sci_value_zero 6); [rewrite <- A|rewrite <- B]; assumption.
  - intros c. apply (proj1 (T H)).
  - intros c. apply (proj2 (T H)).
Qed.

(** ** Blocks of any file *)
Definition accepted_dict (d : blocks) : Prop := NoDup (dkeys d) /\ forall k l, In (k, l) d -> In k accepted_keys.
Lemma dset_accepted k l d : In k accepted_keys -> accepted_dict d -> accepted_dict (dset text_dec k l d).
Proof.
  intros I [N A]. split; [apply NoDup_dset; exact N|]. intros k' l' J.
  assert (K : In k' (dkeys (dset text_dec k l d))) by (apply in_map_iff; exists (k', l'); split; [reflexivity|exact J]).
  rewrite dkeys_dset in K. assert (K2 : k' = k \/ In k' (dkeys d)).
  { destruct (in_dec text_dec k (dkeys d)); [right; exact K|]. apply in_app_or in K as [K|[K|[]]]; [right; exact K|left; symmetry; exact K]. }
  destruct K2 as [->|K2]; [exact I|]. unfold dkeys in K2. apply in_map_iff in K2 as ([k2 l2] & E & K2). cbn [fst] in E. subst k2. exact (A _ _ K2).
Qed.
Lemma read_line_accepted empty st line : accepted_dict (rs_dict st) -> accepted_dict (rs_dict (read_line empty st line)).
Proof.
  intros A. unfold read_line. cbv zeta. destruct (_ && _)%bool.
  - destruct (split_ws _) as [|w ws]; [exact A|]. destruct (existsb _ _) eqn:E; [|exact A]. cbn [rs_dict].
    apply dset_accepted; [|exact A]. apply existsb_exists in E as (k & I & E). apply text_eqb_eq in E. rewrite E. exact I.
  - destruct (_ && _)%bool; [|exact A]. destruct (dget text_dec (rs_key st) (rs_dict st)) as [l|] eqn:D; [|exact A]. cbn [rs_dict].
    apply dset_accepted; [|exact A]. apply dget_In in D. exact (proj2 A _ _ D).
Qed.
Lemma read_blocks_accepted empty lines : accepted_dict (read_blocks empty lines).
Proof.
  unfold read_blocks. assert (G : forall st, accepted_dict (rs_dict st) -> accepted_dict (rs_dict (fold_left (read_line empty) lines st))).
  { induction lines as [|l lines IH]; intros st A; [exact A|]. cbn [fold_left]. apply IH, read_line_accepted, A. }
  apply G. split; [constructor|intros k l []].
Qed.
(** Of the accepted keys one holds the errors of a component. *)
Lemma fill_error_of d (key vkey : text) n : accepted_dict d ->
  forallb (fun k => implb (contains key k && contains (txt "var") k) (text_eqb k vkey))%bool accepted_keys = true ->
  (contains key vkey && contains (txt "var") vkey)%bool = true ->
  fill_error n d key = match dget text_dec vkey d with
                       | None => Ok (zeros (Fin 0%Q) n)
                       | Some l => if Nat.eqb (List.length l) n then Ok l else Err ValueError
                       end.
Proof.
  intros [N A] U V. unfold fill_error.
  assert (E : filter (fun kv : text * list pynum => (contains key (fst kv) && contains (txt "var") (fst kv))%bool) d =
              match dget text_dec vkey d with None => [] | Some l => [(vkey, l)] end).
  { rewrite forallb_forall in U. revert N A. induction d as [|[k l] d IH]; intros N A; [reflexivity|]. cbn [filter fst dget].
    unfold dkeys in N. cbn [map fst] in N. inversion N as [|? ? N0 N1]; subst.
    assert (IH' := IH N1 (fun k' l' I => A k' l' (or_intror I))). pose proof (U k (A k l (or_introl eq_refl))) as Uk.
    destruct (text_dec vkey k) as [<-|NE].
    - rewrite V. f_equal. rewrite IH'. destruct (dget text_dec vkey d) eqn:D; [|reflexivity]. apply dget_In in D.
      exfalso. apply N0. apply in_map_iff. exists (vkey, l0). split; [reflexivity|exact D].
    - destruct (contains key k && contains (txt "var") k)%bool; cbn [implb] in Uk; [apply text_eqb_eq in Uk; congruence|exact IH']. }
  rewrite E. destruct (dget text_dec vkey d); reflexivity.
Qed.
Definition zvar_key (c : zc) : text := zkey c ++ txt ".var".
Definition tvar_key (c : tc) : text := tkey c ++ txt "var.exp".
Lemma fill_z_of d c n a b zz vv : accepted_dict d -> dget text_dec (zkey c ++ txt "r") d = Some a -> dget text_dec (zkey c ++ txt "i") d = Some b ->
  fill_z n d c = Ok (zz, vv) -> List.length a = n /\ List.length b = n /\ zz = combine a b /\ List.length vv = n /\
  forall v, dget text_dec (zvar_key c) d = Some v -> vv = v.
Proof.
  intros A Ea Eb F. unfold fill_z, fill, fill_complex in F. rewrite Ea, Eb in F. destruct (_ && _)%bool eqn:L; [|discriminate F]. cbn [bindR] in F.
  apply andb_prop in L as [L1 L2]. apply Nat.eqb_eq in L1. apply Nat.eqb_eq in L2.
  rewrite (fill_error_of d (zkey c) (zvar_key c) n A) in F by (destruct c; vm_compute; reflexivity).
  destruct (dget text_dec (zvar_key c) d) as [l|].
  - destruct (Nat.eqb_spec (List.length l) n) as [L3|]; [|discriminate F]. cbn [bindR] in F.
    assert (F1 : zz = combine a b /\ vv = l) by (split; congruence). destruct F1 as [-> ->]. repeat split; [exact L1|exact L2|exact L3|congruence].
  - cbn [bindR] in F. assert (F1 : zz = combine a b /\ vv = zeros (Fin 0%Q) n) by (split; congruence). destruct F1 as [-> ->].
    repeat split; [exact L1|exact L2|apply repeat_length|discriminate].
Qed.
Lemma fill_t_of d c n a b zz vv : accepted_dict d -> dget text_dec (tkey c ++ txt "r.exp") d = Some a -> dget text_dec (tkey c ++ txt "i.exp") d = Some b ->
  fill_t n d c = Ok (zz, vv) -> List.length a = n /\ List.length b = n /\ zz = combine a b /\ List.length vv = n /\
  forall v, dget text_dec (tvar_key c) d = Some v -> vv = v.
Proof.
  intros A Ea Eb F. unfold fill_t, fill, fill_complex in F. rewrite Ea, Eb in F. destruct (_ && _)%bool eqn:L; [|discriminate F]. cbn [bindR] in F.
  apply andb_prop in L as [L1 L2]. apply Nat.eqb_eq in L1. apply Nat.eqb_eq in L2.
  rewrite (fill_error_of d (tkey c) (tvar_key c) n A) in F by (destruct c; vm_compute; reflexivity).
  destruct (dget text_dec (tvar_key c) d) as [l|].
  - destruct (Nat.eqb_spec (List.length l) n) as [L3|]; [|discriminate F]. cbn [bindR] in F.
    assert (F1 : zz = combine a b /\ vv = l) by (split; congruence). destruct F1 as [-> ->]. repeat split; [exact L1|exact L2|exact L3|congruence].
  - cbn [bindR] in F. assert (F1 : zz = combine a b /\ vv = zeros (Fin 0%Q) n) by (split; congruence). destruct F1 as [-> ->].
    repeat split; [exact L1|exact L2|apply repeat_length|discriminate].
Qed.

(** ** What reading does to the order *)
Lemma read_mt_inv empty lines e' : read_mt empty lines = Ok e' ->
  let d := read_blocks empty lines in
  exists f e0, dget text_dec (txt "freq") d = Some f /\ e_freq e0 = f /\
    (forall c, fill_z (List.length f) d c = Ok (e_z e0 c, e_zvar e0 c)) /\ (forall c, fill_t (List.length f) d c = Ok (e_t e0 c, e_tvar e0 c)) /\
    (forall l, dget text_dec (txt "zrot") d = Some l -> e_rot e0 = l) /\
    descend e0 = Ok e'.
Proof.
  unfold read_mt. cbv zeta. set (d := read_blocks empty lines). intros H.
  destruct (dget text_dec (txt "freq") d) as [f|]; [|discriminate H].
  destruct (fill_z (List.length f) d ZYY) as [yy|] eqn:E1; [|discriminate H]. cbn [bindR] in H.
  destruct (fill_z (List.length f) d ZYX) as [yx|] eqn:E2; [|discriminate H]. cbn [bindR] in H.
  destruct (fill_z (List.length f) d ZXY) as [xy|] eqn:E3; [|discriminate H]. cbn [bindR] in H.
  destruct (fill_z (List.length f) d ZXX) as [xx|] eqn:E4; [|discriminate H]. cbn [bindR] in H.
  destruct (fill_t (List.length f) d TY) as [ty|] eqn:E5; [|discriminate H]. cbn [bindR] in H.
  destruct (fill_t (List.length f) d TX) as [tx|] eqn:E6; [|discriminate H]. cbn [bindR] in H.
  set (rot := match dget text_dec (txt "zrot") d with Some l => l | None => _ end) in H.
  exists f. exists (mkEdi f rot (fun c => fst match c with ZXX => xx | ZXY => xy | ZYX => yx | ZYY => yy end)
    (fun c => snd match c with ZXX => xx | ZXY => xy | ZYX => yx | ZYY => yy end)
    (fun c => fst match c with TX => tx | TY => ty end) (fun c => snd match c with TX => tx | TY => ty end)).
  cbn [e_freq e_z e_zvar e_t e_tvar e_rot]. split; [reflexivity|]. split; [reflexivity|].
  split; [intros c; destruct c; rewrite <- surjective_pairing; assumption|]. split; [intros c; destruct c; rewrite <- surjective_pairing; assumption|].
  split.
  - intros l L. unfold rot. rewrite L. reflexivity.
  - unfold descend in *. cbn [e_freq e_rot e_z e_zvar e_t e_tvar] in *. destruct f as [|f0 [|f1 f]]; [discriminate H|discriminate H|].
    destruct (pylt f0 f1); cbn [bindR e_freq e_rot e_z e_zvar e_t e_tvar] in H; exact H.
Qed.
Lemma nth_error_rev {A : Type} (l : list A) i : (i < List.length l)%nat -> nth_error (rev l) i = nth_error l (List.length l - S i).
Proof.
  intros H. destruct l as [|x l]; [cbn in H; lia|]. set (m := x :: l) in *.
  rewrite (nth_error_nth' (rev m) x) by (rewrite rev_length; exact H). rewrite (nth_error_nth' m x) by lia. rewrite rev_nth by exact H. reflexivity.
Qed.
Lemma ordered_app {A : Type} (R : A -> A -> Prop) a b : ordered R a -> ordered R b -> (forall x y, In x a -> In y b -> R x y) -> ordered R (a ++ b).
Proof.
  induction a as [|x a IH]; intros OA OB H; [exact OB|]. destruct OA as [O1 O2]. cbn [app ordered]. split.
  - intros y I. apply in_app_or in I as [I|I]; [exact (O1 y I)|apply H; [left; reflexivity|exact I]].
  - apply IH; [exact O2|exact OB|intros u v Iu Iv; apply H; [right; exact Iu|exact Iv]].
Qed.
Lemma ordered_rev {A : Type} (R : A -> A -> Prop) l : ordered R l -> ordered (fun x y => R y x) (rev l).
Proof.
  induction l as [|x l IH]; intros O; [exact I|]. destruct O as [O1 O2]. cbn [rev]. apply ordered_app; [exact (IH O2)|split; [intros y []|exact I]|].
  intros u v Iu [<-|[]]. apply O1, in_rev. exact Iu.
Qed.
Lemma number_lt_pylt a b : number_lt a b -> pylt a b = true /\ pylt b a = false.
Proof.
  intros [x y L]. cbn [pylt]. split.
  - apply negb_true_iff. destruct (Qle_bool y x) eqn:E; [apply Qle_bool_iff in E; exfalso; lra|reflexivity].
  - apply negb_false_iff, Qle_bool_iff. lra.
Qed.
