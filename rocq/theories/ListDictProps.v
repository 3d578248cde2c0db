(** C01-C05: properties of [ListDict]. *)
From Coq Require Import Permutation Sorted.
From Verif Require Import PyBase PyFacts ListDictModel ListDictSpec ListDictProofs.

(** A container a program can build from an empty one with the public operations. *)
Definition reachable {A} (d : home A) : Prop := exists ops, d = fst (run [] ops).

Lemma reachable_NoDup {A} (d : home A) : reachable d -> NoDup (dkeys d).
Proof. intros [ops ->]. apply run_NoDup. constructor. Qed.

(** Some concrete objects for the non-vacuity examples. *)
Definition oid (s : string) (n : nat) : obj nat := mkObj (Some (KStr s)) None n.
Definition oanon (n : nat) : obj nat := mkObj None None n.
Definition ocomp (s : string) (n : nat) : obj nat := mkObj None (Some (KStr s)) n.
Definition sample_ops : list (op nat) :=
  [OAppend (oid "b" 1); OAppend (ocomp "a" 2); OAppend (oanon 3); OSet (IStr "b") (oid "x" 4);
   ORemove (IInt 1); OSet (IInt 7) (oid "a" 5); OExtend [(KStr "q", oanon 6)] []].
Definition sample : home nat := fst (run [] sample_ops).
Example sample_value :
  sample = [(KStr "b", oid "x" 4); (KStr "2", oanon 3); (KStr "a", oid "a" 5); (KStr "q", oanon 6)].
Proof. reflexivity. Qed.
Example sample_reachable : reachable sample.
Proof. exists sample_ops. reflexivity. Qed.

(** *** C01 *)
(** Every history of map operations, with its results, is a history of the abstract ordered
    map, and the container shows exactly the abstract content. *)
Theorem C01_listdict_refines_ordered_map :
  forall (A : Type) (ops : list (op A)),
    Forall is_map_op ops ->
    exists m0 m, empty_map m0 /\
      spec_run m0 ops m (snd (run [] ops)) /\ observe (fst (run [] ops)) m.
Proof.
  intros A ops HF. exists (absd []), (absd (fst (run [] ops))).
  split; [split; reflexivity|]. split; [|apply observe_absd].
  apply run_spec; [constructor|assumption].
Qed.
Example C01_refines_hyp : Forall is_map_op sample_ops.
Proof. repeat constructor. Qed.

Theorem C01_keys_stay_unique :
  forall (A : Type) (ops : list (op A)), NoDup (map fst (fst (run [] ops))).
Proof. intros A ops. apply (run_NoDup ops []). constructor. Qed.

(** A key holds the last value stored under it since its last removal. *)
Theorem C01_lookup_is_last_write :
  forall (A : Type) (h : list (write A)) (s : string),
    getitem (fst (run [] (write_ops h))) (IStr s) =
    match last_write (KStr s) h None with Some v => Ok (inl v) | None => Err KeyError end.
Proof.
  intros A h s. unfold getitem. rewrite (last_write_run (KStr s) h []) by constructor. reflexivity.
Qed.
Example C01_last_write_case :
  getitem (fst (run [] (write_ops [W (KStr "a") (oid "a" 1); W (KStr "b") (oid "b" 2);
     D (KStr "a"); W (KStr "a") (oid "a" 3); W (KStr "b") (oid "b" 4)]))) (IStr "a") = Ok (inl (oid "a" 3)).
Proof. reflexivity. Qed.

(** An operation that raises leaves the container as it was ... *)
Theorem C01_raise_leaves_unchanged :
  forall (A : Type) (d : home A) (o : op A) (e : exn),
    reachable d ->
    (forall other, o = OUpdate true other -> forall v, ~ In (KNone, v) other) ->
    snd (step d o) = Raised e -> fst (step d o) = d.
Proof. intros A d o e R. apply step_raise_unchanged. now apply reachable_NoDup. Qed.
Example C01_raise_case : snd (step sample (ORemove (IStr "zz"))) = Raised KeyError.
Proof. reflexivity. Qed.

(** ... except [update] from a ListDict holding an object whose id is [None]: it raises half-way
    and keeps what it had stored. *)
Theorem C01_update_atomic_refuted :
  exists (d other : home nat) (e : exn),
    reachable d /\ reachable other /\
    snd (step d (OUpdate true other)) = Raised e /\ fst (step d (OUpdate true other)) <> d.
Proof.
  exists [], (fst (run [] [OAppend (oid "a" 1); OAppend (mkObj (Some KNone) None 2)])), TypeError.
  split; [exists []; reflexivity|]. split; [eexists; reflexivity|].
  split; [reflexivity|]. vm_compute. discriminate.
Qed.

Lemma app_app_s a b c : ((a ++ b) ++ c = a ++ (b ++ c))%string.
Proof. induction a as [|x a IH]; [reflexivity|]. cbn [String.append]. rewrite IH. reflexivity. Qed.
Lemma digits_decimal f : forall n acc, n < f -> exists s, nat_digits f n acc = (s ++ acc)%string /\ decimal s n.
Proof.
  induction f as [|f IH]; intros n acc L; [lia|]. cbn [nat_digits]. destruct (n <? 10)%nat eqn:E.
  - apply Nat.ltb_lt in E. rewrite (Nat.mod_small n 10 E). eexists. split; [|constructor; exact E]. reflexivity.
  - apply Nat.ltb_ge in E. pose proof (Nat.div_mod n 10 ltac:(lia)) as D. pose proof (Nat.mod_upper_bound n 10 ltac:(lia)) as M.
    assert (0 < n / 10) by (apply Nat.div_str_pos; lia). assert (n / 10 < n) by (apply Nat.div_lt; lia).
    destruct (IH (n / 10) (String (ascii_of_nat (48 + n mod 10)) acc)) as (s & S & P); [lia|]. exists (s ++ String (ascii_of_nat (48 + n mod 10)) "")%string.
    split; [rewrite S, app_app_s; reflexivity|]. rewrite D at 2. apply d_more; assumption.
Qed.
Lemma str_nat_decimal n : decimal (str_nat n) n.
Proof. unfold str_nat. destruct (digits_decimal (S n) n ""%string (Nat.lt_succ_diag_r n)) as (s & E & P). rewrite E. replace (s ++ "")%string with s; [exact P|]. clear. induction s as [|a s IH]; [reflexivity|]. cbn [String.append]. f_equal. exact IH. Qed.
(** The key an object without a name gets is the decimal numeral of its position. *)
Theorem C01_fallback_key_is_decimal : (forall n, decimal (str_nat n) n) /\ forall z, numeral (str_int z) z.
Proof.
  split; [exact str_nat_decimal|]. intros z. unfold numeral, str_int. destruct (Z.ltb_spec z 0) as [L|L]; [right|left]; (split; [lia|]); [eexists; split; [reflexivity|]|]; apply str_nat_decimal.
Qed.
Example C01_fallback_hyp : str_int 120 = "120"%string /\ str_int (-7) = "-7"%string.
Proof. split; reflexivity. Qed.

(** *** C02 *)
Theorem C02_position_agrees_with_key :
  forall (A : Type) (d : home A) (n : nat) (k : key) (v : obj A),
    reachable d -> nth_error d n = Some (k, v) ->
    getitem d (IInt (Z.of_nat n)) = Ok (inl v) /\
    nth_error (map fst d) n = Some k /\
    (forall s, k = KStr s -> getitem d (IStr s) = Ok (inl v)).
Proof.
  intros A d n k v R N. pose proof (reachable_NoDup d R) as ND. split; [|split].
  - apply (getitem_int d (Z.of_nat n) k v ND); [lia|]. now rewrite Nat2Z.id.
  - now rewrite nth_error_map, N.
  - intros s ->. unfold getitem. apply nth_error_In in N.
    unfold hget. now rewrite (In_dget key_dec _ _ d ND N).
Qed.
Example C02_position_case : nth_error sample 1 = Some (KStr "2", oanon 3).
Proof. reflexivity. Qed.

Theorem C02_integer_out_of_range_raises :
  forall (A : Type) (d : home A) (z : Z),
    (z < 0)%Z \/ (Z.of_nat (length d) <= z)%Z -> getitem d (IInt z) = Err KeyError.
Proof.
  intros A d z H. unfold getitem, key_from_index. destruct (Z.ltb_spec z 0); [reflexivity|].
  destruct (nth_error (dkeys d) (Z.to_nat z)) eqn:E; [|reflexivity].
  exfalso. assert (Z.to_nat z < length (dkeys d)) by (apply nth_error_Some; congruence).
  unfold dkeys in *. rewrite map_length in *. lia.
Qed.

Theorem C02_slice_is_position_range :
  forall (A : Type) (d : home A) (start stop : slice_end) (a b : nat),
    reachable d ->
    endpoint (map fst d) 0 start a -> endpoint (map fst d) (length d) stop b ->
    exists r, getitem d (ISlice start stop None) = Ok (inr r) /\ between d a b r.
Proof. intros A d ea eb a b R. apply getitem_slice. now apply reachable_NoDup. Qed.
Example C02_slice_case :
  endpoint (map fst sample) 0 (SStr "2") 1 /\ endpoint (map fst sample) (length sample) (SInt (-1)) 3 /\
  getitem sample (ISlice (SStr "2") (SInt (-1)) None) =
    Ok (inr [(KStr "2", oanon 3); (KStr "a", oid "a" 5)]).
Proof.
  split; [constructor; reflexivity|]. split; [|reflexivity].
  apply (ep_neg _ _ 3 1); reflexivity || lia.
Qed.

(** A key end point that is not a key, or an end point of another type, raises. *)
Theorem C02_slice_bad_endpoint_raises :
  forall (A : Type) (d : home A) (s : string) (stop : slice_end) (st : option Z),
    ~ In (KStr s) (map fst d) ->
    getitem d (ISlice (SStr s) stop st) = Err KeyError /\
    getitem d (ISlice SOther stop st) = Err TypeError.
Proof.
  intros A d s stop st H. split; [|reflexivity]. simpl. unfold index_from_key.
  pose proof (index_of_spec (KStr s) (dkeys d) 0) as S.
  destruct (index_of (KStr s) (dkeys d) 0) as [j|e]; simpl.
  - exfalso. destruct S as (n & _ & N & _). apply H. eapply nth_error_In; eauto.
  - destruct S as [-> _]. reflexivity.
Qed.

(** *** C03 *)
Theorem C03_sort_permutes_into_key_order :
  forall (A : Type) (d : home A),
    reachable d -> (forall v, ~ In (KNone, v) d) ->
    exists d', sort d = (d', Done) /\ Permutation d d' /\ StronglySorted key_le (map fst d').
Proof.
  intros A d R HN. pose proof (reachable_NoDup d R) as ND.
  assert (NK : ~ In KNone (dkeys d)).
  { unfold dkeys. intros H. apply in_map_iff in H. destruct H as ([k v] & E & H).
    simpl in E; subst. eapply HN; eauto. }
  pose proof (sort_spec d ND) as S. destruct (sort d) as [d' [|e|?|?]] eqn:E; try contradiction.
  - exists d'. destruct S as (HP & HG & HS).
    assert (ND' : NoDup (dkeys d')) by (eapply Permutation_NoDup; eauto).
    split; [reflexivity|]. split.
    + apply NoDup_Permutation.
      * eapply NoDup_map_inv; exact ND.
      * eapply NoDup_map_inv; exact ND'.
      * intros [k v]; split; intros H.
        -- apply (In_dget key_dec) in H; [|assumption]. apply (dget_In key_dec).
           unfold hget in HG. now rewrite HG.
        -- apply (In_dget key_dec) in H; [|assumption]. apply (dget_In key_dec).
           unfold hget in HG. now rewrite <- HG.
    + destruct HS as [HS|HS]; [|exact HS].
      apply Permutation_length in HP. fold (dkeys d').
      destruct (dkeys d') as [|x [|y l]]; simpl in HP; try lia; repeat constructor.
  - exfalso. intuition.
Qed.
Example C03_sort_case :
  (forall v, ~ In (KNone, v) sample) /\
  sort sample = ([(KStr "2", oanon 3); (KStr "a", oid "a" 5); (KStr "b", oid "x" 4); (KStr "q", oanon 6)], Done).
Proof. split; [|reflexivity]. intros v. rewrite sample_value. simpl. intuition discriminate. Qed.

Theorem C03_sort_idempotent :
  forall (A : Type) (d d1 : home A),
    reachable d -> sort d = (d1, Done) -> sort d1 = (d1, Done).
Proof. intros A d d1 R. apply sort_idempotent. now apply reachable_NoDup. Qed.

(** With a [None] key next to another key, sorting raises and changes nothing. *)
Theorem C03_sort_none_key_raises :
  forall (A : Type) (d : home A) (v : obj A),
    reachable d -> In (KNone, v) d -> 1 < length d -> sort d = (d, Raised TypeError).
Proof.
  intros A d v R H L. unfold sort, sorted_keys.
  assert (HN : In KNone (dkeys d)) by (apply in_map_iff; exists (KNone, v); auto).
  destruct (all_strings (dkeys d)) as [ss|] eqn:E.
  - apply all_strings_Some in E. rewrite E in HN. apply in_map_iff in HN.
    destruct HN as (x & Hx & _). discriminate.
  - unfold dkeys in *. rewrite map_length. apply Nat.ltb_lt in L. now rewrite L.
Qed.
Example C03_none_case :
  sort (fst (run [] [OAppend (oid "a" 1); OAppend (mkObj (Some KNone) None 2)])) =
  ([(KStr "a", oid "a" 1); (KNone, mkObj (Some KNone) None 2)], Raised TypeError).
Proof. reflexivity. Qed.

(** *** C04 *)
(** As stated the property fails: popping the first key removes the last one. *)
Theorem C04_pop_removes_requested_refuted :
  exists (d : home nat) (k : key) (v : obj nat),
    reachable d /\ In (k, v) d /\
    snd (pop d k) <> Popped (k, v) /\ In (k, v) (fst (pop d k)).
Proof.
  exists sample, (KStr "b"), (oid "x" 4). split; [apply sample_reachable|].
  rewrite sample_value. split; [now left|]. split.
  - vm_compute. discriminate.
  - vm_compute. now left.
Qed.

(** What [pop] does instead: any non-empty present key pops the last item. *)
Theorem C04_pop_returns_last_item :
  forall (A : Type) (l : home A) (k : key) (v : obj A) (s : string),
    In (KStr s) (map fst (l ++ [(k, v)])) -> s <> ""%string ->
    pop (l ++ [(k, v)]) (KStr s) = (l, Popped (k, v)).
Proof. intros A l k v s H Hs. now apply pop_truthy. Qed.

(** With the empty text or None for a key it is the first item that is returned and removed. *)
Theorem C04_pop_empty_key_returns_first :
  forall (A : Type) (l : home A) (k : key) (v : obj A) (q : key),
    In q (map fst ((k, v) :: l)) -> q = KStr "" \/ q = KNone ->
    pop ((k, v) :: l) q = (l, Popped (k, v)).
Proof.
  intros A l k v q H E. unfold pop. destruct (hmem q ((k, v) :: l)) eqn:M; [destruct E as [-> | ->]; reflexivity|].
  exfalso. unfold hmem in M. rewrite (proj2 (dmem_true key_dec q ((k, v) :: l)) H) in M. discriminate M.
Qed.
Example C04_empty_key_case : pop [(KStr "a", oanon 1); (KNone, oanon 2)] KNone = ([(KNone, oanon 2)], Popped (KStr "a", oanon 1)).
Proof. reflexivity. Qed.

(** So the property holds exactly when the requested key is the last one. *)
Theorem C04_pop_removes_requested_iff_last_partial :
  forall (A : Type) (d : home A) (s : string) (v : obj A),
    reachable d -> s <> ""%string -> In (KStr s, v) d ->
    (snd (pop d (KStr s)) = Popped (KStr s, v) <-> exists l, d = l ++ [(KStr s, v)]).
Proof.
  intros A d s v R Hs H.
  assert (exists l k w, d = l ++ [(k, w)]) as (l & k & w & ->).
  { destruct (rev d) as [|[k w] r] eqn:E.
    - apply (f_equal (@rev _)) in E. rewrite rev_involutive in E. subst. contradiction.
    - exists (rev r), k, w. rewrite <- (rev_involutive d), E. reflexivity. }
  rewrite (pop_truthy (l ++ [(k, w)]) k w s l eq_refl); [|exact (in_map fst _ _ H)|assumption].
  simpl. split.
  - intros E. injection E as -> ->. now exists l.
  - intros [l' E]. apply app_inj_tail in E. destruct E as [_ ->]. reflexivity.
Qed.
Example C04_last_case : snd (pop sample (KStr "q")) = Popped (KStr "q", oanon 6).
Proof. reflexivity. Qed.

Theorem C04_pop_missing_raises :
  forall (A : Type) (d : home A) (k : key),
    ~ In k (map fst d) -> pop d k = (d, Raised KeyError).
Proof.
  intros A d k H. unfold pop. destruct (hmem k d) eqn:E; [|reflexivity].
  apply dmem_true in E. contradiction.
Qed.

(** *** C05 *)
(** With distinct current names nothing is lost and the order is kept. *)
Theorem C05_update_keys_rekeys :
  forall (A : Type) (d : home A) (ks : list key),
    reachable d ->
    Forall2 (fun kv k => names (snd kv) (fst kv) k) d ks -> NoDup ks ->
    fst (update_keys d) = combine ks (map snd d).
Proof.
  intros A d ks R HF ND. rewrite update_keys_as_dupdate.
  assert (E : map (fun kv => (new_key (fst kv) (snd kv), snd kv)) d = combine ks (map snd d)).
  { clear -HF. induction HF as [|[k v] k' d ks H HF IH]; simpl; [reflexivity|].
    f_equal; [|exact IH]. f_equal. now apply new_key_names. }
  assert (E2 : dkeys (combine ks (map snd d)) = ks).
  { clear -HF. unfold dkeys. induction HF; simpl; [reflexivity|]. now f_equal. }
  rewrite E. apply dupdate_nil. now rewrite E2.
Qed.
Example C05_case :
  Forall2 (fun kv k => names (snd kv) (fst kv) k) sample [KStr "x"; KStr "2"; KStr "a"; KStr "q"] /\
  NoDup [KStr "x"; KStr "2"; KStr "a"; KStr "q"] /\
  update_keys sample =
   ([(KStr "x", oid "x" 4); (KStr "2", oanon 3); (KStr "a", oid "a" 5); (KStr "q", oanon 6)],
    Renamed [(KStr "b", KStr "x")]).
Proof.
  split; [|split; [|reflexivity]].
  - rewrite sample_value. repeat apply Forall2_cons; try apply Forall2_nil; now apply new_key_names.
  - repeat constructor; simpl; intuition discriminate.
Qed.

(** The returned dictionary is exactly the set of changed names. *)
Theorem C05_update_keys_reports_renames :
  forall (A : Type) (d : home A),
    reachable d ->
    exists r, snd (update_keys d) = Renamed r /\
      forall old new, In (old, new) r <->
        exists v, In (old, v) d /\ names v old new /\ old <> new.
Proof.
  intros A d R. pose proof (reachable_NoDup d R) as ND. eexists. split; [reflexivity|].
  assert (G : forall l acc, NoDup (dkeys l) -> NoDup (dkeys acc) ->
    (forall k, In k (dkeys l) -> ~ In k (dkeys acc)) -> forall old new,
    In (old, new) (fold_left (fun u (kv : key * obj A) => let nk := new_key (fst kv) (snd kv) in
       if key_dec (fst kv) nk then u else dset key_dec (fst kv) nk u) l acc) <->
    In (old, new) acc \/ exists v, In (old, v) l /\ new_key old v = new /\ old <> new).
  { induction l as [|[k v] l IH]; intros acc N1 N2 HD old new; simpl.
    - split; [now left|]. intros [H|(w & [] & _)]. exact H.
    - inversion N1 as [|? ? Hn N1']; subst.
      destruct (key_dec k (new_key k v)) as [E|E].
      + rewrite IH by (auto; intros a Ha; apply HD; now right). split.
        * intros [H|(w & H1 & H2 & H3)]; [now left|right; exists w; auto].
        * intros [H|(w & [H1|H1] & H2 & H3)]; [now left| |right; exists w; auto].
          exfalso. injection H1 as <- <-. congruence.
      + rewrite dset_notin by (apply HD; now left). rewrite IH.
        * rewrite in_app_iff. simpl. split.
          -- intros [[H|[H|[]]]|(w & H1 & H2 & H3)]; [now left| |right; exists w; auto].
             injection H as <- <-. right. exists v. auto.
          -- intros [H|(w & [H1|H1] & H2 & H3)]; [now auto| |right; exists w; auto].
             injection H1 as <- <-. subst. auto.
        * assumption.
        * unfold dkeys. rewrite map_app. apply NoDup_snoc; [assumption|]. apply HD. now left.
        * intros a Ha. unfold dkeys. rewrite map_app, in_app_iff. simpl.
          intros [Hb|[<-|[]]]; [apply (HD a); [now right|exact Hb]|contradiction]. }
  intros old new. rewrite (G d [] ND (NoDup_nil _)) by auto. simpl. split.
  - intros [[]|(v & H1 & H2 & H3)]. exists v. split; [assumption|]. split; [|assumption].
    now apply new_key_names.
  - intros (v & H1 & H2 & H3). right. exists v. split; [assumption|]. split; [|assumption].
    now apply new_key_names.
Qed.

(** With two objects carrying the same name one is silently lost. *)
Theorem C05_update_keys_loses_colliding_refuted :
  exists (d : home nat) (k : key) (v : obj nat),
    reachable d /\ In (k, v) d /\ ~ In v (map snd (fst (update_keys d))).
Proof.
  exists (fst (run [] [OSet (IStr "a") (oid "s" 1); OSet (IStr "b") (oid "s" 2)])), (KStr "a"), (oid "s" 1).
  split; [eexists; reflexivity|]. split; [now left|].
  vm_compute. intros [H|[]]. discriminate.
Qed.

(** In general a name holds the last object that carries it. *)
Theorem C05_update_keys_last_carrier_wins :
  forall (A : Type) (l1 l2 : home A) (old k : key) (v : obj A),
    names v old k ->
    (forall kv, In kv l2 -> ~ names (snd kv) (fst kv) k) ->
    hget k (fst (update_keys (l1 ++ (old, v) :: l2))) = Some v.
Proof.
  intros A l1 l2 old k v Hv Hl. rewrite update_keys_as_dupdate. unfold hget.
  rewrite dget_dupdate. rewrite map_app, rev_app_distr. simpl. rewrite !dget_app.
  assert (E : dget key_dec k (rev (map (fun kv => (new_key (fst kv) (snd kv), snd kv)) l2)) = None).
  { apply dget_None. unfold dkeys. rewrite <- map_rev, map_map. intros H.
    apply in_map_iff in H. destruct H as (kv & E & H). simpl in E.
    apply in_rev in H. apply (Hl kv H). now apply new_key_names. }
  rewrite E. simpl. apply new_key_names in Hv. rewrite Hv.
  destruct (key_dec k k); [reflexivity|congruence].
Qed.

(** Copying keeps every string-keyed item and its order. *)
Theorem C05_copy_keeps_items :
  forall (A : Type) (d : home A), reachable d -> (forall v, ~ In (KNone, v) d) -> copy d = d.
Proof.
  intros A d R HN. pose proof (reachable_NoDup d R) as ND. unfold copy.
  assert (E : forall acc, fold_left (fun c (kv : key * obj A) => match fst kv with
       | KStr s => fst (setitem c (IStr s) (snd kv)) | KNone => fst (setitem c INone (snd kv)) end) d acc
     = dupdate key_dec acc d).
  { clear -HN. induction d as [|[[|s] v] d IH]; intros acc; simpl; [reflexivity| |].
    - exfalso. eapply HN. now left.
    - apply IH. intros w H. apply (HN w). now right. }
  rewrite E. now apply dupdate_nil.
Qed.
Example C05_copy_case : copy sample = sample.
Proof. reflexivity. Qed.

Print Assumptions C01_listdict_refines_ordered_map.
Print Assumptions C01_keys_stay_unique.
Print Assumptions C01_lookup_is_last_write.
Print Assumptions C01_raise_leaves_unchanged.
Print Assumptions C02_slice_is_position_range.
Print Assumptions C03_sort_permutes_into_key_order.
Print Assumptions C03_sort_idempotent.
Print Assumptions C04_pop_removes_requested_iff_last_partial.
Print Assumptions C05_update_keys_rekeys.
Print Assumptions C05_update_keys_reports_renames.
