From Verif Require Import PyBase PyFacts PyText TextFacts PyFloat ZmmModel ZmmProofs ValidatorsProofs RemarkModel RemarkSpec RemarkProofs.
Local Open Scope list_scope.

Section Trip.
Variables (other run_update : text -> text -> list (text * text) -> option (list (text * text))) (part_update : text -> text -> part -> result part).
Notation parse := (parse_comments other run_update part_update).
Notation assign_all := (assign_all other).

(** An attribute and a value it can hold *)
Definition settable (kv : text * text) : Prop := In (fst kv) (station_keys ++ survey_keys) /\ ~ In "|"%char (snd kv) /\
  (fst kv = flag_key -> exists z, snd kv = show_int z) /\ (fst kv = status_key -> In (snd kv) release_values).

Lemma in_existsb k l : In k l -> existsb (text_eqb k) l = true.
Proof. intros H. apply existsb_exists. exists k. split; [exact H|apply text_eqb_refl]. Qed.

Lemma update_set k v a : settable (k, v) -> update other k v a = Some (dset text_dec k v a).
Proof.
  intros (I & NB & F & S). cbn [fst snd] in *. unfold update. fold flag_key. fold status_key. destruct (text_eqb k flag_key) eqn:E1.
  - apply text_eqb_eq in E1. destruct (F E1) as (z & ->). rewrite read_int_show. reflexivity.
  - destruct (text_eqb k status_key) eqn:E2.
    + apply text_eqb_eq in E2. rewrite (in_existsb _ _ (S E2)). reflexivity.
    + rewrite (in_existsb _ _ I). apply has_char_notIn in NB. rewrite NB. reflexivity.
Qed.

Lemma keys_dots k : In k (station_keys ++ survey_keys) -> has_char "." k = true.
Proof. revert k. apply Forall_forall. repeat constructor. Qed.
Lemma keys_ok k : In k (txt "description" :: station_keys ++ survey_keys) -> key_ok k.
Proof.
  assert (H : Forall (fun k => (negb (has_char ":" k) && text_eqb (strip k) k && negb (contains (txt "datalogger") k) && negb (contains (txt "fieldnotes") k) &&
    negb (contains (txt "processing") k))%bool = true) (txt "description" :: station_keys ++ survey_keys)) by (repeat constructor).
  rewrite Forall_forall in H. intros I. specialize (H k I). repeat (apply andb_prop in H; destruct H as [H ?]).
  repeat match goal with X : negb _ = true |- _ => apply Bool.negb_true_iff in X end. split; [apply has_char_notIn; assumption|].
  split; [apply text_eqb_eq; assumption|]. repeat split; assumption.
Qed.
Lemma keys_chars k : In k (txt "description" :: station_keys ++ survey_keys) -> ~ In newline k /\ ~ In "="%char k /\ ~ In ";"%char k.
Proof.
  assert (H : Forall (fun k => (negb (has_char newline k) && negb (has_char "=" k) && negb (has_char ";" k))%bool = true) (txt "description" :: station_keys ++ survey_keys)) by (repeat constructor).
  rewrite Forall_forall in H. intros I. specialize (H k I). repeat (apply andb_prop in H; destruct H as [H ?]).
  repeat match goal with X : negb _ = true |- _ => apply Bool.negb_true_iff in X end. repeat split; apply has_char_notIn; assumption.
Qed.

Lemma assign_settable k v e : settable (k, v) ->
  fst (assign other k v e []) = mkEmtf (e_description e) (dset text_dec k v (e_attrs e)) (e_free e) (e_notes e) (e_in e) (e_out e).
Proof. intros S. unfold assign. rewrite (keys_dots k (proj1 S)), (update_set _ _ _ S). reflexivity. Qed.

Lemma assign_all_attrs l : Forall settable l -> NoDup (map fst l) -> forall e, let e' := assign_all l e in
  e_description e' = e_description e /\ same_rest e' e /\
  forall k, attr k e' = match dget text_dec k l with Some v => v | None => attr k e end.
Proof.
  induction l as [|[k v] l IH]; intros F ND e; cbn [RemarkProofs.assign_all fold_left].
  - split; [reflexivity|]. split; [repeat split|]. intros k. reflexivity.
  - inversion F as [|? ? S F']; subst. inversion ND as [|? ? NI ND']; subst. cbn [fst snd]. rewrite (assign_settable k v e S).
    specialize (IH F' ND' (mkEmtf (e_description e) (dset text_dec k v (e_attrs e)) (e_free e) (e_notes e) (e_in e) (e_out e))).
    cbv zeta in IH. unfold RemarkProofs.assign_all in IH. destruct IH as (D & R & A). split; [exact D|]. split; [exact R|]. intros k'. rewrite (A k').
    cbn [dget]. destruct (text_dec k' k) as [-> |N].
    + assert (dget text_dec k l = None) as ->. { destruct (dget text_dec k l) eqn:G; [|reflexivity]. exfalso. apply NI. apply in_map_iff. exists (k, t). split; [reflexivity|]. apply (dget_In text_dec k t l G). }
      unfold attr. cbn [e_attrs]. rewrite dget_dset_eq. destruct (text_dec k k); [reflexivity|congruence].
    + destruct (text_dec k k'); [congruence|]. destruct (dget text_dec k' l); [reflexivity|]. unfold attr. cbn [e_attrs].
      rewrite dget_dset_neq by congruence. reflexivity.
Qed.

Lemma dget_given keys o k : NoDup keys ->
  dget text_dec k (filter (fun kv : text * text => nonempty (snd kv)) (map (fun k => (k, attr k o)) keys)) =
  if in_dec text_dec k keys then match attr k o with [] => None | v => Some v end else None.
Proof.
  induction keys as [|x keys IH]; intros ND; [reflexivity|]. inversion ND as [|? ? NI ND']; subst. specialize (IH ND'). cbn [map filter snd].
  destruct (attr x o) as [|c v] eqn:E.
  - cbn [nonempty]. rewrite IH. destruct (in_dec text_dec k (x :: keys)) as [I|I], (in_dec text_dec k keys) as [J|J]; try reflexivity.
    + destruct I as [-> |I]; [rewrite E; reflexivity|contradiction].
    + exfalso. apply I. right. exact J.
  - cbn [nonempty dget]. destruct (text_dec k x) as [-> |N].
    + rewrite E. destruct (in_dec text_dec x (x :: keys)) as [I|I]; [|exfalso; apply I; left; reflexivity].
      destruct (text_dec x x); [reflexivity|congruence].
    + destruct (text_dec x k); [congruence|]. rewrite IH. destruct (in_dec text_dec k (x :: keys)) as [I|I], (in_dec text_dec k keys) as [J|J]; try reflexivity.
      * destruct I as [I|I]; [congruence|contradiction].
      * exfalso. apply I. right. exact J.
Qed.

Lemma filter_keys keys o : incl (map fst (filter (fun kv : text * text => nonempty (snd kv)) (map (fun k => (k, attr k o)) keys))) keys.
Proof. intros k I. apply in_map_iff in I. destruct I as ([k' v] & E & I). cbn in E. subst k'. apply filter_In in I. destruct I as [I _]. apply in_map_iff in I. destruct I as (x & X & I). congruence. Qed.
Lemma filter_nodup keys o : NoDup keys -> NoDup (map fst (filter (fun kv : text * text => nonempty (snd kv)) (map (fun k => (k, attr k o)) keys))).
Proof.
  induction keys as [|x keys IH]; intros ND; [constructor|]. inversion ND as [|? ? NI ND']; subst. cbn [map filter snd]. destruct (nonempty (attr x o)).
  - cbn [map fst]. constructor; [|apply IH; exact ND']. intros I. apply NI. apply (filter_keys keys o). exact I.
  - apply IH; exact ND'.
Qed.
Lemma filter_settable keys o : incl keys (station_keys ++ survey_keys) -> (forall k, In k keys -> plain (attr k o)) ->
  (In flag_key keys -> flag_ok o) -> (In status_key keys -> status_ok o) ->
  Forall settable (filter (fun kv : text * text => nonempty (snd kv)) (map (fun k => (k, attr k o)) keys)).
Proof.
  intros I P F S. apply Forall_forall. intros [k v] X. apply filter_In in X. destruct X as [X NE]. apply in_map_iff in X.
  destruct X as (y & E & Y). injection E as -> <-. cbn [snd] in NE. split; [apply I; exact Y|]. cbn [fst snd].
  split; [exact (proj1 (proj2 (P k Y)))|]. split; intros ->.
  - destruct (F Y) as [Z|Z]; [rewrite Z in NE; discriminate NE|exact Z].
  - destruct (S Y) as [Z|Z]; [rewrite Z in NE; discriminate NE|exact Z].
Qed.

Lemma nodup_bool (l : list text) : (fix go l := match l with [] => true | x :: r => (negb (existsb (text_eqb x) r) && go r)%bool end) l = true -> NoDup l.
Proof.
  induction l as [|x l IH]; intros H; [constructor|]. apply andb_prop in H. destruct H as [A B]. constructor; [|apply IH; exact B].
  intros I. apply in_existsb in I. rewrite I in A. discriminate A.
Qed.
Lemma station_nodup : NoDup station_keys.
Proof. apply nodup_bool. reflexivity. Qed.
Lemma survey_nodup : NoDup survey_keys.
Proof. apply nodup_bool. reflexivity. Qed.
Lemma no_status : ~ In status_key station_keys.
Proof. intros I. apply in_existsb in I. discriminate I. Qed.
Lemma no_flag : ~ In flag_key survey_keys.
Proof. intros I. apply in_existsb in I. discriminate I. Qed.

Lemma attrs_over keys o e : incl keys (station_keys ++ survey_keys) -> NoDup keys -> (forall k, In k keys -> plain (attr k o)) ->
  (In flag_key keys -> flag_ok o) -> (In status_key keys -> status_ok o) ->
  let e' := assign_all (filter (fun kv : text * text => nonempty (snd kv)) (map (fun k => (k, attr k o)) keys)) e in
  e_description e' = e_description e /\ same_rest e' e /\
  (forall k, In k keys -> attr k e' = over (attr k o) (attr k e)) /\ (forall k, ~ In k keys -> attr k e' = attr k e).
Proof.
  intros I ND P F S e'. destruct (assign_all_attrs _ (filter_settable keys o I P F S) (filter_nodup keys o ND) e) as (D & R & A).
  split; [exact D|]. split; [exact R|]. split; intros k K; unfold e'; rewrite A, (dget_given keys o k ND); destruct (in_dec text_dec k keys); try contradiction.
  - destruct (attr k o); reflexivity.
  - reflexivity.
Qed.

Lemma station_trip o e : station_fine o -> exists e', parse (Some (station_comment o)) e = Ok e' /\
  description_of e' = over (description_of o) (description_of e) /\
  (forall k, In k station_keys -> attr k e' = over (attr k o) (attr k e)) /\
  (forall k, ~ In k station_keys -> attr k e' = attr k e) /\ same_rest e' e /\ e_free e' = Some [].
Proof.
  intros (P & OL & F). unfold station_comment. fold (description_of o).
  set (l := (txt "description", description_of o) :: map (fun k => (k, attr k o)) station_keys).
  assert (SND : map snd l = description_of o :: values station_keys o) by (unfold l, values; cbn [map snd]; rewrite map_map; reflexivity).
  assert (FST : forall k v, In (k, v) l -> In k (txt "description" :: station_keys ++ survey_keys)).
  { intros k v [I|I]; [left; congruence|]. apply in_map_iff in I. destruct I as (x & X & I). right. apply in_or_app. left. congruence. }
  pose proof (parse_pieces other run_update part_update l e) as PP. cbv zeta in PP. rewrite PP.
  - eexists. split; [reflexivity|].
    assert (E : assign_all (filter (fun kv => nonempty (snd kv)) l) e =
      assign_all (filter (fun kv : text * text => nonempty (snd kv)) (map (fun k => (k, attr k o)) station_keys))
        (match description_of o with [] => e | d => mkEmtf (Some d) (e_attrs e) (e_free e) (e_notes e) (e_in e) (e_out e) end)).
    { unfold l. cbn [filter snd]. destruct (description_of o) as [|c d]; [reflexivity|]. reflexivity. }
    rewrite E. clear E.
    destruct (attrs_over station_keys o (match description_of o with [] => e | d => mkEmtf (Some d) (e_attrs e) (e_free e) (e_notes e) (e_in e) (e_out e) end))
      as (D & R & A & B).
    + intros k K. apply in_or_app. left. exact K.
    + exact station_nodup.
    + intros k K. apply P. right. apply in_map_iff. exists k. split; [reflexivity|exact K].
    + intros _. exact F.
    + intros N. destruct (no_status N).
    + match type of D with e_description ?X = _ => set (e1 := X) in * end. clearbody e1. split.
      { unfold description_of at 1. cbn [e_description]. rewrite D. destruct (description_of o) as [|c d]; reflexivity. }
      split; [intros k K; change (attr k e1 = over (attr k o) (attr k e)); rewrite (A k K); destruct (description_of o); reflexivity|].
      split; [intros k K; change (attr k e1 = attr k e); rewrite (B k K); destruct (description_of o); reflexivity|].
      split; [|reflexivity]. destruct R as (R1 & R2 & R3). unfold same_rest. cbn [e_notes e_in e_out]. rewrite R1, R2, R3.
      destruct (description_of o); repeat split.
  - apply Forall_forall. intros [k v] I. cbn [fst]. split; [exact (keys_ok k (FST k v I))|].
    destruct I as [I|I]; [right; congruence|]. apply in_map_iff in I. destruct I as (x & X & I). left. apply keys_dots. apply in_or_app. left. congruence.
  - intros k v I. exact (keys_chars k (FST k v I)).
  - rewrite SND. exact P.
  - rewrite SND. exact OL.
Qed.

Lemma survey_trip o e : survey_fine o -> exists e', parse (Some (survey_comment o)) e = Ok e' /\ e_description e' = e_description e /\
  (forall k, In k survey_keys -> attr k e' = over (attr k o) (attr k e)) /\
  (forall k, ~ In k survey_keys -> attr k e' = attr k e) /\ same_rest e' e /\ e_free e' = Some [].
Proof.
  intros (P & OL & F). unfold survey_comment. set (l := map (fun k => (k, attr k o)) survey_keys).
  assert (SND : map snd l = values survey_keys o) by (unfold l, values; rewrite map_map; reflexivity).
  assert (FST : forall k v, In (k, v) l -> In k (station_keys ++ survey_keys)).
  { intros k v I. apply in_map_iff in I. destruct I as (x & X & I). apply in_or_app. right. congruence. }
  pose proof (parse_pieces other run_update part_update l e) as PP. cbv zeta in PP. rewrite PP.
  - eexists. split; [reflexivity|]. destruct (attrs_over survey_keys o e) as (D & R & A & B).
    + intros k K. apply in_or_app. right. exact K.
    + exact survey_nodup.
    + intros k K. apply P. apply in_map_iff. exists k. split; [reflexivity|exact K].
    + intros N. destruct (no_flag N).
    + intros _. exact F.
    + split; [exact D|]. split; [exact A|]. split; [exact B|]. split; [exact R|reflexivity].
  - apply Forall_forall. intros [k v] I. cbn [fst]. split; [exact (keys_ok k (or_intror (FST k v I)))|]. left. apply keys_dots. exact (FST k v I).
  - intros k v I. exact (keys_chars k (or_intror (FST k v I))).
  - rewrite SND. exact P.
  - rewrite SND. exact OL.
Qed.

(** ** Texts that never raise *)
Lemma contains_part (w p s : text) : contains w p = true -> (exists a b, s = a ++ p ++ b) -> contains w s = true.
Proof.
  intros C (a & b & ->). apply contains_spec in C. destruct C as (x & y & ->). apply contains_spec. exists (a ++ x), (y ++ b). rewrite !app_assoc. reflexivity.
Qed.
Lemma split_part c s p : In p (split_on c s) -> exists a b, s = a ++ p ++ b.
Proof.
  intros P. rewrite <- (join_split c s). revert P. generalize (split_on c s). induction l as [|q l IH]; [intros []|]. intros P. destruct l as [|r l].
  - destruct P as [-> |[]]. exists [], []. cbn. rewrite app_nil_r. reflexivity.
  - change (join [c] (q :: r :: l)) with (q ++ [c] ++ join [c] (r :: l)). destruct P as [-> |P].
    + exists [], ([c] ++ join [c] (r :: l)). reflexivity.
    + destruct (IH P) as (a & b & E). exists (q ++ [c] ++ a), b. rewrite E, !app_assoc. reflexivity.
Qed.
Lemma strip_part s : exists a b, s = a ++ strip s ++ b.
Proof.
  destruct (lstrip_decomp s) as (a & E & _). destruct (lstrip_decomp (rev (lstrip s))) as (b & E' & _).
  exists a, (rev b). unfold strip, rstrip. rewrite E at 1. f_equal. rewrite <- (rev_involutive (lstrip s)) at 1. rewrite E' at 1. rewrite rev_app_distr. reflexivity.
Qed.
Lemma map_part (f : ascii -> ascii) (w : text) s : (forall c x, In c w -> f x = c -> x = c) -> contains w (map f s) = true -> contains w s = true.
Proof.
  intros H C. apply contains_spec in C. destruct C as (a & b & E). apply map_eq_app in E. destruct E as (a' & r & -> & _ & E).
  apply map_eq_app in E. destruct E as (w' & b' & -> & W & _). apply contains_spec. exists a', b'. f_equal. f_equal.
  revert w W H. clear. induction w' as [|x w' IH]; intros w W H; destruct w as [|c w]; try discriminate W; [reflexivity|].
  cbn in W. injection W as W1 W2. f_equal; [apply (H c x); [left; reflexivity|exact W1]|]. apply IH; [exact W2|]. intros d y D. apply H. right. exact D.
Qed.
Lemma unfold_part (w s : text) : ~ In ";"%char w -> ~ In ":"%char w -> contains w (unfold_lines s) = true -> contains w s = true.
Proof.
  intros N1 N2. unfold unfold_lines. destruct (_ && _)%bool; [|trivial].
  change (txt ":") with [":"%char]. change (txt ";") with [";"%char]. rewrite !replace_char_map. intros C.
  apply (map_part (fun c => if Ascii.eqb c newline then ";"%char else c)).
  - intros c x I E. destruct (Ascii.eqb x newline); [subst c; contradiction|exact E].
  - apply (map_part (fun c => if Ascii.eqb c "=" then ":"%char else c)); [|exact C].
    intros c x I E. destruct (Ascii.eqb x "="); [subst c; contradiction|exact E].
Qed.

Lemma take_part_total p st : contains (txt "fieldnotes") p = false -> contains (txt "datalogger") p = false ->
  exists st', take_part other run_update part_update p st = Ok st'.
Proof.
  intros F D. destruct st as [e free]. unfold take_part. destruct (split1 ":" p) as [k0 [v0|]] eqn:S; [|eexists; reflexivity].
  apply split1_Some in S. destruct S as [S _].
  assert (KP : exists a b, p = a ++ strip k0 ++ b).
  { destruct (strip_part k0) as (a & b & E). exists a, (b ++ ":"%char :: v0). rewrite S. rewrite E at 1. rewrite <- !app_assoc. reflexivity. }
  assert (F' : contains (txt "fieldnotes") (strip k0) = false).
  { destruct (contains (txt "fieldnotes") (strip k0)) eqn:C; [|reflexivity]. rewrite (contains_part _ _ _ C KP) in F. discriminate F. }
  assert (D' : contains (txt "datalogger") (strip k0) = false).
  { destruct (contains (txt "datalogger") (strip k0)) eqn:C; [|reflexivity]. rewrite (contains_part _ _ _ C KP) in D. discriminate D. }
  rewrite F', D'. cbn [andb]. destruct (contains (txt "processing") (strip k0)); [|eexists; reflexivity].
  destruct (processing_key (strip k0)); eexists; reflexivity.
Qed.

Lemma parse_total s e : contains (txt "fieldnotes") s = false -> contains (txt "datalogger") s = false -> exists e', parse (Some s) e = Ok e'.
Proof.
  intros F D. unfold parse_comments.
  assert (H : forall p, In p (split_on ";" (unfold_lines s)) -> contains (txt "fieldnotes") p = false /\ contains (txt "datalogger") p = false).
  { intros p P. split.
    - destruct (contains (txt "fieldnotes") p) eqn:C; [|reflexivity]. rewrite <- F. symmetry. apply unfold_part.
      + cbn. intros I. repeat (destruct I as [I|I]; [discriminate I|]). exact I.
      + cbn. intros I. repeat (destruct I as [I|I]; [discriminate I|]). exact I.
      + exact (contains_part _ _ _ C (split_part _ _ _ P)).
    - destruct (contains (txt "datalogger") p) eqn:C; [|reflexivity]. rewrite <- D. symmetry. apply unfold_part.
      + cbn. intros I. repeat (destruct I as [I|I]; [discriminate I|]). exact I.
      + cbn. intros I. repeat (destruct I as [I|I]; [discriminate I|]). exact I.
      + exact (contains_part _ _ _ C (split_part _ _ _ P)). }
  assert (T : exists st', take_all other run_update part_update (split_on ";" (unfold_lines s)) (e, []) = Ok st').
  { revert H. generalize (split_on ";" (unfold_lines s)). generalize (e, @nil text). intros st l. revert st. induction l as [|p l IH]; intros st H.
    - eexists. reflexivity.
    - cbn [take_all]. destruct (take_part_total p st) as (st' & E); [apply H; left; reflexivity|apply H; left; reflexivity|]. rewrite E. cbn [bindR].
      apply IH. intros q Q. apply H. right. exact Q. }
  destruct T as ([e' free] & T). rewrite T. cbn [bindR]. eexists. reflexivity.
Qed.

(** ** Free texts *)
Lemma parse_free s e : ~ In ":"%char s -> ~ In newline s \/ ~ In "="%char s ->
  parse (Some s) e = Ok (mkEmtf (e_description e) (e_attrs e) (Some (join (txt "; ") (split_on ";" s))) (e_notes e) (e_in e) (e_out e)).
Proof.
  intros N L. unfold parse_comments. rewrite (unfold_same s L).
  assert (H : forall l free, (forall p, In p l -> ~ In ":"%char p) -> take_all other run_update part_update l (e, free) = Ok (e, free ++ l)).
  { induction l as [|p l IH]; intros free H; [rewrite app_nil_r; reflexivity|]. cbn [take_all take_part].
    rewrite split1_no by (apply H; left; reflexivity). cbn [bindR]. rewrite IH; [rewrite <- app_assoc; reflexivity|]. intros q Q. apply H. right. exact Q. }
  rewrite H; [reflexivity|]. intros p P I. apply N. destruct (split_part _ _ _ P) as (a & b & ->). apply in_or_app. right. apply in_or_app. left. exact I.
Qed.
End Trip.
