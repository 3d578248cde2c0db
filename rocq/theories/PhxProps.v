(** C123: the INFO section of Phoenix EDI files. *)
From Verif Require Import PyBase PyFacts PyText TextFacts PyNum PyFloat PyRepr ValidatorsProofs EdiProofs EdiMetaModel EdiMetaSpec HeadSpec HeadProofs InfoModel InfoSpec InfoProofs InfoProps PhxSpec PhxProofs PhxProofs2.
From Coq Require Import Lia.
Local Open Scope list_scope.

(** ** Columns *)
Theorem C123_two_columns l sp r : l <> [] -> r <> [] -> strip l = l -> strip r = r -> blanks sp -> (4 <= List.length sp)%nat ->
  narrow (List.length sp) l -> narrow (Datatypes.S (List.length sp)) r -> (4 <= List.length (split_ws l) + List.length (split_ws r))%nat ->
  separated l -> separated r -> split_columns (l ++ sp ++ r) = [l; r].
Proof. apply split_two. Qed.
Theorem C123_one_column s : ~ two_columns s \/ (List.length (split_ws s) < 4)%nat -> split_columns s = [s].
Proof. apply split_one. Qed.

(** ** Whole sections *)
Lemma writes_rows lines wss : Forall2 line_writes lines wss -> Forall (fun s => strip s = [] \/ section_row s) lines /\ exists wss', Forall2 row (filter nonempty (map strip lines)) wss' /\ concat wss' = concat wss.
Proof.
  induction 1 as [|s ws lines wss H F (IH1 & wss' & IH2 & IH3)]; [split; [constructor|exists []; split; [constructor|reflexivity]]|]. destruct H as [(E & ->)|(S & R)].
  - split; [constructor; [left; exact E|exact IH1]|]. exists wss'. cbn [map filter concat app]. rewrite E. cbn [nonempty]. split; assumption.
  - split; [constructor; [right; exact S|exact IH1]|]. exists (ws :: wss'). cbn [map filter concat]. destruct (strip s) as [|c t] eqn:E; [destruct S as (S & _); contradiction|]. cbn [nonempty]. split; [constructor; assumption|rewrite IH3; reflexivity].
Qed.
Lemma phoenix_reads pre heading lines post : Forall no_info pre -> says ">info" heading -> Forall (fun s => strip s = [] \/ section_row s) lines -> Exists (says "run information") lines -> after_info post ->
  read_info (pre ++ heading :: lines ++ post) = bindR (fold_left phoenix_line (filter nonempty (map strip lines)) (Ok [])) (fun d => Ok (comments_to_string d)).
Proof.
  intros P H F X Q. unfold read_info.
  assert (SEC : section_lines false (pre ++ heading :: lines ++ post) = filter nonempty (map strip lines)).
  { rewrite (section_before pre _ P). cbn [section_lines]. cbv zeta. assert (HH : contains (txt ">info") (lower (strip heading)) = true). { apply says_back; [split; intros c r E|discriminate|exact H]. - injection E as <- _. reflexivity. - change (txt ">info") with (txt ">inf" ++ ["o"%char]) in E. apply app_inj_tail in E as [_ <-]. reflexivity. }
    rewrite HH. apply section_rows; assumption. }
  rewrite SEC.
  assert (EM : existsb empower_mark (filter nonempty (map strip lines)) = false). { destruct (existsb _ _) eqn:E; [|reflexivity]. apply existsb_exists in E as (x & I & E). apply filter_In in I as [I NE]. apply in_map_iff in I as (s & <- & I). rewrite Forall_forall in F. destruct (F s I) as [Z|Z]; [rewrite Z in NE; discriminate NE|]. rewrite (section_marks s Z) in E. discriminate E. }
  assert (PM : existsb phoenix_mark (filter nonempty (map strip lines)) = true).
  { apply Exists_exists in X as (s & I & X). assert (C : contains (txt "run information") (lower (strip s)) = true). { apply says_back; [split; intros c r E|discriminate|exact X]. - injection E as <- _. reflexivity. - change (txt "run information") with (txt "run informatio" ++ ["n"%char]) in E. apply app_inj_tail in E as [_ <-]. reflexivity. }
    apply existsb_exists. exists (strip s). split; [|exact C]. apply filter_In. split; [apply in_map; exact I|]. destruct (strip s); [discriminate C|reflexivity]. }
  rewrite EM, PM. reflexivity.
Qed.
Theorem C123_section pre heading lines wss post : Forall no_info pre -> says ">info" heading -> Forall2 line_writes lines wss -> Exists (says "run information") lines -> after_info post ->
  exists d, read_info (pre ++ heading :: lines ++ post) = Ok d /\ NoDup (map fst d) /\ forall K, dget text_dec K d = option_map IText (last_written K (concat wss)).
Proof.
  intros P H F X Q. destruct (writes_rows lines wss F) as (FL & wss' & FR & EC). exists (put (concat wss) []). split; [|split].
  - rewrite (phoenix_reads pre heading lines post P H FL X Q), (rows_put _ _ FR). cbn [bindR]. rewrite EC. f_equal. apply texts_comments. apply put_texts. intros kv [].
  - apply put_nodup. constructor.
  - intros K. rewrite put_get. destruct (last_written K (concat wss)); reflexivity.
Qed.

(** ** Deciding *)
Lemma no_two_tail k c v : ~ separated k -> narrow 4 v -> ~ two_columns (k ++ c :: v).
Proof.
  intros N W (l & sp & r & E & B & L & (x & X & XI) & _). apply app_eq_app in E as (m & [[E1 E2]|[E1 E2]]).
  - destruct m as [|y m].
    + rewrite app_nil_r in E1. subst l. apply N. exists x. split; assumption.
    + apply N. exists x. split; [exact X|]. rewrite E1. apply in_or_app. left. exact XI.
  - destruct m as [|y m]; [rewrite app_nil_r in E1; subst l; apply N; exists x; split; assumption|]. cbn [app] in E2. injection E2 as _ E2. specialize (W m sp r E2 B). lia.
Qed.
Lemma no_two_head l0 t : narrow 4 l0 -> ~ separated t -> ~ two_columns (l0 ++ t).
Proof.
  intros W N (l & sp & r & E & B & L & _ & (x & X & XI)). rewrite app_assoc in E. apply app_eq_app in E as (m & [[E1 E2]|[E1 E2]]).
  - rewrite <- app_assoc in E1. specialize (W l sp m E1 B). lia.
  - apply N. exists x. split; [exact X|]. rewrite E2. apply in_or_app. right. exact XI.
Qed.
Fixpoint run_of (s : text) : nat := match s with c :: r => if is_space c then Datatypes.S (run_of r) else 0%nat | [] => 0%nat end.
Fixpoint narrowb (n : nat) (s : text) : bool := ((run_of s <? n)%nat && match s with [] => true | _ :: r => narrowb n r end)%bool.
Lemma run_of_le sp b : forallb is_space sp = true -> (List.length sp <= run_of (sp ++ b))%nat.
Proof. induction sp as [|c sp IH]; intros H; [cbn; lia|]. cbn [forallb] in H. apply andb_true_iff in H as [C H]. cbn [app run_of List.length]. rewrite C. specialize (IH H). lia. Qed.
Lemma narrow_dec n s : narrowb n s = true -> narrow n s.
Proof.
  intros H a sp b E B. revert s H E. induction a as [|c a IH]; intros s H E.
  - cbn [app] in E. subst s. pose proof (run_of_le sp b (proj1 (blanks_forallb sp) B)) as L. destruct (sp ++ b); cbn [narrowb] in H; apply andb_true_iff in H as [H _]; apply Nat.ltb_lt in H; lia.
  - destruct s as [|y s]; [discriminate E|]. cbn [app] in E. injection E as _ E. cbn [narrowb] in H. apply andb_true_iff in H as [_ H]. apply (IH s H E).
Qed.
Lemma separated_dec s : has_separator s = true -> separated s.
Proof. apply has_separator_spec. Qed.
Lemma separated_no s : has_separator s = false -> ~ separated s.
Proof. intros H S. apply has_separator_spec in S. rewrite S in H. discriminate H. Qed.
Lemma narrow_one s : narrowb 4 s = true -> ~ two_columns s.
Proof. intros H (l & sp & r & E & B & L & _). pose proof (narrow_dec 4 s H l sp r E B). lia. Qed.
Lemma says_dec w s : contains (txt w) (lower s) = true -> says w s.
Proof. exact (fun H => H). Qed.
Lemma says_no w s : contains (txt w) (lower s) = false -> ~ says w s.
Proof. unfold says. intros -> H. discriminate H. Qed.
Lemma content_dec s : contains (txt "  ") (strip s) = false -> content s (strip s).
Proof. intros H. apply content_whole. intros a b E. assert (C : contains (txt "  ") (strip s) = true) by (apply contains_spec; exists a, b; exact E). rewrite C in H. discriminate H. Qed.
Lemma section_row_dec s : nonempty (strip s) = true -> has_char ">" s = false -> contains (txt "electrics") (lower s) = false -> contains (txt "magnetics") (lower s) = false -> contains (txt "empower") (lower s) = false -> section_row s.
Proof.
  intros A B C D E. split; [intros X; rewrite X in A; discriminate A|]. split; [apply has_char_notIn; exact B|]. split; [|split]; apply says_no; assumption.
Qed.
Lemma names_no l k : existsb (fun n => text_eqb (txt n) k) l = false -> ~ names l k.
Proof. intros H (n & I & ->). assert (X : existsb (fun n0 => text_eqb (txt n0) (txt n)) l = true) by (apply existsb_exists; exists n; split; [exact I|apply text_eqb_eq; reflexivity]). rewrite X in H. discriminate H. Qed.
Lemma first_word_dec w c r : w <> [] -> forallb (fun c => negb (is_space c)) w = true -> is_space c = true -> first_word (w ++ c :: r) w.
Proof. intros N F C. split; [exact N|]. split; [intros x I; rewrite forallb_forall in F; specialize (F x I); apply negb_true_iff in F; exact F|right; exists c, r; split; [reflexivity|exact C]]. Qed.
Ltac dec := first [apply says_dec | apply says_no | apply separated_dec | apply separated_no | apply narrow_dec | apply narrow_one | apply names_no | apply blanks_forallb]; vm_compute; reflexivity.
Ltac known a b := exact (title_known (txt a) a b ltac:(cbn; tauto) eq_refl).
Ltac inlist := cbn; tauto.

(** ** A section as it is found in files *)
Definition sample : list text := map txt
  ["         RUN INFORMATION                     STATION 1             ";
   "                                                                   ";
   "    JOB: MT1                       Elevation: 2918   M. DECL: 0.000";
   "START-UP: 2008/01/01 - 00:00:00    Site Layout by:                 ";
   " Hx & Hy: V86W2    4403   39 C     Ex Pot Resist: 0.100 Kohms      ";
   "     Hz: V86W2    4403   39 C      Ex Voltage:AC=35.5mV, DC=-19.0mV";
   " Hy Sen: MT8H7298                  "]%string.
Definition sample_writes : list (list (text * text)) := map (map (fun p => (txt (fst p), txt (snd p))))
  [[]; []; [("survey.project", "MT1"); ("phoenix_attribute", "2918")]; [("station.time_period.start", "2008/01/01 - 00:00:00"); ("phoenix_attribute", "")];
   [("phoenix_attribute", "V86W2"); ("run.ex.contact_resistance.start", "0.100")];
   [("phoenix_attribute", "V86W2"); ("run.ex.ac.start", "35.5"); ("run.ex.dc.start", "-19.0")];
   [("run.hy.sensor.id", "MT8H7298"); ("hy.sensor.manufacturer", "Phoenix Geophysics"); ("hy.sensor.type", "Induction Coil")]]%string.
Definition pair_ok (l sp r : text) : bool :=
  (nonempty l && nonempty r && text_eqb (strip l) l && text_eqb (strip r) r && forallb is_space sp && (4 <=? List.length sp) && narrowb (List.length sp) l && narrowb (Datatypes.S (List.length sp)) r &&
   (4 <=? List.length (split_ws l) + List.length (split_ws r)) && has_separator l && has_separator r)%nat%bool.
Lemma pair_row l sp r ws1 ws2 : pair_ok l sp r = true -> column l ws1 -> column r ws2 -> row (l ++ sp ++ r) (ws1 ++ ws2).
Proof.
  unfold pair_ok. rewrite !andb_true_iff. intros ((((((((((A & B) & C) & D) & E) & F) & G) & H) & I) & J) & K) C1 C2. apply text_eqb_eq in C, D. apply Nat.leb_le in F, I.
  apply row_two; try assumption; [destruct l; [discriminate A|discriminate]|destruct r; [discriminate B|discriminate]|apply blanks_forallb; exact E|apply narrow_dec; exact G|apply narrow_dec; exact H|apply separated_dec; exact J|apply separated_dec; exact K].
Qed.
Lemma known_entry k a b v : In (a, b) standard -> lower k = txt a -> (contains (txt "voltage") (txt a) || contains (txt "pot resist") (txt a) || contains (txt " sen") (txt a))%bool = false -> entry k v [(txt b, v)].
Proof.
  intros I E H. apply orb_false_iff in H as [H H3]. apply orb_false_iff in H as [H1 H2]. apply entry_plain; [unfold says; rewrite E, H1; discriminate|unfold says; rewrite E, H2; discriminate|unfold says; rewrite E, H3; discriminate|exact (title_known k a b I E)].
Qed.
Lemma other_entry k v : existsb (fun n => text_eqb (txt n) (lower k)) (map fst standard) = false -> (contains (txt "voltage") (lower k) || contains (txt "pot resist") (lower k) || contains (txt " sen") (lower k))%bool = false -> entry k v [(txt "phoenix_attribute", v)].
Proof.
  intros N H. apply orb_false_iff in H as [H H3]. apply orb_false_iff in H as [H1 H2]. apply entry_plain; [apply says_no; exact H1|apply says_no; exact H2|apply says_no; exact H3|apply title_other, names_no; exact N].
Qed.
Lemma entry_column k c s v ws : In c separators -> has_separator k = false -> content s v -> entry (strip k) v ws -> column (k ++ c :: s) ws.
Proof. intros I N C E. exact (column_entry k c s v ws I (separated_no k N) C E). Qed.
Lemma cut_content s w r : strip s = w ++ " "%char :: r -> forallb (fun c => negb (is_space c)) w = true -> contains (txt "  ") (strip s) = true -> content s w.
Proof. intros E F C. apply contains_spec in C as (a & b & C). apply (content_cut s w r a b E); [|exact C]. intros x I. rewrite forallb_forall in F. specialize (F x I). apply negb_true_iff in F. exact F. Qed.
Ltac srow := right; split; [apply section_row_dec; vm_compute; reflexivity|].
Lemma sample_ok : Forall2 line_writes sample sample_writes.
Proof.
  unfold sample, sample_writes. cbn [map]. constructor; [srow|constructor; [left; split; reflexivity|]].
  { apply row_one; [left; intros (l & sp & r & E & _ & _ & (c & C & I) & _)|].
    - assert (N : ~ separated (strip (txt "         RUN INFORMATION                     STATION 1             "))) by dec. apply N. exists c. split; [exact C|]. rewrite E. apply in_or_app. left. exact I.
    - apply column_title. dec. }
  constructor; [srow|]. { exact (pair_row (txt "JOB: MT1") (txt "                       ") (txt "Elevation: 2918   M. DECL: 0.000") [_] [_] ltac:(vm_compute; reflexivity)
    (entry_column (txt "JOB") ":" (txt " MT1") (txt "MT1") _ ltac:(inlist) ltac:(reflexivity) (content_dec (txt " MT1") ltac:(vm_compute; reflexivity)) (known_entry (txt "JOB") "job" "survey.project" _ ltac:(inlist) eq_refl eq_refl))
    (entry_column (txt "Elevation") ":" (txt " 2918   M. DECL: 0.000") (txt "2918") _ ltac:(inlist) ltac:(reflexivity) (cut_content (txt " 2918   M. DECL: 0.000") (txt "2918") (txt "  M. DECL: 0.000") eq_refl eq_refl eq_refl) (other_entry (txt "Elevation") _ ltac:(vm_compute; reflexivity) ltac:(vm_compute; reflexivity)))). }
  constructor; [srow|]. { exact (pair_row (txt "START-UP: 2008/01/01 - 00:00:00") (txt "    ") (txt "Site Layout by:") [_] [_] ltac:(vm_compute; reflexivity)
    (entry_column (txt "START-UP") ":" (txt " 2008/01/01 - 00:00:00") (txt "2008/01/01 - 00:00:00") _ ltac:(inlist) ltac:(reflexivity) (content_dec (txt " 2008/01/01 - 00:00:00") ltac:(vm_compute; reflexivity)) (known_entry (txt "START-UP") "start-up" "station.time_period.start" _ ltac:(inlist) eq_refl eq_refl))
    (entry_column (txt "Site Layout by") ":" [] [] _ ltac:(inlist) ltac:(reflexivity) (content_dec [] ltac:(vm_compute; reflexivity)) (other_entry (txt "Site Layout by") _ ltac:(vm_compute; reflexivity) ltac:(vm_compute; reflexivity)))). }
  constructor; [srow|]. { exact (pair_row (txt "Hx & Hy: V86W2    4403   39 C") (txt "     ") (txt "Ex Pot Resist: 0.100 Kohms") [_] [_] ltac:(vm_compute; reflexivity)
    (entry_column (txt "Hx & Hy") ":" (txt " V86W2    4403   39 C") (txt "V86W2") _ ltac:(inlist) ltac:(reflexivity) (cut_content (txt " V86W2    4403   39 C") (txt "V86W2") (txt "   4403   39 C") eq_refl eq_refl eq_refl) (other_entry (txt "Hx & Hy") _ ltac:(vm_compute; reflexivity) ltac:(vm_compute; reflexivity)))
    (entry_column (txt "Ex Pot Resist") ":" (txt " 0.100 Kohms") (txt "0.100 Kohms") _ ltac:(inlist) ltac:(reflexivity) (content_dec (txt " 0.100 Kohms") ltac:(vm_compute; reflexivity))
       (entry_resistance (txt "Ex Pot Resist") _ _ (txt "0.100") ltac:(dec) ltac:(dec) ltac:(dec) (title_known (txt "Ex Pot Resist") "ex pot resist" "run.ex.contact_resistance.start" ltac:(inlist) eq_refl) (first_word_dec (txt "0.100") " " (txt "Kohms") ltac:(discriminate) eq_refl eq_refl)))). }
  constructor; [srow|]. { refine (pair_row (txt "Hz: V86W2    4403   39 C") (txt "      ") (txt "Ex Voltage:AC=35.5mV, DC=-19.0mV") [_] [_; _] ltac:(vm_compute; reflexivity)
    (entry_column (txt "Hz") ":" (txt " V86W2    4403   39 C") (txt "V86W2") _ ltac:(inlist) ltac:(reflexivity) (cut_content (txt " V86W2    4403   39 C") (txt "V86W2") (txt "   4403   39 C") eq_refl eq_refl eq_refl) (other_entry (txt "Hz") _ ltac:(vm_compute; reflexivity) ltac:(vm_compute; reflexivity)))
    (entry_column (txt "Ex Voltage") ":" (txt "AC=35.5mV, DC=-19.0mV") (txt "AC=35.5mV, DC=-19.0mV") _ ltac:(inlist) ltac:(reflexivity) (content_dec (txt "AC=35.5mV, DC=-19.0mV") ltac:(vm_compute; reflexivity))
       (entry_voltage (txt "Ex Voltage") (txt "AC=35.5mV, DC=-19.0mV") [txt "AC=35.5mV"; txt "DC=-19.0mV"] [[_]; [_]] ltac:(dec) ltac:(dec) ltac:(discriminate) _ eq_refl _))).
    - intros p [<-|[<-|[]]]; apply has_char_notIn; reflexivity.
    - constructor; [exact (part_value (txt "ex") (txt "AC") (txt "35.5mV") (txt "35.5") ltac:(apply has_char_notIn; reflexivity) ltac:(apply has_char_notIn; reflexivity) (volts_unit (txt "35.5") ltac:(apply has_char_notIn; reflexivity)))|].
      constructor; [exact (part_value (txt "ex") (txt "DC") (txt "-19.0mV") (txt "-19.0") ltac:(apply has_char_notIn; reflexivity) ltac:(apply has_char_notIn; reflexivity) (volts_unit (txt "-19.0") ltac:(apply has_char_notIn; reflexivity)))|constructor]. }
  constructor; [srow|constructor]. { apply row_one; [left; dec|]. exact (entry_column (txt "Hy Sen") ":" (txt " MT8H7298") (txt "MT8H7298") _ ltac:(inlist) ltac:(reflexivity) (content_dec (txt " MT8H7298") ltac:(vm_compute; reflexivity))
     (entry_sensor (txt "Hy Sen") _ _ (txt "hy") ltac:(dec) ltac:(dec) ltac:(dec) (title_known (txt "Hy Sen") "hy sen" "run.hy.sensor.id" ltac:(inlist) eq_refl) (first_word_dec (txt "hy") " " (txt "sen") ltac:(discriminate) eq_refl eq_refl))). }
Qed.
Example C123_section_hyp : exists d, read_info ([txt ">HEAD"; txt " DATAID=x"] ++ txt ">INFO" :: sample ++ [txt ">=DEFINEMEAS"]) = Ok d /\
  dget text_dec (txt "run.ex.dc.start") d = Some (IText (txt "-19.0")) /\ dget text_dec (txt "phoenix_attribute") d = Some (IText (txt "V86W2")) /\ dget text_dec (txt "survey.project") d = Some (IText (txt "MT1")).
Proof.
  destruct (C123_section [txt ">HEAD"; txt " DATAID=x"] (txt ">INFO") sample sample_writes [txt ">=DEFINEMEAS"]) as (d & E & _ & G).
  - constructor; [|constructor; [|constructor]]; intros H; vm_compute in H; discriminate H.
  - reflexivity.
  - exact sample_ok.
  - constructor. reflexivity.
  - right. exists (txt ">=DEFINEMEAS"), [], (txt "=DEFINEMEAS"). split; [reflexivity|]. split; [intros H; vm_compute in H; discriminate H|reflexivity].
  - exists d. split; [exact E|]. rewrite !G. repeat split; vm_compute; reflexivity.
Qed.
Example C123_two_columns_hyp : split_columns (txt "JOB: MT1                       Elevation: 2918   M. DECL: 0.000") = [txt "JOB: MT1"; txt "Elevation: 2918   M. DECL: 0.000"].
Proof. apply (C123_two_columns (txt "JOB: MT1") (txt "                       ") (txt "Elevation: 2918   M. DECL: 0.000")); try discriminate; try reflexivity; try dec; apply Nat.leb_le; reflexivity. Qed.
Example C123_one_column_hyp : split_columns (txt "RBS: 1  COH: 0.85  RHO VAR: 0.75") = [txt "RBS: 1  COH: 0.85  RHO VAR: 0.75"].
Proof. apply C123_one_column. left. dec. Qed.
