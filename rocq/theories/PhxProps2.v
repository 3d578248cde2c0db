(** C123: what is lost when the INFO section of a Phoenix EDI file is read. *)
From Verif Require Import PyBase PyFacts PyText TextFacts PyNum PyFloat PyRepr ValidatorsProofs EdiProofs EdiMetaModel EdiMetaSpec HeadSpec HeadProofs InfoModel InfoSpec InfoProofs InfoProps PhxSpec PhxProofs PhxProofs2 PhxProps.
From Coq Require Import Lia.
Local Open Scope list_scope.

Lemma title_row : line_writes (txt "RUN INFORMATION") [].
Proof. right. split; [apply section_row_dec; vm_compute; reflexivity|]. apply row_one; [left; dec|]. apply column_title. dec. Qed.
Lemma section_reads rows wss : Forall2 line_writes rows wss -> exists d, read_info (section_of rows) = Ok d /\ forall K, dget text_dec K d = option_map IText (last_written K (concat wss)).
Proof.
  intros F. destruct (C123_section [] (txt ">INFO") (txt "RUN INFORMATION" :: rows) ([] :: wss) []) as (d & E & _ & G); [constructor|reflexivity|constructor; [exact title_row|exact F]|constructor; reflexivity|left; reflexivity|].
  exists d. cbn [app concat] in *. rewrite app_nil_r in E. split; [exact E|exact G].
Qed.
Lemma one_row s ws : section_row s -> row (strip s) ws -> exists d, read_info (section_of [s]) = Ok d /\ forall K, dget text_dec K d = option_map IText (last_written K ws).
Proof. intros S R. destruct (section_reads [s] [ws] ltac:(constructor; [right; split; assumption|constructor])) as (d & E & G). exists d. split; [exact E|]. cbn [concat] in G. rewrite app_nil_r in G. exact G. Qed.
Lemma trimmed_ends a m v : a <> [] -> v <> [] -> strip a = a -> strip v = v -> strip (a ++ m ++ v) = a ++ m ++ v.
Proof.
  intros NA NV SA SV. apply strip_trimmed. split; intros c r E.
  - destruct a as [|x a]; [contradiction|]. injection E as <- _. exact (proj1 (trimmed_of _ SA) x a eq_refl).
  - destruct (exists_last NV) as (v0 & x & EV). rewrite EV in E. rewrite !app_assoc in E. apply app_inj_tail in E as [_ <-]. exact (proj2 (trimmed_of _ SV) x v0 EV).
Qed.
Lemma plain_entry k a b v : In (a, b) standard -> lower k = txt a -> plain_name a -> entry k v [(txt b, v)].
Proof.
  intros I E (A & B & C). assert (LL : lower (txt a) = txt a). { rewrite <- E. unfold lower. rewrite map_map. apply map_ext. intros c. pose proof (ascii_forall (fun c => Ascii.eqb (to_lower (to_lower c)) (to_lower c)) ltac:(vm_compute; reflexivity) c) as X. apply Ascii.eqb_eq in X. exact X. }
  assert (S : forall w, says w k -> says w (txt a)) by (intros w H; unfold says in *; rewrite LL, <- E; exact H). apply entry_plain; [intros H; apply A, S, H|intros H; apply B, S, H|intros H; apply C, S, H|exact (title_known k a b I E)].
Qed.
Lemma standard_single a b x y sp : In (a, b) standard -> txt a = x ++ sp ++ y -> blanks sp -> (List.length sp < 2)%nat.
Proof.
  intros I E B. assert (P : forallb (fun p => narrowb 2 (txt (fst p))) standard = true) by (vm_compute; reflexivity). rewrite forallb_forall in P. specialize (P _ I). exact (narrow_dec 2 _ P x sp y E B).
Qed.
Lemma blanks_lower sp : blanks sp -> lower sp = sp.
Proof.
  intros B. unfold lower. rewrite <- (map_id sp) at 2. apply map_ext_in. intros c I. specialize (B c I). pose proof (ascii_forall (fun c => implb (is_space c) (Ascii.eqb (to_lower c) c)) ltac:(vm_compute; reflexivity) c) as X. cbv beta in X. rewrite B in X. apply Ascii.eqb_eq. exact X.
Qed.
Lemma separated_app a b : separated (a ++ b) -> separated a \/ separated b.
Proof. intros (c & C & I). apply in_app_or in I as [I|I]; [left|right]; exists c; split; assumption. Qed.
Lemma blanks_separated sp : blanks sp -> ~ separated sp.
Proof. intros B (c & C & I). specialize (B c I). destruct C as [<-|[<-|[]]]; discriminate B. Qed.
Lemma name_separated k a b : In (a, b) standard -> lower k = txt a -> ~ separated k.
Proof.
  intros I E (c & C & IC). assert (P : forallb (fun p => negb (has_separator (txt (fst p)))) standard = true) by (vm_compute; reflexivity). rewrite forallb_forall in P. specialize (P _ I). cbn [fst] in P. apply negb_true_iff in P. apply (separated_no _ P). exists c. split; [exact C|]. rewrite <- E. apply in_map_iff. exists c. split; [|exact IC]. destruct C as [<-|[<-|[]]]; reflexivity.
Qed.
Lemma name_trimmed k a b : In (a, b) standard -> lower k = txt a -> strip k = k /\ k <> [].
Proof.
  intros I E. assert (P : forallb (fun p => match txt (fst p) with x :: _ => negb (is_space x) | [] => false end && match rev (txt (fst p)) with x :: _ => negb (is_space x) | [] => false end)%bool standard = true) by (vm_compute; reflexivity). rewrite forallb_forall in P. specialize (P _ I). cbn [fst] in P. rewrite <- E in P. apply andb_true_iff in P as [P1 P2].
  assert (SP : forall c, is_space (to_lower c) = is_space c). { intros c. pose proof (ascii_forall (fun c => Bool.eqb (is_space (to_lower c)) (is_space c)) ltac:(vm_compute; reflexivity) c) as X. apply Bool.eqb_prop in X. exact X. }
  unfold lower in P1, P2. rewrite <- map_rev in P2. split.
  - apply strip_trimmed. split; intros c r X.
    + rewrite X in P1. cbn [map] in P1. rewrite SP in P1. apply negb_true_iff in P1. exact P1.
    + rewrite X, rev_app_distr in P2. cbn [rev app map] in P2. rewrite SP in P2. apply negb_true_iff in P2. exact P2.
  - intros X. rewrite X in P1. discriminate P1.
Qed.
Lemma not_other b : In b (map snd standard) -> text_eqb (txt "phoenix_attribute") (txt b) = false.
Proof. intros I. assert (P : forallb (fun b => negb (text_eqb (txt "phoenix_attribute") (txt b))) (map snd standard) = true) by (vm_compute; reflexivity). rewrite forallb_forall in P. specialize (P _ I). apply negb_true_iff in P. exact P. Qed.

(** ** A title on the left *)
Theorem C123_left_title_refuted t sp k a b p v : In (a, b) standard -> lower k = txt a -> plain_name a ->
  t <> [] -> strip t = t -> ~ separated t -> blanks sp -> (2 <= List.length sp)%nat -> blanks p -> v <> [] -> strip v = v -> narrow 2 v -> narrow 4 (p ++ v) ->
  ~ says "voltage" (t ++ sp ++ k) -> ~ says "pot resist" (t ++ sp ++ k) -> ~ says " sen" (t ++ sp ++ k) -> section_row (t ++ sp ++ k ++ ":"%char :: p ++ v) ->
  exists d, read_info (section_of [t ++ sp ++ k ++ ":"%char :: p ++ v]) = Ok d /\ dget text_dec (txt b) d = None /\ dget text_dec (txt "phoenix_attribute") d = Some (IText v).
Proof.
  intros I E PN NT ST UT B L BP NV SV N2 N4 V1 V2 V3 S. set (s := t ++ sp ++ k ++ ":"%char :: p ++ v) in *.
  destruct (name_trimmed k a b I E) as [SK NK]. pose proof (name_separated k a b I E) as UK.
  assert (SS : strip s = s). { unfold s. replace (t ++ sp ++ k ++ ":"%char :: p ++ v) with (t ++ (sp ++ k ++ ":"%char :: p) ++ v) by (rewrite <- !app_assoc; reflexivity). apply trimmed_ends; assumption. }
  assert (U : ~ separated (t ++ sp ++ k)) by (intros H; apply separated_app in H as [H|H]; [exact (UT H)|apply separated_app in H as [H|H]; [exact (blanks_separated sp B H)|exact (UK H)]]).
  assert (ES : s = (t ++ sp ++ k) ++ ":"%char :: p ++ v) by (unfold s; rewrite <- !app_assoc; reflexivity).
  assert (R : row (strip s) [(txt "phoenix_attribute", v)]).
  { rewrite SS. apply row_one; [left; rewrite ES; apply no_two_tail; assumption|]. rewrite ES. assert (SPV : strip (p ++ v) = v). { pose proof (strip_pad p v [] (proj1 (blanks_forallb p) BP) eq_refl (trimmed_of v SV)) as X. rewrite app_nil_r in X. exact X. }
    apply (column_entry (t ++ sp ++ k) ":" (p ++ v) v); [cbn; tauto|exact U| |].
    - rewrite <- SPV at 2. apply content_whole. rewrite SPV. intros x y X. specialize (N2 x (txt "  ") y X ltac:(intros c [<-|[<-|[]]]; reflexivity)). cbn in N2. lia.
    - rewrite (trimmed_ends t sp k NT NK ST SK). apply entry_plain; try assumption. apply title_other. intros (n & IN & EN). apply in_map_iff in IN as ([n' b'] & <- & IN). cbn [fst] in EN. rewrite !lower_app, (blanks_lower sp B) in EN. pose proof (standard_single n' b' _ _ sp IN (eq_sym EN) B). lia. }
  destruct (one_row s _ S R) as (d & RD & G). exists d. split; [exact RD|]. rewrite !G. cbn [last_written]. rewrite (not_other b) by (apply in_map_iff; exists (a, b); split; [reflexivity|exact I]). split; reflexivity.
Qed.
Example C123_left_title_refuted_hyp : exists d, read_info (section_of [txt "PROCESSED FROM DFT TIME SERIES     STN Number: PHXTest01"]) = Ok d /\ dget text_dec (txt "station.id") d = None /\ dget text_dec (txt "phoenix_attribute") d = Some (IText (txt "PHXTest01")).
Proof.
  apply (C123_left_title_refuted (txt "PROCESSED FROM DFT TIME SERIES") (txt "     ") (txt "STN Number") "stn number" "station.id" (txt " ") (txt "PHXTest01")); try discriminate; try reflexivity; try dec; try (apply Nat.leb_le; reflexivity); [inlist|split; [dec|split; dec]|apply section_row_dec; vm_compute; reflexivity].
Qed.

(** ** A title on the right *)
Theorem C123_right_title_refuted k a b p w r n t : In (a, b) standard -> lower k = txt a -> plain_name a -> blanks p -> w <> [] -> (forall c, In c w -> is_space c = false) ->
  (2 <= n)%nat -> t <> [] -> strip t = t -> ~ separated t -> narrow 4 (k ++ ":"%char :: p ++ w ++ " "%char :: r) -> section_row (k ++ ":"%char :: p ++ w ++ " "%char :: r ++ repeat " "%char n ++ t) ->
  exists d, read_info (section_of [k ++ ":"%char :: p ++ w ++ " "%char :: r ++ repeat " "%char n ++ t]) = Ok d /\ dget text_dec (txt b) d = Some (IText w).
Proof.
  intros I E PN BP NW SW N2 NT ST UT N4 S. set (s := k ++ ":"%char :: p ++ w ++ " "%char :: r ++ repeat " "%char n ++ t) in *.
  destruct (name_trimmed k a b I E) as [SK NK]. pose proof (name_separated k a b I E) as UK.
  assert (SS : strip s = s). { unfold s. replace (k ++ ":"%char :: p ++ w ++ " "%char :: r ++ repeat " "%char n ++ t) with (k ++ (":"%char :: p ++ w ++ " "%char :: r ++ repeat " "%char n) ++ t) by (cbn [app]; rewrite <- !app_assoc; cbn [app]; rewrite <- !app_assoc; reflexivity). apply trimmed_ends; assumption. }
  set (y := w ++ " "%char :: r ++ repeat " "%char n ++ t).
  assert (TY : strip y = y). { unfold y. replace (w ++ " "%char :: r ++ repeat " "%char n ++ t) with (w ++ (" "%char :: r ++ repeat " "%char n) ++ t) by (cbn [app]; rewrite <- !app_assoc; reflexivity). apply trimmed_ends; try assumption. apply strip_trimmed. split; intros c x X; apply SW; rewrite X; [left; reflexivity|apply in_or_app; right; left; reflexivity]. }
  assert (SPY : strip (p ++ y) = y). { pose proof (strip_pad p y [] (proj1 (blanks_forallb p) BP) eq_refl (trimmed_of y TY)) as X. rewrite app_nil_r in X. exact X. }
  assert (BR : blanks (repeat " "%char n)) by (intros c IC; apply repeat_spec in IC; subst c; reflexivity).
  assert (R : row (strip s) [(txt b, w)]).
  { rewrite SS. apply row_one.
    - left. unfold s. replace (k ++ ":"%char :: p ++ w ++ " "%char :: r ++ repeat " "%char n ++ t) with ((k ++ ":"%char :: p ++ w ++ " "%char :: r) ++ (repeat " "%char n ++ t)) by (rewrite <- !app_assoc; cbn [app]; rewrite <- !app_assoc; reflexivity). apply no_two_head; [exact N4|]. intros H. apply separated_app in H as [H|H]; [exact (blanks_separated _ BR H)|exact (UT H)].
    - unfold s. change (k ++ ":"%char :: p ++ w ++ " "%char :: r ++ repeat " "%char n ++ t) with (k ++ ":"%char :: p ++ y). apply (column_entry k ":" (p ++ y) w); [cbn; tauto|exact UK| |rewrite SK; apply (plain_entry k a b w I E PN)].
      destruct n as [|[|n]]; [lia|lia|]. apply (content_cut (p ++ y) w (r ++ repeat " "%char (Datatypes.S (Datatypes.S n)) ++ t) (w ++ " "%char :: r) (repeat " "%char n ++ t)); [exact SPY|exact SW|]. rewrite SPY. unfold y. cbn [repeat app]. rewrite <- app_assoc. reflexivity. }
  destruct (one_row s _ S R) as (d & RD & G). exists d. split; [exact RD|]. rewrite G. cbn [last_written]. assert (X : text_eqb (txt b) (txt b) = true) by (apply text_eqb_eq; reflexivity). rewrite X. reflexivity.
Qed.
Example C123_right_title_refuted_hyp : exists d, read_info (section_of [txt "END-TIME: 2016/08/14 - 00:05:15            SYSTEM INFORMATION"]) = Ok d /\ dget text_dec (txt "station.time_period.end") d = Some (IText (txt "2016/08/14")).
Proof.
  apply (C123_right_title_refuted (txt "END-TIME") "end-time" "station.time_period.end" (txt " ") (txt "2016/08/14") (txt "- 00:05:15") 12 (txt "SYSTEM INFORMATION")); try discriminate; try reflexivity; try dec; try (apply Nat.leb_le; reflexivity); [inlist|split; [dec|split; dec]| |apply section_row_dec; vm_compute; reflexivity].
  intros c IC. assert (F : forallb (fun c => negb (is_space c)) (txt "2016/08/14") = true) by reflexivity. rewrite forallb_forall in F. specialize (F c IC). apply negb_true_iff in F. exact F.
Qed.

(** ** Columns that are too close, or have too few words *)
Theorem C123_lost_column_refuted k1 a1 b1 p w n k2 a2 b2 v : In (a1, b1) standard -> lower k1 = txt a1 -> plain_name a1 -> In (a2, b2) standard -> lower k2 = txt a2 -> b1 <> b2 ->
  blanks p -> w <> [] -> (forall c, In c w -> is_space c = false) -> (2 <= n)%nat -> v <> [] -> strip v = v ->
  let s := k1 ++ ":"%char :: p ++ w ++ repeat " "%char n ++ k2 ++ ":"%char :: v in
  narrow 4 s \/ (List.length (split_ws s) < 4)%nat -> section_row s ->
  exists d, read_info (section_of [s]) = Ok d /\ dget text_dec (txt b1) d = Some (IText w) /\ dget text_dec (txt b2) d = None.
Proof.
  intros I1 E1 PN I2 E2 NB BP NW SW N2 NV SV s H S.
  destruct (name_trimmed k1 a1 b1 I1 E1) as [SK NK]. pose proof (name_separated k1 a1 b1 I1 E1) as UK.
  assert (SS : strip s = s). { unfold s. replace (k1 ++ ":"%char :: p ++ w ++ repeat " "%char n ++ k2 ++ ":"%char :: v) with (k1 ++ (":"%char :: p ++ w ++ repeat " "%char n ++ k2 ++ [":"%char]) ++ v) by (cbn [app]; rewrite <- !app_assoc; reflexivity). apply trimmed_ends; assumption. }
  set (y := w ++ repeat " "%char n ++ k2 ++ ":"%char :: v).
  assert (TY : strip y = y). { unfold y. replace (w ++ repeat " "%char n ++ k2 ++ ":"%char :: v) with (w ++ (repeat " "%char n ++ k2 ++ [":"%char]) ++ v) by (rewrite <- !app_assoc; reflexivity). apply trimmed_ends; try assumption. apply strip_trimmed. split; intros c x X; apply SW; rewrite X; [left; reflexivity|apply in_or_app; right; left; reflexivity]. }
  assert (SPY : strip (p ++ y) = y). { pose proof (strip_pad p y [] (proj1 (blanks_forallb p) BP) eq_refl (trimmed_of y TY)) as X. rewrite app_nil_r in X. exact X. }
  assert (R : row (strip s) [(txt b1, w)]).
  { rewrite SS. apply row_one.
    - destruct H as [H|H]; [left|right; exact H]. intros (l & sp & r & E & B & L & _). specialize (H l sp r E B). lia.
    - unfold s. change (k1 ++ ":"%char :: p ++ w ++ repeat " "%char n ++ k2 ++ ":"%char :: v) with (k1 ++ ":"%char :: p ++ y). apply (column_entry k1 ":" (p ++ y) w); [cbn; tauto|exact UK| |rewrite SK; apply (plain_entry k1 a1 b1 w I1 E1 PN)].
      destruct n as [|[|n]]; [lia|lia|]. apply (content_cut (p ++ y) w (repeat " "%char (Datatypes.S n) ++ k2 ++ ":"%char :: v) w (repeat " "%char n ++ k2 ++ ":"%char :: v)); [rewrite SPY; reflexivity|exact SW|]. rewrite SPY. reflexivity. }
  destruct (one_row s _ S R) as (d & RD & G). exists d. split; [exact RD|]. rewrite !G. cbn [last_written]. assert (X : text_eqb (txt b1) (txt b1) = true) by (apply text_eqb_eq; reflexivity). rewrite X.
  assert (Y : text_eqb (txt b1) (txt b2) = false). { destruct (text_eqb (txt b1) (txt b2)) eqn:Y; [|reflexivity]. apply text_eqb_eq in Y. contradiction NB. assert (INJ : forall u v, txt u = txt v -> u = v) by (intros u x Q; rewrite <- (string_of_list_ascii_of_string u), <- (string_of_list_ascii_of_string x); unfold txt in Q; rewrite Q; reflexivity). apply INJ. exact Y. }
  rewrite Y. split; reflexivity.
Qed.
Example C123_lost_column_refuted_hyp : exists d, read_info (section_of [txt "JOB:MT1                  HARDWARE:V86W2"]) = Ok d /\ dget text_dec (txt "survey.project") d = Some (IText (txt "MT1")) /\ dget text_dec (txt "run.data_logger.model") d = None.
Proof.
  apply (C123_lost_column_refuted (txt "JOB") "job" "survey.project" [] (txt "MT1") 18 (txt "HARDWARE") "hardware" "run.data_logger.model" (txt "V86W2")); try discriminate; try reflexivity; try dec; try (apply Nat.leb_le; reflexivity); [inlist|split; [dec|split; dec]|inlist| |right; apply Nat.ltb_lt; reflexivity|apply section_row_dec; vm_compute; reflexivity].
  intros c [<-|[<-|[<-|[]]]]; reflexivity.
Qed.

(** ** Other keys *)
Theorem C123_other_keys_refuted s1 s2 k1 k2 v1 v2 c1 c2 x1 x2 : section_row s1 -> section_row s2 -> In c1 separators -> In c2 separators -> ~ separated k1 -> ~ separated k2 ->
  strip s1 = k1 ++ c1 :: x1 -> strip s2 = k2 ++ c2 :: x2 -> narrow 4 (strip s1) -> narrow 4 (strip s2) -> content x1 v1 -> content x2 v2 ->
  ~ names (map fst standard) (lower (strip k1)) -> ~ names (map fst standard) (lower (strip k2)) ->
  (forall w, In w ["voltage"; "pot resist"; " sen"]%string -> ~ says w (strip k1) /\ ~ says w (strip k2)) -> v1 <> v2 ->
  exists d, read_info (section_of [s1; s2]) = Ok d /\ dget text_dec (txt "phoenix_attribute") d = Some (IText v2) /\ forall K, dget text_dec K d <> Some (IText v1).
Proof.
  intros S1 S2 C1 C2 U1 U2 E1 E2 N1 N2 V1 V2 T1 T2 W NE.
  assert (ROW : forall s k c x v, narrow 4 (strip s) -> strip s = k ++ c :: x -> In c separators -> ~ separated k -> content x v -> ~ names (map fst standard) (lower (strip k)) -> ~ says "voltage" (strip k) -> ~ says "pot resist" (strip k) -> ~ says " sen" (strip k) -> row (strip s) [(txt "phoenix_attribute", v)]).
  { intros s k c x v N E C U V T A B D. apply row_one; [left; intros (l & sp & r & E' & B' & L & _); specialize (N l sp r E' B'); lia|]. rewrite E. apply (column_entry k c x v); try assumption. apply entry_plain; try assumption. apply title_other. exact T. }
  destruct (section_reads [s1; s2] [[(txt "phoenix_attribute", v1)]; [(txt "phoenix_attribute", v2)]]) as (d & RD & G).
  { constructor; [right; split; [exact S1|]; apply (ROW s1 k1 c1 x1 v1); try assumption; apply W; cbn; tauto|]. constructor; [right; split; [exact S2|]; apply (ROW s2 k2 c2 x2 v2); try assumption; apply W; cbn; tauto|constructor]. }
  exists d. split; [exact RD|]. split; [rewrite G; reflexivity|]. intros K. rewrite G. cbn [concat app last_written]. destruct (text_eqb (txt "phoenix_attribute") K); cbn [option_map]; intros X; [injection X as X; apply NE; symmetry; exact X|discriminate X].
Qed.
Example C123_other_keys_refuted_hyp : exists d, read_info (section_of [txt "    FILE: 4403813A"; txt "    MTU-DFT VERSION: TStoFT.36"]) = Ok d /\ dget text_dec (txt "phoenix_attribute") d = Some (IText (txt "TStoFT.36")) /\ forall K, dget text_dec K d <> Some (IText (txt "4403813A")).
Proof.
  apply (C123_other_keys_refuted (txt "    FILE: 4403813A") (txt "    MTU-DFT VERSION: TStoFT.36") (txt "FILE") (txt "MTU-DFT VERSION") (txt "4403813A") (txt "TStoFT.36") ":" ":" (txt " 4403813A") (txt " TStoFT.36")); try discriminate; try reflexivity; try inlist; try dec; try (apply section_row_dec; vm_compute; reflexivity).
  - exact (content_dec (txt " 4403813A") eq_refl).
  - exact (content_dec (txt " TStoFT.36") eq_refl).
  - intros w [<-|[<-|[<-|[]]]]; split; dec.
Qed.

(** ** A resistance without a value *)
Lemma fold_err ls e : fold_left phoenix_line ls (Err e) = Err e.
Proof. induction ls as [|s ls IH]; [reflexivity|]. cbn [fold_left]. assert (X : phoenix_line (Err e) s = Err e) by (unfold phoenix_line; induction (split_columns s) as [|c cs IHc]; [reflexivity|exact IHc]). rewrite X. exact IH. Qed.
Theorem C123_resistance_refuted pre heading lines wss s k c rest post : Forall no_info pre -> says ">info" heading -> Forall2 line_writes lines wss -> section_row s -> Forall (fun s => strip s = [] \/ section_row s) rest ->
  Exists (says "run information") (lines ++ s :: rest) -> after_info post -> In c separators -> ~ separated k -> strip s = k ++ [c] -> says "pot resist" (strip k) ->
  read_info (pre ++ heading :: (lines ++ s :: rest) ++ post) = Err IndexError.
Proof.
  intros P H F S FR X Q C U E W. destruct (writes_rows lines wss F) as (FL & wss' & R & _).
  rewrite (phoenix_reads pre heading (lines ++ s :: rest) post P H); [|apply Forall_app; split; [exact FL|constructor; [right; exact S|exact FR]]|exact X|exact Q].
  rewrite map_app, filter_app, fold_left_app, (rows_put _ _ R). cbn [map filter]. assert (NE : nonempty (strip s) = true) by (destruct (strip s) eqn:Z; [destruct S as (S & _); contradiction|reflexivity]). rewrite NE. cbn [fold_left].
  assert (ER : forall d, phoenix_line (Ok d) (strip s) = Err IndexError).
  { intros d. unfold phoenix_line. rewrite split_one.
    - cbn [fold_left]. rewrite E, (phoenix_column_ok k c [] d C U). change (cut (strip [])) with (@nil ascii). unfold phoenix_entry. unfold says in W. rewrite W. reflexivity.
    - left. rewrite E. apply no_two_tail; [exact U|]. intros a sp b EE B. destruct a; [destruct sp; [cbn; lia|discriminate EE]|discriminate EE]. }
  rewrite ER, fold_err. reflexivity.
Qed.
Example C123_resistance_refuted_hyp : read_info ([] ++ txt ">INFO" :: (sample ++ txt " Ey Pot Resist:   " :: [txt "JOB: MT1"]) ++ [txt ">=DEFINEMEAS"]) = Err IndexError.
Proof.
  apply (C123_resistance_refuted [] (txt ">INFO") sample sample_writes (txt " Ey Pot Resist:   ") (txt "Ey Pot Resist") ":"%char); try reflexivity; try inlist; try dec.
  - constructor.
  - exact sample_ok.
  - apply section_row_dec; vm_compute; reflexivity.
  - constructor; [right; apply section_row_dec; vm_compute; reflexivity|constructor].
  - constructor. reflexivity.
  - right. exists (txt ">=DEFINEMEAS"), [], (txt "=DEFINEMEAS"). split; [reflexivity|]. split; [intros H; vm_compute in H; discriminate H|reflexivity].
Qed.

(** ** The kind of a sensor *)
Theorem C123_sensor_refuted s k c x v ch : In ch ["hx"; "hy"; "hz"; "rx"; "ry"]%string -> section_row s -> strip s = k ++ c :: x -> narrow 4 (strip s) -> In c separators -> ~ separated k -> lower (strip k) = txt (ch ++ " sen") -> content x v ->
  exists d, read_info (section_of [s]) = Ok d /\ dget text_dec (txt (ch ++ ".sensor.type")) d = Some (IText (txt "Induction Coil")) /\
  dget text_dec (txt ("run." ++ ch ++ ".sensor.type")) d = None /\ dget text_dec (txt ("run." ++ ch ++ ".sensor.manufacturer")) d = None.
Proof.
  intros IC S E N C U K V.
  assert (R : exists b, In b (map snd standard) /\ row (strip s) [(txt b, v); (txt ch ++ txt ".sensor.manufacturer", txt "Phoenix Geophysics"); (txt ch ++ txt ".sensor.type", txt "Induction Coil")]).
  { assert (ST : exists b, In ((ch ++ " sen")%string, b) standard) by (destruct IC as [<-|[<-|[<-|[<-|[<-|[]]]]]]; [exists "run.hx.sensor.id"%string|exists "run.hy.sensor.id"%string|exists "run.hz.sensor.id"%string|exists "run.rrhx.sensor.id"%string|exists "run.rrhy.sensor.id"%string]; cbn; tauto). destruct ST as (b & IB). exists b. split; [apply in_map_iff; exists ((ch ++ " sen")%string, b); split; [reflexivity|exact IB]|].
    apply row_one; [left; intros (l & sp & r & E' & B' & L & _); specialize (N l sp r E' B'); lia|]. rewrite E. apply (column_entry k c x v); try assumption. apply entry_sensor.
    - unfold says. rewrite K. destruct IC as [<-|[<-|[<-|[<-|[<-|[]]]]]]; vm_compute; discriminate.
    - unfold says. rewrite K. destruct IC as [<-|[<-|[<-|[<-|[<-|[]]]]]]; vm_compute; discriminate.
    - unfold says. rewrite K. destruct IC as [<-|[<-|[<-|[<-|[<-|[]]]]]]; reflexivity.
    - exact (title_known (strip k) _ b IB K).
    - rewrite K. assert (A : txt (ch ++ " sen") = txt ch ++ " "%char :: txt "sen") by (destruct IC as [<-|[<-|[<-|[<-|[<-|[]]]]]]; reflexivity). rewrite A. destruct IC as [<-|[<-|[<-|[<-|[<-|[]]]]]]; apply first_word_dec; try discriminate; reflexivity. }
  destruct R as (b & IB & R). destruct (one_row s _ S R) as (d & RD & G). exists d. split; [exact RD|]. rewrite !G. cbn [last_written].
  assert (P : forall ch', In ch' ["hx"; "hy"; "hz"; "rx"; "ry"]%string -> forallb (fun b => negb (text_eqb (txt b) (txt ("run." ++ ch' ++ ".sensor.type"))) && negb (text_eqb (txt b) (txt ("run." ++ ch' ++ ".sensor.manufacturer"))))%bool (map snd standard) = true) by (intros ch' [<-|[<-|[<-|[<-|[<-|[]]]]]]; vm_compute; reflexivity).
  specialize (P ch IC). rewrite forallb_forall in P. specialize (P b IB). apply andb_true_iff in P as [P1 P2]. apply negb_true_iff in P1, P2. rewrite P1, P2. destruct IC as [<-|[<-|[<-|[<-|[<-|[]]]]]]; repeat split; reflexivity.
Qed.
Example C123_sensor_refuted_hyp : exists d, read_info (section_of [txt " Hx Sen: MT8H7297   "]) = Ok d /\ dget text_dec (txt ("hx" ++ ".sensor.type")) d = Some (IText (txt "Induction Coil")) /\
  dget text_dec (txt ("run." ++ "hx" ++ ".sensor.type")) d = None /\ dget text_dec (txt ("run." ++ "hx" ++ ".sensor.manufacturer")) d = None.
Proof.
  apply (C123_sensor_refuted (txt " Hx Sen: MT8H7297   ") (txt "Hx Sen") ":" (txt " MT8H7297") (txt "MT8H7297") "hx"); try reflexivity; try inlist; try dec; [apply section_row_dec; vm_compute; reflexivity|exact (content_dec (txt " MT8H7297") eq_refl)].
Qed.

Print Assumptions C123_section.
Print Assumptions C123_two_columns.
Print Assumptions C123_one_column.
Print Assumptions C123_left_title_refuted.
Print Assumptions C123_right_title_refuted.
Print Assumptions C123_lost_column_refuted.
Print Assumptions C123_other_keys_refuted.
Print Assumptions C123_resistance_refuted.
Print Assumptions C123_sensor_refuted.
