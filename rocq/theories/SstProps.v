(** C119: a station with its runs, written as a StationXML station and read again. *)
From Coq Require Import QArith.
From Verif Require Import PyBase PyFacts PyText TextFacts ValidatorsProofs LayModel SxmlModel SxmlSpec SxmlProofs SxmlProps SxmlProps2 SxmlProps3 SstModel SstSpec SstProofs SstProofs2 SstProofs3.
From Coq Require Import Lia.
Local Open Scope list_scope.

(** Every station that can be written comes back: the id in capitals, which is also the FDSN id; the name, the comment, the place and the notes; its
    runs in order, with their times and values; times that cover the station and the runs. *)
Theorem C119_trip accepts s : writable accepts s -> exists s', trip accepts s = Ok s' /\ station_back s s'.
Proof. apply trip_ok. Qed.

Definition ex_run1 : run := mkRun (txt "mt01a") 500 900 [(txt "manufacturer", txt "Zonge"); (txt "model", txt "ZEN")] [(txt "firmware.name", txt "nim"); (txt "type", txt "broadband")]
  [(txt "acquired_by.author", txt "Sam K."); (txt "acquired_by.comments", txt "wind: high, rain"); (txt "metadata_by.author", txt "Lee")] (txt "state: fair, cows: many").
Definition ex_run2 : run := mkRun (txt "MT01B") 0 1200 [] [(txt "type", txt "long period")] [(txt "acquired_by.author", txt "Sam K.")] (txt "a fence").
Definition ex_station : station := mkSt (txt "mt01") (Some (txt "NVR")) (txt "Whitehorse, Yukon") (Some (txt "by the road")) (60%Q, (-135)%Q, 700%Q) 600 800 (txt "Sam K.")
  [(txt "data_type", txt "LPMT"); (txt "location.declination.value", txt "12.5"); (txt "location.declination.comments", txt "from a map"); (txt "orientation.method", [])] [ex_run1; ex_run2].
Ltac person := unfold silent, says; cbn; intros ? [? ?]; congruence.
Ltac wordy := apply word_good; reflexivity.
Lemma ex_writable : writable (fun _ _ => true) ex_station.
Proof.
  split; [|split; [|split]].
  - repeat (apply Forall_cons || apply Forall_nil).
    + split; [split; [discriminate|]; intros c I; vm_compute in I; repeat (destruct I as [<-|I]; [reflexivity|]); destruct I|].
      split; [repeat constructor; cbn [In map fst]; intros X; repeat (destruct X as [X|X]; [discriminate X|]); exact X|]. split; [discriminate|]. split; [repeat constructor; cbn [In map fst]; intros X; repeat (destruct X as [X|X]; [discriminate X|]); exact X|].
      split; [repeat (apply Forall_cons || apply Forall_nil); (split; [wordy|split; [wordy|split; discriminate]])|]. split; [|split].
      * right; right; right. exists (txt "Sam K."), (txt "wind: high, rain"). repeat (split; [split; [reflexivity|discriminate]|]).
        split; [split; [discriminate|split; [intros c r E; injection E as <- _; reflexivity|intros r c E; change (txt "Sam K.") with (txt "Sam K" ++ ["."%char]) in E; apply app_inj_tail in E as [_ <-]; reflexivity]]|].
        split; [split; [discriminate|split; [intros c r E; injection E as <- _; reflexivity|intros r c E; change (txt "wind: high, rain") with (txt "wind: high, rai" ++ ["n"%char]) in E; apply app_inj_tail in E as [_ <-]; reflexivity]]|]. reflexivity.
      * right; left. exists (txt "Lee"). split; [split; [reflexivity|discriminate]|]. split; [person|]. split; [apply (word_good (txt "Lee")); reflexivity|no_in].
      * right. exists [(txt "state", txt "fair"); (txt "cows", txt "many")]. split; [discriminate|]. split; [cbn; lia|]. split; [repeat constructor; cbn [In map fst]; intros X; repeat (destruct X as [X|X]; [discriminate X|]); exact X|]. split; [apply words_good; reflexivity|]. split; [left; repeat constructor|reflexivity].
    + split; [split; [discriminate|]; intros c I; vm_compute in I; repeat (destruct I as [<-|I]; [reflexivity|]); destruct I|].
      split; [constructor|]. split; [discriminate|]. split; [repeat constructor; intros []|]. split; [|split; [|split]].
      * constructor; [|constructor]. split; [wordy|]. split; [|split; discriminate]. split; [|split; no_in]. split; [discriminate|]. split; [intros c r E; injection E as <- _; reflexivity|]. intros r c E. change (txt "long period") with (txt "long perio" ++ ["d"%char]) in E. apply app_inj_tail in E as [_ <-]. reflexivity.
      * right; left. exists (txt "Sam K."). split; [split; [reflexivity|discriminate]|]. split; [person|]. split; [|no_in]. split; [discriminate|split; [intros c r E; injection E as <- _; reflexivity|intros r c E; change (txt "Sam K.") with (txt "Sam K" ++ ["."%char]) in E; apply app_inj_tail in E as [_ <-]; reflexivity]].
      * left. split; person.
      * left. no_in.
  - repeat constructor; cbn [In map]; intros X; repeat (destruct X as [X|X]; [discriminate X|]); exact X.
  - intros r E. discriminate E.
  - intros k v NK [H1 H2]. split; [|reflexivity]. unfold noted in NK. cbn [map] in NK. repeat (destruct NK as [<-|NK]; [vm_compute in H1; first [discriminate H1|injection H1 as <-; first [congruence|no_in]]|]). destruct NK.
Qed.
Example C119_trip_hyp : writable (fun _ _ => true) ex_station /\
  exists s', trip (fun _ _ => true) ex_station = Ok s' /\ s_id s' = txt "MT01" /\ s_start s' = 500%Z /\ s_end s' = 1200%Z /\ map r_by (s_runs s') = [r_by ex_run1; []] /\ map r_comment (s_runs s') = [r_comment ex_run1; []].
Proof. split; [exact ex_writable|]. eexists. split; [vm_compute; reflexivity|]. repeat split. Qed.

(** A second trip loses nothing more. *)
Lemma back_person d d' who : who_of who -> (forall k, person_key k -> same_words d d' k) -> clean_person d who -> clean_person d' who.
Proof.
  intros W H. assert (KA : person_key (who ++ txt ".author")) by (destruct W as [->| ->]; vm_compute; tauto). assert (KC : person_key (who ++ txt ".comments")) by (destruct W as [->| ->]; vm_compute; tauto).
  pose proof (H _ KA) as HA. pose proof (H _ KC) as HC.
  assert (SA : silent d (who ++ txt ".author") -> silent d' (who ++ txt ".author")) by (intros S v X; apply (S v); apply HA; exact X).
  assert (SC : silent d (who ++ txt ".comments") -> silent d' (who ++ txt ".comments")) by (intros S v X; apply (S v); apply HC; exact X).
  unfold clean_person. intros [[A C]|[(v & A & C & R)|[(v & A & C & R)|(v & w & A & C & R)]]].
  - left. split; auto.
  - right; left. exists v. split; [apply HA; exact A|split; [apply SC; exact C|exact R]].
  - right; right; left. exists v. split; [apply SA; exact A|split; [apply HC; exact C|exact R]].
  - right; right; right. exists v, w. split; [apply HA; exact A|split; [apply HC; exact C|exact R]].
Qed.
Lemma silent_nil k : silent [] k.
Proof. intros v [H _]. discriminate H. Qed.
Lemma back_writable r r' : writable_run r -> run_back r r' -> writable_run r'.
Proof.
  intros (A & NP & NL & NDL & PL & CA & CM & CC) (E1 & E2 & E3 & E4 & E5 & S & C & N). unfold writable_run. rewrite E1, E4, E5. repeat (split; [assumption|]). destruct (smallb (r_id r)) eqn:SB.
  - apply smallb_spec in SB. destruct (S SB) as [SW CK]. split; [apply (back_person (r_by r)); [left; reflexivity|exact SW|exact CA]|]. split; [apply (back_person (r_by r)); [right; reflexivity|exact SW|exact CM]|].
    destruct (has_char ":" (r_comment r)) eqn:HC; [apply has_char_In in HC; rewrite (CK HC); exact CC|apply has_char_notIn in HC; rewrite (N HC); left; intros []].
  - assert (NS : ~ small (r_id r)) by (intros X; apply smallb_spec in X; congruence). destruct (C NS) as [-> ->]. split; [left; split; apply silent_nil|]. split; [left; split; apply silent_nil|]. left. intros [].
Qed.
Lemma back_kept r r' r'' : run_back r r' -> run_back r' r'' -> run_kept r' r''.
Proof.
  intros (E1 & _ & _ & _ & _ & S & C & N) (F1 & F2 & F3 & F4 & F5 & S' & C' & N'). unfold run_kept. repeat (split; [assumption|]). rewrite E1 in S', C'. destruct (smallb (r_id r)) eqn:SB.
  - apply smallb_spec in SB. destruct (S' SB) as [SW CK]. split; [exact SW|]. destruct (has_char ":" (r_comment r')) eqn:HC; [apply has_char_In in HC; exact (CK HC)|apply has_char_notIn in HC; rewrite (N' HC)].
    destruct (has_char ":" (r_comment r)) eqn:HD; [apply has_char_In in HD; rewrite (proj2 (S SB) HD) in HC; contradiction|apply has_char_notIn in HD; rewrite (N HD); reflexivity].
  - assert (NS : ~ small (r_id r)) by (intros X; apply smallb_spec in X; congruence). destruct (C NS) as [-> ->]. destruct (C' NS) as [-> ->]. split; [|reflexivity]. intros k _ v. reflexivity.
Qed.
Lemma upper_upper s : upper (upper s) = upper s.
Proof. unfold upper. rewrite map_map. apply map_ext. intros c. pose proof (ascii_forall (fun c => Ascii.eqb (to_upper (to_upper c)) (to_upper c)) eq_refl c) as F. cbn beta in F. apply Ascii.eqb_eq in F. exact F. Qed.
Lemma back_ids a b : Forall2 run_back a b -> map r_id b = map r_id a /\ map r_start b = map r_start a /\ map r_end b = map r_end a.
Proof. induction 1 as [|r r' a b (E1 & E2 & E3 & _) F (IH1 & IH2 & IH3)]; [repeat split|]. cbn [map]. rewrite E1, E2, E3, IH1, IH2, IH3. repeat split. Qed.
Lemma earliest_same a l b c : earliest (a :: l) b -> earliest (b :: l) c -> c = b.
Proof.
  intros [[-> Z1]|(NB & IB & LB)] [[-> Z2]|(NC & IC & LC)].
  - reflexivity.
  - inversion Z1 as [|? ? -> Z1']; subst. rewrite Forall_forall in Z1'. destruct IC as [<-|IC]; [congruence|]. rewrite (Z1' c IC) in NC. congruence.
  - inversion Z2; congruence.
  - pose proof (LC b (or_introl eq_refl) NB). destruct IC as [<-|IC]; [reflexivity|]. pose proof (LB c (or_intror IC) NC). lia.
Qed.
Lemma latest_same a l b c : latest (a :: l) b -> latest (b :: l) c -> c = b.
Proof.
  intros [[-> Z1]|(NB & IB & LB)] [[-> Z2]|(NC & IC & LC)].
  - reflexivity.
  - inversion Z1 as [|? ? -> Z1']; subst. rewrite Forall_forall in Z1'. destruct IC as [<-|IC]; [congruence|]. rewrite (Z1' c IC) in NC. congruence.
  - inversion Z2; congruence.
  - pose proof (LC b (or_introl eq_refl) NB). destruct IC as [<-|IC]; [reflexivity|]. pose proof (LB c (or_intror IC) NC). lia.
Qed.
Lemma says_dec d k : (exists v, says d k v) \/ silent d k.
Proof. unfold says, silent, says. destruct (dget text_dec k d) as [[|c v]|]; [right; intros v [H1 H2]; congruence|left; exists (c :: v); split; [reflexivity|discriminate]|right; intros v [H1 H2]; discriminate H1]. Qed.
Lemma says_one d k v w : says d k v -> says d k w -> v = w.
Proof. intros [A _] [B _]. congruence. Qed.
Lemma usual_clean k : ~ In ":"%char (usual k).
Proof. unfold usual. destruct (text_eqb k (txt "data_type")); [no_in|]. destruct (text_eqb k (txt "location.declination.model")); [no_in|]. destruct (text_eqb k (txt "orientation.method")); [no_in|]. destruct (text_eqb k (txt "orientation.reference_frame")); [no_in|]. intros []. Qed.

Theorem C119_again accepts s s' : writable accepts s -> (forall k, noted k -> usual k <> [] -> accepts k (usual k) = true) -> trip accepts s = Ok s' ->
  exists s'', trip accepts s' = Ok s'' /\ station_kept s' s''.
Proof.
  intros W U T. pose proof W as (WR & ND & MN & WN). destruct (trip_ok accepts s W) as (x & T' & B). rewrite T in T'. injection T' as <-. pose proof B as (B1 & B2 & B3 & B4 & B5 & B6 & B7 & B8 & B9 & B10). destruct (back_ids _ _ B8) as (I1 & I2 & I3).
  assert (W' : writable accepts s').
  { split; [|split; [|split]].
    - clear -WR B8. induction B8 as [|r r' a b R F IH]; [constructor|]. inversion WR; subst. constructor; [exact (back_writable r r' H1 R)|exact (IH H2)].
    - rewrite <- (map_map r_id lower), I1, map_map. exact ND.
    - intros r E. rewrite E in I1. cbn [map] in I1. destruct (s_runs s) as [|r0 [|? ?]] eqn:ES; [discriminate I1| |discriminate I1]. injection I1 as ->. apply MN. reflexivity.
    - intros k v NK S. destruct (B7 k NK) as [H1 H2]. destruct (says_dec (s_notes s) k) as [(w & Sw)|SI].
      + rewrite (says_one _ _ _ _ S (H1 w Sw)). apply WN; assumption.
      + apply (H2 SI) in S as [-> N]. split; [apply usual_clean|apply U; assumption]. }
  destruct (trip_ok accepts s' W') as (s'' & T2 & C1 & C2 & C3 & C4 & C5 & C6 & C7 & C8 & C9 & C10). exists s''. split; [exact T2|].
  unfold station_kept. split; [rewrite C1, B1; apply upper_upper|]. split; [rewrite C2, B2, B1, upper_upper; reflexivity|]. repeat (split; [assumption|]). split; [rewrite I2 in C9; exact (earliest_same _ _ _ _ B9 C9)|]. split; [rewrite I3 in C10; exact (latest_same _ _ _ _ B10 C10)|].
  split; [rewrite C6, B6; reflexivity|]. split.
  - intros k NK v. destruct (C7 k NK) as [H1 H2]. destruct (B7 k NK) as [G1 G2]. split; [apply H1|]. intros S. destruct (says_dec (s_notes s') k) as [(w & Sw)|SI]; [rewrite (says_one _ _ _ _ S (H1 w Sw)); exact Sw|].
    apply (H2 SI) in S as [-> N]. exfalso. destruct (says_dec (s_notes s) k) as [(w & Sw)|SJ]; [exact (SI w (G1 w Sw))|]. apply (SI (usual k)). apply G2; [exact SJ|split; [reflexivity|exact N]].
  - clear -B8 C8. revert C8. generalize (s_runs s''). induction B8 as [|r r' a b R F IH]; intros l L; inversion L; subst; constructor; [exact (back_kept r r' _ R H1)|exact (IH _ H3)].
Qed.
Example C119_again_hyp : exists s', trip (fun _ _ => true) ex_station = Ok s' /\ trip (fun _ _ => true) s' = Ok s'.
Proof. eexists. split; [vm_compute; reflexivity|]. vm_compute. reflexivity. Qed.

(** ** What is lost or fails *)
(** The id for FDSN is not the one that was given. *)
Theorem C119_fdsn_refuted accepts s f : writable accepts s -> s_fdsn s = Some f -> f <> upper (s_id s) -> exists s', trip accepts s = Ok s' /\ s_fdsn s' <> s_fdsn s.
Proof. intros W E N. destruct (trip_ok accepts s W) as (s' & T & _ & B & _). exists s'. split; [exact T|]. rewrite B, E. congruence. Qed.
Example C119_fdsn_hyp : s_fdsn ex_station = Some (txt "NVR") /\ txt "NVR" <> upper (s_id ex_station). Proof. split; [reflexivity|discriminate]. Qed.
(** Who acquired the station is written, but not read. *)
Theorem C119_operator_refuted accepts s : writable accepts s -> s_author s <> [] -> x_operators (mt_to_xml s) = [s_author s] /\ exists s', trip accepts s = Ok s' /\ s_author s' = [].
Proof. intros W N. split; [unfold mt_to_xml; cbn [x_operators]; destruct (s_author s); [congruence|reflexivity]|]. destruct (trip_ok accepts s W) as (s' & T & _ & _ & _ & _ & _ & B & _). exists s'. split; assumption. Qed.
(** Times of runs outside of the station's become the station's. *)
Theorem C119_period_refuted accepts s r : writable accepts s -> In r (s_runs s) -> r_start r <> 0%Z -> (s_start s = 0%Z \/ (r_start r < s_start s)%Z) ->
  exists s', trip accepts s = Ok s' /\ s_start s' <> s_start s.
Proof.
  intros W I N L. destruct (trip_ok accepts s W) as (s' & T & _ & _ & _ & _ & _ & _ & _ & _ & B & _). exists s'. split; [exact T|]. intros E. rewrite E in B. destruct B as [[B0 BZ]|(B0 & BI & BL)].
  - rewrite Forall_forall in BZ. apply N. apply BZ. right. apply in_map. exact I.
  - specialize (BL (r_start r) (or_intror (in_map _ _ _ I)) N). lia.
Qed.
Example C119_period_hyp : In ex_run1 (s_runs ex_station) /\ r_start ex_run1 <> 0%Z /\ (r_start ex_run1 < s_start ex_station)%Z. Proof. split; [left; reflexivity|]. split; [discriminate|reflexivity]. Qed.
(** A note with ":" cannot be read. *)
Lemma take_fails accepts c : (forall st, exists e, take_comment accepts c st = Err e) -> forall l, In c l -> forall st, exists e, take_comments accepts l st = Err e.
Proof.
  intros F. induction l as [|x l IH]; intros I st; [destruct I|]. cbn [take_comments]. destruct I as [->|I]; [destruct (F st) as (e & ->); exists e; reflexivity|]. destruct (take_comment accepts x st) as [st'|e]; [apply IH; exact I|exists e; reflexivity].
Qed.
Theorem C119_colon_refuted accepts s k v : noted k -> k <> txt "location.declination.comments" -> says (s_notes s) k v -> In ":"%char v -> exists e, trip accepts s = Err e.
Proof.
  intros NK ND S I. unfold trip, xml_to_mt. cbn [mt_to_xml x_comments].
  assert (NV : note s k = v) by (unfold note; destruct S as [-> _]; reflexivity). assert (NE : nonempty (note s k) = true) by (rewrite NV; destruct S as [_ S]; destruct v; [congruence|reflexivity]).
  assert (F : forall st, exists e, take_comment accepts (Some (txt "mt.station." ++ k), v) st = Err e).
  { intros [st acc]. destruct (note_keys_ok k NK) as (K1 & K2 & K3 & K4 & K5 & K6). unfold take_comment, read_comment. cbn [fst snd]. unfold comment_value. apply has_char_In in I. rewrite I. destruct (parse 21 v []) as [d|e]; [|exists e; reflexivity]. cbn [bindR]. rewrite K1. cbn [fst snd]. rewrite K2, K3, K4. unfold set_key.
    destruct (text_eqb k (txt "location.declination.comments")) eqn:X; [apply text_eqb_eq in X; congruence|]. exists ValueError. reflexivity. }
  destruct (take_fails accepts _ F (station_comments s ++ flat_map run_comments (s_runs s))) with (st := (new_station, @nil (text * cvalue))) as (e & E); [|rewrite E; exists e; reflexivity].
  apply in_or_app. left. unfold station_comments. apply in_or_app. left. apply in_flat_map. exists k. split; [exact NK|]. rewrite NE, NV. left. reflexivity.
Qed.
Example C119_colon_hyp : noted (txt "provenance.software.name") /\ says [(txt "provenance.software.name", txt "MTH5: tools")] (txt "provenance.software.name") (txt "MTH5: tools") /\ In ":"%char (txt "MTH5: tools").
Proof. split; [vm_compute; tauto|]. split; [split; [reflexivity|discriminate]|vm_compute; tauto]. Qed.
(** The comment on the declination is lost if it has ":". *)
Theorem C119_declination_refuted : exists s s', says (s_notes s) (txt "location.declination.comments") (txt "read from: a map") /\ trip (fun _ _ => true) s = Ok s' /\ silent (s_notes s') (txt "location.declination.comments").
Proof.
  exists (mkSt (txt "mt01") None [] None (0%Q, 0%Q, 0%Q) 0 0 [] [(txt "location.declination.comments", txt "read from: a map")] []). eexists. split; [split; [reflexivity|discriminate]|]. split; [vm_compute; reflexivity|]. intros v [H N]. vm_compute in H. injection H as <-. congruence.
Qed.
(** No station is read that has a run without values of its data logger. *)
Lemma put_fails es e : In e es -> (exists x, to_run e = Err x) -> forall st, exists x, put_equipments es st = Err x.
Proof.
  intros I (x & E). induction es as [|y es IH]; intros st; [destruct I|]. cbn [put_equipments]. destruct I as [->|I]; [rewrite E; exists x; reflexivity|]. destruct (to_run y) as [it|z]; [apply IH; exact I|exists z; reflexivity].
Qed.
Theorem C119_no_logger_refuted accepts s r : In r (s_runs s) -> r_logger r = [] -> exists e, trip accepts s = Err e.
Proof.
  intros I L. unfold trip, xml_to_mt. cbn [mt_to_xml x_comments x_equipments]. destruct (take_comments accepts _ _) as [[st acc]|e]; [|exists e; reflexivity]. cbn [bindR fst snd].
  destruct (put_fails (map to_equipment (s_runs s)) (to_equipment r) (in_map _ _ _ I)) with (st := set_fields (mt_to_xml s) st) as (e & E); [|exists e; rewrite E; reflexivity].
  exists ValueError. unfold to_run, to_equipment. cbn [e_description]. rewrite L. reflexivity.
Qed.
Example C119_no_logger_hyp : r_logger (new_run (txt "a")) = []. Proof. reflexivity. Qed.
(** Nor one whose only run has a name that means nothing. *)
Theorem C119_no_name_refuted accepts s r : s_runs s = [r] -> means_nothing (r_id r) -> exists e, trip accepts s = Err e.
Proof.
  intros R M. unfold trip, xml_to_mt. cbn [mt_to_xml x_comments].
  assert (F : forall st, exists e, take_comment accepts (Some (txt "mt.station.run_list"), r_id r) st = Err e).
  { intros [st acc]. exists ValueError. unfold means_nothing in M. cbn [map] in M. repeat (destruct M as [<-|M]; [reflexivity|]). destruct M. }
  destruct (take_fails accepts _ F (station_comments s ++ flat_map run_comments (s_runs s))) with (st := (new_station, @nil (text * cvalue))) as (e & E); [|rewrite E; exists e; reflexivity].
  apply in_or_app. left. unfold station_comments. apply in_or_app. right. rewrite R. left. reflexivity.
Qed.

Print Assumptions C119_trip.
Print Assumptions C119_again.
Print Assumptions C119_fdsn_refuted.
Print Assumptions C119_operator_refuted.
Print Assumptions C119_period_refuted.
Print Assumptions C119_colon_refuted.
Print Assumptions C119_declination_refuted.
Print Assumptions C119_no_logger_refuted.
Print Assumptions C119_no_name_refuted.
