(** C124: the INFO section of Empower EDI files. *)
From Verif Require Import PyBase PyFacts PyText TextFacts PyNum PyFloat PyRepr ValidatorsProofs EdiProofs EdiMetaModel EdiMetaSpec HeadSpec HeadProofs InfoModel InfoSpec InfoProofs InfoProps PhxSpec PhxProofs PhxProofs2 EmpSpec EmpProofs EmpProofs2 EmpProofs3.
From Coq Require Import Lia.
Local Open Scope list_scope.

Theorem C124_section pre heading lines p ws post : Forall no_info pre -> says ">info" heading -> Forall (fun s => strip s = [] \/ empower_row s) lines -> Exists of_empower lines -> after_info post ->
  lines_say start_spot (bare_rows lines) p ws ->
  exists d, read_info (pre ++ heading :: lines ++ post) = Ok d /\ NoDup (map fst d) /\ forall K, dget text_dec K d = option_map IText (found_in ws K).
Proof.
  intros P H F X Q L. rewrite (empower_reads pre heading lines post P H F X Q).
  destruct (lines_hold _ _ _ _ L (mkPlace (txt "general") None None) [] []) as (p' & d' & E & _ & HD).
  - split; [reflexivity|left; reflexivity].
  - split; [constructor|]. split; [constructor|]. intros K. reflexivity.
  - eexists. split; [reflexivity|]. pose proof (f_equal snd E) as E2. cbn [snd] in E2. rewrite <- E2 in HD. destruct (holds_final _ ws HD) as (A & B). split; [exact A|exact B].
Qed.
Theorem C124_value s v : value_of s v -> empower_value s = v.
Proof. apply value_reads. Qed.

(** ** Deciding *)
Lemma row_dec l : forallb (fun s => negb (nonempty (strip s)) || negb (has_char ">" s))%bool l = true -> Forall (fun s => strip s = [] \/ empower_row s) l.
Proof.
  intros H. apply Forall_forall. intros s I. rewrite forallb_forall in H. specialize (H s I). destruct (strip s) as [|c t] eqn:E; [left; reflexivity|right]. cbn [nonempty negb orb] in H. apply negb_true_iff in H. split; [rewrite E; discriminate|apply has_char_notIn; exact H].
Qed.
Lemma no_char_dec l s : forallb (fun c => negb (existsb (Ascii.eqb c) l)) s = true -> no_char l s.
Proof. intros H c I J. rewrite forallb_forall in H. specialize (H c I). apply negb_true_iff in H. assert (X : existsb (Ascii.eqb c) l = true) by (apply existsb_exists; exists c; split; [exact J|apply Ascii.eqb_refl]). rewrite X in H. discriminate H. Qed.
Lemma plain_dec s : has_char "[" s = false -> contains (txt " m") s = false -> contains (txt " V") s = false -> strip s = s -> value_of s s.
Proof. intros A B C D. apply value_plain; [apply has_char_notIn; exact A|apply no_mentions; exact B|apply no_mentions; exact C|exact D]. Qed.
Lemma names_dec l k : existsb (fun n => text_eqb (txt n) k) l = false -> ~ names l k.
Proof. intros H (n & I & ->). assert (X : existsb (fun n0 => text_eqb (txt n0) (txt n)) l = true) by (apply existsb_exists; exists n; split; [exact I|apply text_eqb_eq; reflexivity]). rewrite X in H. discriminate H. Qed.
Lemma separated_dec s : has_separator s = false -> ~ separated s.
Proof. intros H S. apply has_separator_spec in S. rewrite S in H. discriminate H. Qed.
Ltac inlist := cbn; tauto.
Ltac plain := apply plain_dec; reflexivity.

Definition sample : list text := map txt
  ["PROJECT=test"; "PROCESSINGSOFTWARE=EMpower v2.9.0.7"; "DURATION: 24h 47m 13s"; ""; " EDITING WORKBENCH"; "   TOTAL REJECTED: 0.0000%"; " STATIONS"; " ELECTRICS"; "   RECORDING ID: 10526_2023-05-19-170246"; "   AZIMUTH: 0";
   "   EX"; "     TAG: E1"; "     LENGTH: 95.3 [m]"; "     AC: 2.5 [V]"; "     SATURATION: 0.0870754%"; "     MIN VALUE: -1.25 [V]"; " MAGNETICS"; "   STATION NAME: 701 Walden South"; "   H2"; "     AC: 0.00976562 [V]"; "     DC: -0.0160217 [V]"; "     SENSOR SERIAL: 57507"; "     GAIN: 4"]%string.
Definition sample_writes : list write :=
  [Put (txt "project") (txt "test"); Put (txt "transfer_function.software.name") (txt "EMpower v2.9.0.7"); Put (txt "duration") (txt "24h 47m 13s"); Put (txt "editing_workbench.total rejected") (txt "0.0000%");
   Put (txt "run.id") (txt "10526_2023-05-19-170246"); Put (txt "run.measured_azimuth") (txt "0"); Put (txt "run.ex.component") (txt "ex"); Put (txt "run.ex.dipole_length") (txt "95.3"); Put (txt "run.ex.ac.end") (txt "2.5");
   Note (txt "run.ex.comments") (txt "saturation=0.0870754%"); Note (txt "run.ex.comments") (txt "min value=-1.25"); Put (txt "station.geographic_name") (txt "701 Walden South");
   Note (txt "run.hy.comments.end") (txt "ac=0.00976562"); Note (txt "run.hy.comments.end") (txt "dc=-0.0160217"); Put (txt "run.hy.sensor.id") (txt "57507"); Put (txt "run.hy.gain") (txt "4")].
Lemma say_cons p s q ws ls r ws' all : line_says p s q ws -> all = ws ++ ws' -> lines_say q ls r ws' -> lines_say p (s :: ls) r all.
Proof. intros A -> B. exact (lines_cons p s q ws ls r ws' A B). Qed.
Lemma say_entry p s k c x v ws : s = k ++ c :: x -> In c separators -> has_separator k = false -> value_of (strip x) v -> entry_says p (lower (strip k)) v ws -> line_says p s p ws.
Proof. intros -> C N V E. exact (says_entry p k c x v ws C (separated_dec k N) V E). Qed.
Lemma unit_dec n u s : s = n ++ txt " [" ++ u ++ txt "]" -> (2 <=? List.length n)%nat = true -> forallb (fun c => negb (existsb (Ascii.eqb c) [" "; "["; "]"; ","]%char)) n = true -> strip n = n -> forallb (fun c => negb (existsb (Ascii.eqb c) ["["; "]"; ","]%char)) u = true -> value_of s n.
Proof. intros -> A B C D. apply value_unit; [apply Nat.leb_le; exact A|apply no_char_dec; exact B|exact C|apply no_char_dec; exact D]. Qed.
Lemma sample_says : lines_say start_spot (bare_rows sample) (Block "magnetics" (Some "h2"%string)) sample_writes.
Proof.
  let x := eval vm_compute in (map string_of_list_ascii (bare_rows sample)) in assert (E : bare_rows sample = map txt x) by (vm_compute; reflexivity). rewrite E. clear E. unfold sample_writes. cbn [map].
  eapply say_cons; [exact (say_entry _ _ (txt "PROJECT") "=" (txt "test") (txt "test") _ eq_refl ltac:(inlist) eq_refl ltac:(plain) (says_general_other (txt "project") _ ltac:(apply names_dec; vm_compute; reflexivity) ltac:(apply no_mentions; reflexivity)))|reflexivity|].
  eapply say_cons; [exact (say_entry _ _ (txt "PROCESSINGSOFTWARE") "=" (txt "EMpower v2.9.0.7") (txt "EMpower v2.9.0.7") _ eq_refl ltac:(inlist) eq_refl ltac:(plain) (says_general "processingsoftware" "transfer_function.software.name" _ ltac:(inlist)))|reflexivity|].
  eapply say_cons; [exact (say_entry _ _ (txt "DURATION") ":" (txt " 24h 47m 13s") (txt "24h 47m 13s") _ eq_refl ltac:(inlist) eq_refl ltac:(plain) (says_general_other (txt "duration") _ ltac:(apply names_dec; vm_compute; reflexivity) ltac:(apply no_mentions; reflexivity)))|reflexivity|].
  eapply say_cons; [apply says_workbench; reflexivity|reflexivity|].
  eapply say_cons; [exact (say_entry _ _ (txt "TOTAL REJECTED") ":" (txt " 0.0000%") (txt "0.0000%") _ eq_refl ltac:(inlist) eq_refl ltac:(plain) (says_early "editing_workbench" (txt "total rejected") _ ltac:(discriminate) ltac:(apply names_dec; vm_compute; reflexivity) ltac:(apply no_mentions; reflexivity)))|reflexivity|].
  eapply say_cons; [apply says_stations; reflexivity|reflexivity|].
  eapply say_cons; [apply (says_first_block _ "electrics"); [inlist|reflexivity]|reflexivity|].
  eapply say_cons; [exact (say_entry _ _ (txt "RECORDING ID") ":" (txt " 10526_2023-05-19-170246") (txt "10526_2023-05-19-170246") _ eq_refl ltac:(inlist) eq_refl ltac:(plain) (says_run "electrics" None "recording id" "run.id" _ ltac:(discriminate) I ltac:(inlist)))|reflexivity|].
  eapply say_cons; [exact (say_entry _ _ (txt "AZIMUTH") ":" (txt " 0") (txt "0") _ eq_refl ltac:(inlist) eq_refl ltac:(plain) (says_azimuth "electrics" _))|reflexivity|].
  eapply say_cons; [apply (says_channel "electrics" None "ex"); [inlist|reflexivity]|reflexivity|].
  eapply say_cons; [exact (say_entry _ _ (txt "TAG") ":" (txt " E1") (txt "E1") _ eq_refl ltac:(inlist) eq_refl ltac:(plain) (says_tag "electrics" "ex" "ex" _ ltac:(inlist)))|reflexivity|].
  eapply say_cons; [exact (say_entry _ _ (txt "LENGTH") ":" (txt " 95.3 [m]") (txt "95.3") _ eq_refl ltac:(inlist) eq_refl (unit_dec (txt "95.3") (txt "m") _ eq_refl eq_refl eq_refl eq_refl eq_refl) (says_attribute "electrics" "ex" "ex" "length" "dipole_length" _ ltac:(inlist) ltac:(inlist)))|reflexivity|].
  eapply say_cons; [exact (say_entry _ _ (txt "AC") ":" (txt " 2.5 [V]") (txt "2.5") _ eq_refl ltac:(inlist) eq_refl (unit_dec (txt "2.5") (txt "V") _ eq_refl eq_refl eq_refl eq_refl eq_refl) (says_electric "electrics" "ex" "ex" "ac" "ac.end" _ ltac:(inlist) ltac:(inlist)))|reflexivity|].
  eapply say_cons; [exact (say_entry _ _ (txt "SATURATION") ":" (txt " 0.0870754%") (txt "0.0870754%") _ eq_refl ltac:(inlist) eq_refl ltac:(plain) (says_remark "electrics" "ex" "ex" "saturation" _ ltac:(inlist) ltac:(inlist)))|reflexivity|].
  eapply say_cons; [exact (say_entry _ _ (txt "MIN VALUE") ":" (txt " -1.25 [V]") (txt "-1.25") _ eq_refl ltac:(inlist) eq_refl (unit_dec (txt "-1.25") (txt "V") _ eq_refl eq_refl eq_refl eq_refl eq_refl) (says_remark "electrics" "ex" "ex" "min value" _ ltac:(inlist) ltac:(inlist)))|reflexivity|].
  eapply say_cons; [apply (says_next_block _ _ "magnetics"); [inlist|reflexivity]|reflexivity|].
  eapply say_cons; [exact (say_entry _ _ (txt "STATION NAME") ":" (txt " 701 Walden South") (txt "701 Walden South") _ eq_refl ltac:(inlist) eq_refl ltac:(plain) (says_run "magnetics" (Some "ex"%string) "station name" "station.geographic_name" _ ltac:(discriminate) ltac:(inlist) ltac:(inlist)))|reflexivity|].
  eapply say_cons; [apply (says_channel "magnetics" _ "h2"); [inlist|reflexivity]|reflexivity|].
  eapply say_cons; [exact (say_entry _ _ (txt "AC") ":" (txt " 0.00976562 [V]") (txt "0.00976562") _ eq_refl ltac:(inlist) eq_refl (unit_dec (txt "0.00976562") (txt "V") _ eq_refl eq_refl eq_refl eq_refl eq_refl) (says_magnetic "magnetics" "h2" "hy" "ac" _ ltac:(inlist) (or_introl eq_refl)))|reflexivity|].
  eapply say_cons; [exact (say_entry _ _ (txt "DC") ":" (txt " -0.0160217 [V]") (txt "-0.0160217") _ eq_refl ltac:(inlist) eq_refl (unit_dec (txt "-0.0160217") (txt "V") _ eq_refl eq_refl eq_refl eq_refl eq_refl) (says_magnetic "magnetics" "h2" "hy" "dc" _ ltac:(inlist) (or_intror eq_refl)))|reflexivity|].
  eapply say_cons; [exact (say_entry _ _ (txt "SENSOR SERIAL") ":" (txt " 57507") (txt "57507") _ eq_refl ltac:(inlist) eq_refl ltac:(plain) (says_attribute "magnetics" "h2" "hy" "sensor serial" "sensor.id" _ ltac:(inlist) ltac:(inlist)))|reflexivity|].
  eapply say_cons; [refine (say_entry _ _ (txt "GAIN") ":" (txt " 4") (txt "4") _ eq_refl ltac:(inlist) eq_refl ltac:(plain) (says_channel_other "magnetics" "h2" "hy" (txt "gain") _ ltac:(inlist) ltac:(apply names_dec; vm_compute; reflexivity) _))|reflexivity|apply lines_nil].
  split; [|split; [discriminate|intros (a & X); apply (f_equal (@rev ascii)) in X; rewrite rev_app_distr in X; discriminate X]]. intros w IW. apply no_mentions. repeat (destruct IW as [<-|IW]; [reflexivity|]). contradiction IW.
Qed.
Example C124_section_hyp : exists d, read_info ([txt ">HEAD"] ++ txt ">INFO" :: sample ++ [txt ">=DEFINEMEAS"]) = Ok d /\ dget text_dec (txt "run.hy.comments.end") d = Some (IText (txt "ac=0.00976562,dc=-0.0160217")) /\ dget text_dec (txt "run.ex.dipole_length") d = Some (IText (txt "95.3")) /\ dget text_dec (txt "run.hx.sensor.id") d = None.
Proof.
  destruct (C124_section [txt ">HEAD"] (txt ">INFO") sample (Block "magnetics" (Some "h2"%string)) sample_writes [txt ">=DEFINEMEAS"]) as (d & E & _ & G).
  - constructor; [|constructor]. intros H. vm_compute in H. discriminate H.
  - reflexivity.
  - apply row_dec. vm_compute. reflexivity.
  - apply Exists_exists. exists (txt " ELECTRICS"). split; [unfold sample; cbn [map]; do 7 right; left; reflexivity|]. split; [intros H; vm_compute in H; discriminate H|left; reflexivity].
  - right. exists (txt ">=DEFINEMEAS"), [], (txt "=DEFINEMEAS"). split; [reflexivity|]. split; [intros H; vm_compute in H; discriminate H|reflexivity].
  - exact sample_says.
  - exists d. split; [exact E|]. rewrite !G. repeat split; vm_compute; reflexivity.
Qed.
Example C124_value_hyp : value_of (txt "95.3 [m]") (txt "95.3") /\ value_of (txt "5 [m]") (txt "5 [m]") /\ value_of (txt "701 Walden South") (txt "701 Walden South").
Proof. split; [apply (unit_dec (txt "95.3") (txt "m")); reflexivity|]. split; [apply (value_short "5" (txt "m")); [reflexivity|intros [X|[X|[]]]; discriminate X|apply no_char_dec; reflexivity]|plain]. Qed.

(** ** Boundaries *)
(** A small file. *)
Definition file (lines : list text) : list text := txt ">INFO" :: lines ++ [txt ">END"].
Lemma file_reads lines p ws : Forall (fun s => strip s = s /\ empower_row s) lines -> Exists of_empower lines -> lines_say start_spot lines p ws ->
  exists d, read_info (file lines) = Ok d /\ NoDup (map fst d) /\ forall K, dget text_dec K d = option_map IText (found_in ws K).
Proof.
  intros F X L. apply (C124_section [] (txt ">INFO") lines p ws [txt ">END"]); [constructor|reflexivity| |exact X| |].
  - eapply Forall_impl; [|exact F]. intros s (_ & R). right. exact R.
  - right. exists (txt ">END"), [], (txt "END"). split; [reflexivity|]. split; [intros H; vm_compute in H; discriminate H|reflexivity].
  - replace (bare_rows lines) with lines; [exact L|]. clear - F. induction F as [|s l (S & N & _) F IH]; [reflexivity|]. unfold bare_rows in *. cbn [map filter]. rewrite S. destruct s as [|c s]; [contradiction N; reflexivity|]. f_equal. exact IH.
Qed.
(** A value that ends up as it is written. *)
Definition plain_value (v : text) : Prop := v <> [] /\ strip v = v /\ no_char ["["; ">"; "m"; "V"]%char v.
Lemma plain_value_of v : plain_value v -> value_of v v.
Proof.
  intros (_ & S & N). assert (M : forall c, In c ["["; ">"; "m"; "V"]%char -> ~ mentions (String " " (String c EmptyString)) v). { intros c I (a & b & E). apply (N c); [|exact I]. rewrite E. apply in_or_app. right. right. left. reflexivity. }
  apply value_plain; [intros I; apply (N _ I); left; reflexivity|apply (M "m"%char); inlist|apply (M "V"%char); inlist|exact S].
Qed.
Lemma strip_after k v : plain_value v -> (exists c r, k = c :: r /\ is_space c = false) -> strip (k ++ v) = k ++ v.
Proof.
  intros (V & S & _) (c & r & -> & C). apply strip_trimmed. split; intros x t X; [injection X as <- _; exact C|].
  destruct (exists_last V) as (a & z & ->). rewrite app_assoc in X. apply app_inj_tail in X as [_ <-]. pose proof (trimmed_strip (a ++ [z])) as T. rewrite S in T. destruct T as (_ & T). exact (T z a eq_refl).
Qed.
Definition entry (k : string) (v : text) : text := txt k ++ txt ": " ++ v.
Definition key_ok (k : string) : bool := negb (has_separator (txt k)) && text_eqb (lower (strip (txt k))) (txt k) && negb (has_char ">" (txt k)) && match txt k with [] => false | c :: _ => negb (is_space c) end.
Lemma entry_row k v : key_ok k = true -> plain_value v -> strip (entry k v) = entry k v /\ empower_row (entry k v).
Proof.
  intros K V. unfold key_ok in K. rewrite !andb_true_iff in K. destruct K as (((_ & _) & G) & C). apply negb_true_iff, has_char_notIn in G. unfold entry.
  assert (E : strip (txt k ++ txt ": " ++ v) = txt k ++ txt ": " ++ v). { rewrite app_assoc. apply strip_after; [exact V|]. destruct (txt k) as [|c r]; [discriminate C|]. exists c, (r ++ txt ": "). split; [reflexivity|apply negb_true_iff; exact C]. }
  split; [exact E|]. split; [rewrite E; destruct (txt k); discriminate|]. intros I. apply in_app_or in I as [I|I]; [exact (G I)|]. apply in_app_or in I as [I|I]; [destruct I as [X|[X|[]]]; discriminate X|]. destruct V as (_ & _ & N). apply (N _ I). inlist.
Qed.
Lemma entry_says_line p k v ws : key_ok k = true -> plain_value v -> entry_says p (txt k) v ws -> line_says p (entry k v) p ws.
Proof.
  intros K V E. unfold key_ok in K. rewrite !andb_true_iff in K. destruct K as (((S & L) & _) & _). apply negb_true_iff in S. apply text_eqb_eq in L.
  apply (say_entry p _ (txt k) ":" (" "%char :: v) v ws); [reflexivity|inlist|exact S| |rewrite L; exact E].
  replace (strip (" "%char :: v)) with v; [apply plain_value_of; exact V|]. destruct V as (_ & Z & _). rewrite <- Z at 1. reflexivity.
Qed.
Lemma word_row w : forallb (fun c => negb (is_space c) && negb (Ascii.eqb c ">"))%bool (txt w) = true -> w <> EmptyString -> strip (txt w) = txt w /\ empower_row (txt w).
Proof.
  intros H N. rewrite forallb_forall in H. assert (A : forall c, In c (txt w) -> is_space c = false /\ c <> ">"%char). { intros c I. specialize (H c I). apply andb_true_iff in H as (X & Y). split; [apply negb_true_iff; exact X|]. intros ->. discriminate Y. }
  assert (E : strip (txt w) = txt w). { apply strip_trimmed. split; intros x t X; apply (A x); rewrite X; [left; reflexivity|apply in_or_app; right; left; reflexivity]. }
  split; [exact E|]. split; [rewrite E; destruct w; [contradiction N; reflexivity|discriminate]|]. intros I. destruct (A _ I) as (_ & X). apply X. reflexivity.
Qed.
Lemma block_row b : In b blocks -> strip (txt b) = txt b /\ empower_row (txt b).
Proof. intros I. apply word_row; repeat (destruct I as [<-|I]; [reflexivity || discriminate|]); contradiction I. Qed.
Lemma channel_row c : In c (map fst channels) -> strip (txt c) = txt c /\ empower_row (txt c).
Proof. intros I. apply word_row; repeat (destruct I as [<-|I]; [reflexivity || discriminate|]); contradiction I. Qed.
Lemma low_block b : In b blocks -> lower (txt b) = txt b.
Proof. intros I. repeat (destruct I as [<-|I]; [reflexivity|]). contradiction I. Qed.
Lemma low_channel c : In c (map fst channels) -> lower (txt c) = txt c.
Proof. intros I. repeat (destruct I as [<-|I]; [reflexivity|]). contradiction I. Qed.
Lemma marks b : b = "electrics"%string \/ b = "magnetics"%string -> of_empower (txt b) /\ In b blocks.
Proof. intros [-> | ->]; (split; [split; [intros X; vm_compute in X; discriminate X|]|inlist]); [left|right; left]; reflexivity. Qed.
Lemma one_found K v : found_in [Put K v] K = Some v.
Proof. unfold found_in. cbn [remarks last_put]. assert (E : text_eqb K K = true) by (apply text_eqb_eq; reflexivity). rewrite E. reflexivity. Qed.
Lemma other_found K L v : text_eqb K L = false -> found_in [Put K v] L = None.
Proof. intros E. unfold found_in. cbn [remarks last_put]. rewrite E. reflexivity. Qed.

(** A block after a channel keeps that channel: the azimuth of the block becomes that of the channel. *)
Theorem C124_next_block_refuted : exists b c n b', In b blocks /\ In (c, n) channels /\ In b' blocks /\ forall v, plain_value v -> exists d, read_info (file [txt b; txt c; txt b'; entry "azimuth" v]) = Ok d /\
  dget text_dec (txt (home b' ++ "measured_azimuth")) d = None /\ dget text_dec (txt (home b' ++ n ++ ".measured_azimuth")) d = Some (IText v).
Proof.
  exists "electrics"%string, "ey"%string, "ey"%string, "magnetics"%string. split; [inlist|]. split; [inlist|]. split; [inlist|]. intros v V.
  destruct (file_reads [txt "electrics"; txt "ey"; txt "magnetics"; entry "azimuth" v] (Block "magnetics" (Some "ey"%string)) [Put (txt "run.ey.measured_azimuth") v]) as (d & E & _ & G).
  - constructor; [apply block_row; inlist|]. constructor; [apply channel_row; inlist|]. constructor; [apply block_row; inlist|]. constructor; [apply entry_row; [reflexivity|exact V]|constructor].
  - constructor. apply marks. left. reflexivity.
  - eapply say_cons; [apply (says_first_block _ "electrics"); [inlist|reflexivity]|reflexivity|]. eapply say_cons; [apply (says_channel _ _ "ey"); [inlist|reflexivity]|reflexivity|]. eapply say_cons; [apply (says_next_block _ _ "magnetics"); [inlist|reflexivity]|reflexivity|].
    eapply say_cons; [apply entry_says_line; [reflexivity|exact V|]; apply (says_attribute "magnetics" "ey" "ey" "azimuth" "measured_azimuth"); inlist|reflexivity|apply lines_nil].
  - exists d. split; [exact E|]. rewrite !G. split; [rewrite other_found by reflexivity; reflexivity|]. change (txt (home "magnetics" ++ "ey" ++ ".measured_azimuth")) with (txt "run.ey.measured_azimuth"). rewrite one_found. reflexivity.
Qed.
(** The recording of the remote reference replaces that of the run. *)
Theorem C124_reference_id_refuted x y : plain_value x -> plain_value y -> exists d, read_info (file [txt "electrics"; entry "recording id" x; txt "reference"; entry "recording id" y]) = Ok d /\
  dget text_dec (txt "run.id") d = Some (IText y) /\ dget text_dec (txt "transfer_function.remote_references.id") d = None.
Proof.
  intros X Y. destruct (file_reads [txt "electrics"; entry "recording id" x; txt "reference"; entry "recording id" y] (Block "reference" None) [Put (txt "run.id") x; Put (txt "run.id") y]) as (d & E & _ & G).
  - constructor; [apply block_row; inlist|]. constructor; [apply entry_row; [reflexivity|exact X]|]. constructor; [apply block_row; inlist|]. constructor; [apply entry_row; [reflexivity|exact Y]|constructor].
  - constructor. apply marks. left. reflexivity.
  - eapply say_cons; [apply (says_first_block _ "electrics"); [inlist|reflexivity]|reflexivity|]. eapply say_cons; [apply entry_says_line; [reflexivity|exact X|]; apply (says_run "electrics" None "recording id" "run.id"); [discriminate|exact I|inlist]|reflexivity|].
    eapply say_cons; [apply (says_next_block _ _ "reference"); [inlist|reflexivity]|reflexivity|]. eapply say_cons; [apply entry_says_line; [reflexivity|exact Y|]; apply says_remote_id; exact I|reflexivity|apply lines_nil].
  - exists d. split; [exact E|]. rewrite !G. split; reflexivity.
Qed.
(** A number of one character keeps its unit. *)
Theorem C124_short_number_refuted c : is_space c = false -> ~ In c ["["; ","; ">"]%char -> exists d, read_info (file [txt "electrics"; txt "ex"; txt "LENGTH: " ++ c :: txt " [m]"]) = Ok d /\ dget text_dec (txt "run.ex.dipole_length") d = Some (IText (c :: txt " [m]")).
Proof.
  intros C N. destruct (file_reads [txt "electrics"; txt "ex"; txt "LENGTH: " ++ c :: txt " [m]"] (Block "electrics" (Some "ex"%string)) [Put (txt "run.ex.dipole_length") (c :: txt " [m]")]) as (d & E & _ & G).
  - constructor; [apply block_row; inlist|]. constructor; [apply channel_row; inlist|]. constructor; [|constructor].
    assert (S : strip (txt "LENGTH: " ++ c :: txt " [m]") = txt "LENGTH: " ++ c :: txt " [m]"). { apply strip_trimmed. split; intros z t Z; [injection Z as <- _; reflexivity|]. change (txt "LENGTH: " ++ c :: txt " [m]") with ((txt "LENGTH: " ++ c :: txt " [m") ++ ["]"%char]) in Z. apply app_inj_tail in Z as [_ <-]. reflexivity. }
    split; [exact S|]. split; [rewrite S; discriminate|]. intros I. apply in_app_or in I as [I|[I|I]]; [| |]; [cbn in I; repeat (destruct I as [I|I]; [discriminate I|]); contradiction I|apply N; rewrite I; inlist|cbn in I; repeat (destruct I as [I|I]; [discriminate I|]); contradiction I].
  - constructor. apply marks. left. reflexivity.
  - eapply say_cons; [apply (says_first_block _ "electrics"); [inlist|reflexivity]|reflexivity|]. eapply say_cons; [apply (says_channel _ _ "ex"); [inlist|reflexivity]|reflexivity|].
    eapply (say_cons _ _ _ [Put (txt "run.ex.dipole_length") (c :: txt " [m]")] _ _ []); [|reflexivity|apply lines_nil]. apply (say_entry _ _ (txt "LENGTH") ":" (" "%char :: c :: txt " [m]") (c :: txt " [m]")); [reflexivity|inlist|reflexivity| |apply (says_attribute "electrics" "ex" "ex" "length" "dipole_length"); inlist].
    assert (S : strip (" "%char :: c :: txt " [m]") = c :: txt " [m]"). { change (strip (c :: txt " [m]") = c :: txt " [m]"). apply strip_trimmed. split; intros z t Z; [injection Z as <- _; exact C|]. change (c :: txt " [m]") with ((c :: txt " [m") ++ ["]"%char]) in Z. apply app_inj_tail in Z as [_ <-]. reflexivity. }
    rewrite S. apply (value_short c (txt "m")); [exact C|intros I; apply N; cbn in I |- *; tauto|apply no_char_dec; reflexivity].
  - exists d. split; [exact E|]. rewrite G. reflexivity.
Qed.
(** Keys that other INFO sections rename stay as they are. *)
Theorem C124_other_titles_refuted a K v : In (a, K) [("project", "survey.project"); ("survey", "survey.name"); ("processedby", "transfer_function.processed_by"); ("processingtag", "transfer_function.processing_parameters"); ("runlist", "transfer_function.runs_processed"); ("remotesite", "transfer_function.remote_references"); ("signconvention", "transfer_function.sign_convention")]%string ->
  plain_value v -> exists d, read_info (file [entry a v; txt "magnetics"]) = Ok d /\ dget text_dec (txt K) d = None /\ dget text_dec (txt a) d = Some (IText v).
Proof.
  intros I V. destruct (file_reads [entry a v; txt "magnetics"] (Block "magnetics" None) [Put (txt a) v]) as (d & E & _ & G).
  - constructor; [apply entry_row; [|exact V]|constructor; [apply block_row; inlist|constructor]]. repeat (destruct I as [I|I]; [injection I as <- <-; reflexivity|]). contradiction I.
  - apply Exists_cons_tl. constructor. apply marks. right. reflexivity.
  - eapply (say_cons _ _ _ [Put (txt a) v]); [apply entry_says_line; [|exact V|apply says_general_other]|reflexivity|eapply say_cons; [apply (says_first_block _ "magnetics"); [inlist|reflexivity]|reflexivity|apply lines_nil]];
      repeat (destruct I as [I|I]; [injection I as <- <-; first [reflexivity|apply names_dec; vm_compute; reflexivity|apply no_mentions; reflexivity]|]); contradiction I.
  - exists d. split; [exact E|]. rewrite !G. rewrite one_found. split; [|reflexivity]. rewrite other_found; [reflexivity|]. repeat (destruct I as [I|I]; [injection I as <- <-; reflexivity|]). contradiction I.
Qed.
(** The letters "ac" or "dc" inside the key of a magnetic channel are taken for its voltages. *)
Theorem C124_cut_key_refuted c n v : In (c, n) magnetic_channels -> plain_value v -> exists d, read_info (file [txt "magnetics"; txt c; entry "manufacturer" v]) = Ok d /\
  dget text_dec (txt ("run." ++ n ++ ".manufacturer")) d = None /\ dget text_dec (txt ("run." ++ n ++ ".manufcommentsturer")) d = Some (IText (txt "manufacturer=" ++ v)).
Proof.
  intros I V. assert (J : In c (map fst channels)) by (repeat (destruct I as [I|I]; [injection I as <- <-; inlist|]); contradiction I).
  set (K := txt ("run." ++ n ++ ".manufcommentsturer")). set (ls := [txt "magnetics"; txt c; entry "manufacturer" v]).
  assert (R : Forall (fun s => strip s = s /\ empower_row s) ls). { constructor; [apply block_row; inlist|]. constructor; [apply channel_row; exact J|]. constructor; [apply entry_row; [reflexivity|exact V]|constructor]. }
  assert (E : read_info (file ls) = Ok (comments_to_string (snd (fold_left empower_line (filter nonempty (map strip ls)) (mkPlace (txt "general") None None, []))))).
  { apply (empower_reads [] (txt ">INFO") ls [txt ">END"]); [constructor|reflexivity| | |].
    - eapply Forall_impl; [|exact R]. intros s (_ & X). right. exact X.
    - constructor. apply marks. right. reflexivity.
    - right. exists (txt ">END"), [], (txt "END"). split; [reflexivity|]. split; [intros H; vm_compute in H; discriminate H|reflexivity]. }
  assert (F : filter nonempty (map strip ls) = ls). { clear - R. induction R as [|s l (S & N & _) F IH]; [reflexivity|]. cbn [map filter]. rewrite S. destruct s as [|x s]; [contradiction N; reflexivity|]. exact (f_equal (cons (x :: s)) IH). }
  assert (S2 : fold_left empower_line [txt "magnetics"; txt c] (mkPlace (txt "general") None None, []) = (at_block "magnetics" (Some c), [])) by (repeat (destruct I as [I|I]; [injection I as <- <-; reflexivity|]); contradiction I).
  assert (S3 : fold_left empower_line ls (mkPlace (txt "general") None None, []) = (at_block "magnetics" (Some c), act (at_block "magnetics" (Some c)) (txt "manufacturer") v (ANote false K) [])).
  { change ls with ([txt "magnetics"; txt c] ++ [entry "manufacturer" v]). rewrite fold_left_app. etransitivity; [apply f_equal; exact S2|]. cbn [fold_left]. change (entry "manufacturer" v) with (txt "manufacturer" ++ ":"%char :: " "%char :: v).
    rewrite entry_line; [|inlist|apply separated_dec; reflexivity]. f_equal.
    assert (Z : empower_value (strip (" "%char :: v)) = v). { replace (strip (" "%char :: v)) with v; [apply value_reads, plain_value_of; exact V|]. destruct V as (_ & Z & _). rewrite <- Z at 1. reflexivity. }
    rewrite Z. change (lower (strip (txt "manufacturer"))) with (txt "manufacturer"). apply does_step. repeat (destruct I as [I|I]; [injection I as <- <-; vm_compute; reflexivity|]). contradiction I. }
  assert (H : holds (act (at_block "magnetics" (Some c)) (txt "manufacturer") v (ANote false K) []) ([] ++ [Note K (txt "manufacturer=" ++ v)])).
  { apply holds_note; [split; [constructor|]; split; [constructor|]; intros; reflexivity| |reflexivity]. repeat (destruct I as [I|I]; [injection I as <- <-; vm_compute; reflexivity|]). contradiction I. }
  destruct (holds_final _ _ H) as (_ & G). exists (comments_to_string (act (at_block "magnetics" (Some c)) (txt "manufacturer") v (ANote false K) [])). split; [rewrite E, F; pose proof (f_equal snd S3) as S4; cbn [snd] in S4; rewrite <- S4; reflexivity|].
  rewrite !G. unfold found_in. cbn [app remarks last_put]. assert (KK : text_eqb K K = true) by (apply text_eqb_eq; reflexivity). rewrite KK.
  assert (KM : text_eqb K (txt ("run." ++ n ++ ".manufacturer")) = false) by (repeat (destruct I as [I|I]; [injection I as <- <-; vm_compute; reflexivity|]); contradiction I).
  rewrite KM. split; reflexivity.
Qed.
Example C124_refuted_hyp : plain_value (txt "Phoenix") /\ plain_value (txt "90") /\ In ("h1", "hx")%string magnetic_channels /\ is_space "5" = false /\ ~ In "5"%char ["["; ","; ">"]%char.
Proof.
  assert (P : forall s, text_eqb (strip s) s = true -> nonempty s = true -> forallb (fun c => negb (existsb (Ascii.eqb c) ["["; ">"; "m"; "V"]%char)) s = true -> plain_value s). { intros s A B C. split; [destruct s; [discriminate B|discriminate]|]. split; [apply text_eqb_eq; exact A|apply no_char_dec; exact C]. }
  split; [apply P; reflexivity|]. split; [apply P; reflexivity|]. split; [inlist|]. split; [reflexivity|]. intros X. cbn in X. repeat (destruct X as [X|X]; [discriminate X|]). exact X.
Qed.

Print Assumptions C124_section.
Print Assumptions C124_cut_key_refuted.
