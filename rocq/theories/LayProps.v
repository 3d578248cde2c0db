(** C102, C103, C104: the site layout, the lists of estimates and data types, and the texts of an EMTF XML file. *)
From Coq Require Import Qabs Permutation.
From Verif Require Import PyBase PyText PyNum PyFloat PyFacts TextFacts ValidatorsModel XmlModel EmtfModel EmtfSpec EmtfProofs LayModel LaySpec LayProofs.
Local Open Scope nat_scope.

(** * C102 *)
(** Every channel of the layout comes back in its list, with its kind, its name and its numbers to thousandths; the magnetic ones come first. *)
Theorem C102_round_trip old l root : file_with (txt "site_layout") (layout_xml l) root ->
  exists l', layout_of_file old root = Ok l' /\ Forall2 came_back (magnetic_first (l_in l)) (l_in l') /\ Forall2 came_back (magnetic_first (l_out l)) (l_out l').
Proof.
  intros F. eexists. split; [exact (layout_read l root old F)|]. cbn [l_in l_out].
  split; [induction (magnetic_first (l_in l)) as [|c cs IH]|induction (magnetic_first (l_out l)) as [|c cs IH]]; cbn [map]; constructor; try apply through_back; exact IH.
Qed.
(** Nothing changes any more when what was read is written and read again. *)
Theorem C102_again old old' l l' root root' : file_with (txt "site_layout") (layout_xml l) root -> layout_of_file old root = Ok l' ->
  file_with (txt "site_layout") (layout_xml l') root' -> layout_of_file old' root' = Ok l'.
Proof.
  intros F E F'. rewrite (layout_read l root old F) in E. injection E as <-. rewrite (layout_read _ root' old' F'). cbn [l_in l_out]. rewrite !first_through, !first_idem, !map_map.
  f_equal. f_equal; apply map_ext; intros c; apply through_idem.
Qed.
(** After a file is read the lists hold the channels the data need: those of the file as they are, and a bare one for each that is missing. *)
Theorem C102_update z t l : exists l', update_layout (Some z) (Some t) l = Ok l' /\ updated (needs_in z t) (l_in l) (l_in l') /\ updated (needs_out z t) (l_out l) (l_out l').
Proof.
  destruct (update_layout_ok z t l) as (l' & E & (ni & NI & _ & _ & UI) & (no & NO & _ & _ & UO)). exists l'. split; [exact E|].
  assert (X : forall (P Q : text -> Prop) a b, (forall n, P n <-> Q n) -> updated P a b -> updated Q a b).
  { intros P Q a b H (U1 & U2 & U3 & U4). split; [intros c I N; apply U1; [exact I|apply H; exact N]|]. split; [intros n N; apply U2, H; exact N|]. split; [|exact U4]. intros c I. destruct (U3 c I) as [A B]. split; [apply H; exact A|exact B]. }
  split; [exact (X _ _ _ _ NI UI)|exact (X _ _ _ _ NO UO)].
Qed.
Lemma needed_through (P : text -> Prop) cs : (forall n, P n -> In n [txt "hx"; txt "hy"; txt "ex"; txt "ey"; txt "hz"]) -> (forall n, In n (map low_name cs) <-> P n) ->
  map low_name (map through cs) = map low_name cs.
Proof.
  intros H N. rewrite map_map. apply map_ext_in. intros c I. assert (K : In (low_name c) [txt "hx"; txt "hy"; txt "ex"; txt "ey"; txt "hz"]) by (apply H, N, in_map; exact I).
  assert (E : null_text (name_of c) = name_of c).
  { unfold null_text. destruct (is_null (name_of c)) eqn:B; [|reflexivity]. exfalso. apply null_in in B. unfold low_name, says_nothing in *. cbn [map In] in B. repeat (destruct B as [B|B]; [rewrite <- B in K; vm_compute in K; repeat (destruct K as [K|K]; [discriminate K|]); exact K|]). exact B. }
  unfold low_name. destruct c; cbn [through name_of] in *; rewrite E; reflexivity.
Qed.
(** A layout with just the channels the data need is read as it is; nothing is added or left out. *)
Theorem C102_whole old l root z t : file_with (txt "site_layout") (layout_xml l) root ->
  NoDup (map (fun c => lower (name_of c)) (l_in l)) -> (forall n, In n (map (fun c => lower (name_of c)) (l_in l)) <-> needs_in z t n) ->
  NoDup (map (fun c => lower (name_of c)) (l_out l)) -> (forall n, In n (map (fun c => lower (name_of c)) (l_out l)) <-> needs_out z t n) ->
  exists l', layout_of_file old root = Ok l' /\ update_layout (Some z) (Some t) l' = Ok l' /\
    Forall2 came_back (magnetic_first (l_in l)) (l_in l') /\ Forall2 came_back (magnetic_first (l_out l)) (l_out l').
Proof.
  intros F N1 H1 N2 H2. destruct (C102_round_trip old l root F) as (l' & E & A & B). exists l'. split; [exact E|]. split; [|split; assumption].
  rewrite (layout_read l root old F) in E. injection E as <-. clear A B F.
  set (l' := mkLayout (map through (magnetic_first (l_in l))) (map through (magnetic_first (l_out l)))).
  destruct (update_layout_ok z t l') as (l2 & E & (ni & NI & DI & PI & _) & (no & NO & DO & PO & _)). rewrite E. destruct l2 as [i o]. cbn [l_in l_out] in *. unfold l' in *. f_equal. cbn [l_in l_out] in PI, PO.
  assert (G : forall (P : text -> Prop) cs ns, (forall n, P n -> In n [txt "hx"; txt "hy"; txt "ex"; txt "ey"; txt "hz"]) -> NoDup (map low_name cs) -> (forall n, In n (map low_name cs) <-> P n) -> NoDup ns -> (forall n, In n ns <-> P n) ->
    Permutation ns (map low_name (map through (magnetic_first cs)))).
  { intros P cs ns K ND HP NN HN. pose proof (first_perm cs) as FP. rewrite <- first_through. rewrite <- (first_perm (map through cs)). rewrite (needed_through P cs K HP). apply NoDup_Permutation; [exact NN|exact ND|]. intros n. rewrite HN. symmetry. apply HP. }
  f_equal.
  - apply PI. apply (G (needs_in z t)); [|exact N1|exact H1|exact DI|exact NI]. intros n [_ [-> | ->]]; cbn; auto.
  - apply PO. apply (G (needs_out z t)); [|exact N2|exact H2|exact DO|exact NO]. intros n [[_ [-> | ->]]|[_ ->]]; cbn; auto 6.
Qed.
(** The usual layout. *)
Definition usual : layout := mkLayout [Mag (txt "Hx") (9 # 1) 0 0 0; Mag (txt "hy") (99 # 1) 0 0 (1 # 3)]
  [Ele (txt "ex") (9 # 1) (- 50 # 1) 0 0 (50 # 1) 0 0; Ele (txt "ey") (99 # 1) 0 (- 50 # 1) 0 0 (50 # 1) (1 # 7); Mag (txt "hz") 0 0 0 0].
Lemma usual_file : file_with (txt "site_layout") (layout_xml usual) (Elem (txt "EM_TF") [] (Some (txt " ")) [Elem (txt "Description") [] (Some (txt "a file")) []; remove_null (layout_xml usual)]).
Proof.
  split; [|unfold readable; eexists; eexists; split; vm_compute; reflexivity]. exists (txt "EM_TF"), (Some (txt " ")), [Elem (txt "Description") [] (Some (txt "a file")) []], (remove_null (layout_xml usual)), []. split; [reflexivity|]. split; [intros s E; injection E as <-; reflexivity|]. split; [|split; [constructor|]].
  - constructor; [|constructor]. split; [discriminate|]. split; [discriminate|]. vm_compute. discriminate.
  - rewrite layout_sections, remove_null_eq. cbn [map]. unfold section_xml. rewrite !remove_null_eq. cbn [usual l_in l_out map]. unfold chan_xml. rewrite !remove_null_eq. cbn [map].
    constructor; [discriminate| |discriminate]. constructor; [constructor; [discriminate| |discriminate]|constructor; [|constructor]; constructor; [discriminate| |discriminate]]; repeat (constructor; [constructor|]); constructor.
Qed.
Definition one_value : list (cell * cell) := [(Some 0%Q, Some 0%Q); (Some 0%Q, Some (1 # 2)%Q)].
Lemma one_something : something one_value.
Proof. exists (Some 0%Q, Some (1 # 2)%Q). split; [right; left; reflexivity|]. intros (a & b & E & _ & B). injection E as <- <-. discriminate B. Qed.
Example C102_hyp : file_with (txt "site_layout") (layout_xml usual) (Elem (txt "EM_TF") [] (Some (txt " ")) [Elem (txt "Description") [] (Some (txt "a file")) []; remove_null (layout_xml usual)]) /\
  NoDup (map (fun c => lower (name_of c)) (l_in usual)) /\ (forall n, In n (map (fun c => lower (name_of c)) (l_in usual)) <-> needs_in one_value one_value n) /\
  NoDup (map (fun c => lower (name_of c)) (l_out usual)) /\ (forall n, In n (map (fun c => lower (name_of c)) (l_out usual)) <-> needs_out one_value one_value n).
Proof.
  pose proof one_something as S. split; [exact usual_file|]. split; [cbn; nodup_lits|]. split; [|split; [cbn; nodup_lits|]].
  - intros n. unfold needs_in. cbn [usual l_in map name_of In]. change (lower (txt "Hx")) with (txt "hx"). change (lower (txt "hy")) with (txt "hy"). intuition congruence.
  - intros n. unfold needs_out. cbn [usual l_out map name_of In]. change (lower (txt "ex")) with (txt "ex"). change (lower (txt "ey")) with (txt "ey"). change (lower (txt "hz")) with (txt "hz"). intuition congruence.
Qed.
(** The order of the channels changes: hz comes before ex and ey. *)
Theorem C102_order_refuted old : exists root l', file_with (txt "site_layout") (layout_xml usual) root /\ layout_of_file old root = Ok l' /\
  map name_of (l_out usual) = [txt "ex"; txt "ey"; txt "hz"] /\ map name_of (l_out l') = [txt "hz"; txt "ex"; txt "ey"].
Proof. eexists. eexists. split; [exact usual_file|]. split; [apply (layout_read usual _ old usual_file)|]. split; reflexivity. Qed.
(** Two channels of one name stay two. *)
Theorem C102_double_refuted : exists l l', update_layout (Some one_value) (Some []) l = Ok l' /\ map (fun c => lower (name_of c)) (l_in l') = [txt "hx"; txt "hx"; txt "hy"].
Proof. exists (mkLayout [new_mag (txt "hx"); new_mag (txt "HX")] []). eexists. split; vm_compute; reflexivity. Qed.
(** Data without a tipper's array cannot be looked at. *)
Theorem C102_no_array_refuted z l : update_layout (Some z) None l = Err AttributeError /\ update_layout None (Some z) l = Err AttributeError.
Proof. split; reflexivity. Qed.

(** * C103 *)
(** A written file lists the kinds of estimates that the data have, in order, and they are read back. *)
Theorem C103_estimates d root : (exists n, told_kind d n) -> file_with (txt "statistical_estimates") (list_xml (txt "StatisticalEstimates") (txt "Estimate") (get_estimates d)) root ->
  exists names, estimates_of_file root = Ok names /\ those (told_kind d) kinds names.
Proof.
  intros NE F. eexists. split; [|exact (estimates_those d)]. unfold estimates_of_file. apply (list_read (txt "StatisticalEstimates") (txt "Estimate") _ _ (get_estimates d)); [|exact (estimates_names d)|discriminate|discriminate|vm_compute; reflexivity|vm_compute; reflexivity|exact F].
  destruct NE as (n & [[_ H]|[[_ H]|[_ H]]]); apply listed_told in H; unfold get_estimates; rewrite H; intros E; cbn [app] in E; try discriminate E; apply app_eq_nil in E as [_ E]; try discriminate E; apply app_eq_nil in E as [_ E]; discriminate E.
Qed.
Theorem C103_types uz ut d root : (exists n, told_type d n) -> file_with (txt "data_types") (list_xml (txt "DataTypes") (txt "DataType") (get_types uz ut d)) root ->
  exists names, types_of_file root = Ok names /\ those (told_type d) [txt "Z"; txt "T"] names.
Proof.
  intros NE F. eexists. split; [|exact (types_those d)]. unfold types_of_file. apply (list_read (txt "DataTypes") (txt "DataType") _ _ (get_types uz ut d)); [|exact (types_names uz ut d)|discriminate|discriminate|vm_compute; reflexivity|vm_compute; reflexivity|exact F].
  destruct NE as (n & [[_ H]|[_ H]]); apply listed_holds in H; unfold get_types; rewrite H; intros E; cbn [app] in E; try discriminate E; apply app_eq_nil in E as [_ E]; discriminate E.
Qed.
(** A file of data without any kind of estimate, or without any data, is written but cannot be read. *)
Theorem C103_no_estimates_refuted d root : ~ (exists n, told_kind d n) -> file_with (txt "statistical_estimates") (list_xml (txt "StatisticalEstimates") (txt "Estimate") (get_estimates d)) root ->
  estimates_of_file root = Err TypeError.
Proof.
  intros NE F. assert (E : get_estimates d = []).
  { unfold get_estimates. destruct (listed_either (a_z_var d) (a_t_var d)) eqn:A; [apply listed_told in A; exfalso; apply NE; exists (txt "VAR"); left; auto|]. destruct (listed_either (a_z_inv d) (a_t_inv d)) eqn:B; [apply listed_told in B; exfalso; apply NE; exists (txt "INVSIGCOV"); right; left; auto|].
    destruct (listed_either (a_z_res d) (a_t_res d)) eqn:C; [apply listed_told in C; exfalso; apply NE; exists (txt "RESIDCOV"); right; right; auto|]. reflexivity. }
  rewrite E in F. unfold estimates_of_file. apply (list_read_empty (txt "StatisticalEstimates") (txt "Estimate")); [discriminate|vm_compute; reflexivity|exact F].
Qed.
Theorem C103_no_types_refuted uz ut d root : ~ (exists n, told_type d n) -> file_with (txt "data_types") (list_xml (txt "DataTypes") (txt "DataType") (get_types uz ut d)) root ->
  types_of_file root = Err TypeError.
Proof.
  intros NE F. assert (E : get_types uz ut d = []).
  { unfold get_types. destruct (listed (a_z d)) eqn:A; [apply listed_holds in A; exfalso; apply NE; exists (txt "Z"); left; auto|]. destruct (listed (a_t d)) eqn:B; [apply listed_holds in B; exfalso; apply NE; exists (txt "T"); right; auto|]. reflexivity. }
  rewrite E in F. unfold types_of_file. apply (list_read_empty (txt "DataTypes") (txt "DataType")); [discriminate|vm_compute; reflexivity|exact F].
Qed.
(** The errors of the tipper are not told if the impedance's array is there and zero, as it is after a file was read. *)
Theorem C103_tipper_refuted d l : holds (a_t_var d) -> a_z_var d = Some l -> ~ something l -> ~ told_kind d (txt "VAR").
Proof. intros _ E N [[_ [(l' & E' & S)|[E' _]]]|[[E' _]|[E' _]]]; [rewrite E in E'; injection E' as <-; contradiction|rewrite E in E'; discriminate E'|discriminate E'|discriminate E']. Qed.
Definition only_errors : arrays := mkArrays (Some one_value) (Some one_value) None (Some one_value) (Some []) None None None.
Definition only_tipper : arrays := mkArrays (Some []) (Some []) (Some []) (Some []) (Some one_value) (Some one_value) (Some []) (Some []).
Example C103_hyp : (exists n, told_kind only_errors n) /\ file_with (txt "statistical_estimates") (list_xml (txt "StatisticalEstimates") (txt "Estimate") (get_estimates only_errors)) (root_with (list_xml (txt "StatisticalEstimates") (txt "Estimate") (get_estimates only_errors))) /\
  estimates_of_file (root_with (list_xml (txt "StatisticalEstimates") (txt "Estimate") (get_estimates only_errors))) = Ok [txt "VAR"; txt "RESIDCOV"] /\
  (exists n, told_type only_errors n) /\ file_with (txt "data_types") (list_xml (txt "DataTypes") (txt "DataType") (get_types (txt "[mV/km]/[nT]") (txt "[]") only_errors)) (root_with (list_xml (txt "DataTypes") (txt "DataType") (get_types (txt "[mV/km]/[nT]") (txt "[]") only_errors))) /\
  types_of_file (root_with (list_xml (txt "DataTypes") (txt "DataType") (get_types (txt "[mV/km]/[nT]") (txt "[]") only_errors))) = Ok [txt "Z"].
Proof.
  assert (H : holds (Some one_value)) by (exists one_value; split; [reflexivity|exact one_something]).
  split; [exists (txt "VAR"); left; split; [reflexivity|left; exact H]|]. split; [|split; [vm_compute; reflexivity|split; [exists (txt "Z"); left; split; [reflexivity|exact H]|split; [|vm_compute; reflexivity]]]].
  - split; [|unfold readable; eexists; eexists; split; vm_compute; reflexivity]. exists (txt "EM_TF"), None. eexists [], _, []. split; [reflexivity|]. split; [discriminate|]. split; [constructor|]. split; [constructor|].
    change (get_estimates only_errors) with [variance; residual]. unfold list_xml. rewrite remove_null_eq. cbn [map]. unfold entry_xml. rewrite !remove_null_eq. cbn [map snd fst variance residual estimate]. rewrite !remove_null_eq. cbn [map].
    constructor; [discriminate| |discriminate]. repeat (constructor; [constructor; [discriminate| |discriminate]|]); [| |constructor]; repeat (constructor; [constructor|]); constructor.
  - split; [|unfold readable; eexists; eexists; split; vm_compute; reflexivity]. exists (txt "EM_TF"), None. eexists [], _, []. split; [reflexivity|]. split; [discriminate|]. split; [constructor|]. split; [constructor|].
    change (get_types (txt "[mV/km]/[nT]") (txt "[]") only_errors) with [impedance_type (txt "[mV/km]/[nT]")]. unfold list_xml. rewrite remove_null_eq. cbn [map]. unfold entry_xml. rewrite !remove_null_eq. cbn [map snd fst impedance_type data_type]. rewrite !remove_null_eq. cbn [map].
    constructor; [discriminate| |discriminate]. constructor; [|constructor]. constructor; [discriminate| |discriminate]. repeat (constructor; [constructor|]); constructor.
Qed.
(** Data with a tipper and its errors only, as they are after a file was read. *)
Example C103_refuted_hyp : ~ (exists n, told_kind only_tipper n) /\ holds (a_t_var only_tipper) /\ a_z_var only_tipper = Some [] /\ ~ something [] /\
  file_with (txt "statistical_estimates") (list_xml (txt "StatisticalEstimates") (txt "Estimate") (get_estimates only_tipper)) (root_with (list_xml (txt "StatisticalEstimates") (txt "Estimate") (get_estimates only_tipper))).
Proof.
  assert (N : ~ something []) by (intros (c & [] & _)).
  split; [|split; [exists one_value; split; [reflexivity|exact one_something]|split; [reflexivity|split; [exact N|]]]].
  - intros (n & [[_ [(l & E & S)|[E _]]]|[[_ [(l & E & S)|[E _]]]|[_ [(l & E & S)|[E _]]]]]); try discriminate E; cbn in E; injection E as <-; contradiction.
  - split; [|unfold readable; eexists; eexists; split; vm_compute; reflexivity]. exists (txt "EM_TF"), None, [], (remove_null (list_xml (txt "StatisticalEstimates") (txt "Estimate") [])), []. split; [reflexivity|]. split; [discriminate|]. split; [constructor|]. split; [constructor|constructor].
Qed.

(** * C104 *)
(** A text comes back without the white space around it and with every one of the four characters replaced by a word. *)
Theorem C104_text s : text_through_file s = flat_map becomes (strip s).
Proof. exact (through_eq s). Qed.
(** It comes back as it was exactly if it has no white space around it and none of the four characters. *)
Theorem C104_same s : text_through_file s = s <-> strip s = s /\ Forall plain_char s.
Proof.
  rewrite through_eq, <- existsb_special. split.
  - intros E. assert (T : strip s = s) by (apply strip_trimmed; rewrite <- E; apply flat_trimmed, trimmed_strip).
    split; [exact T|]. rewrite T in E. destruct (existsb special s) eqn:X; [|reflexivity]. destruct (flat_length s) as [_ L]. specialize (L X). rewrite E in L. lia.
  - intros [T P]. rewrite T. apply flat_plain. exact P.
Qed.
(** After the first time nothing changes. *)
Theorem C104_again s : text_through_file (text_through_file s) = text_through_file s.
Proof. apply C104_same. rewrite through_eq. split; [apply strip_trimmed, flat_trimmed, trimmed_strip|]. apply existsb_special, flat_all_plain. Qed.
Example C104_hyp : strip (txt "Zonge, Inc.") = txt "Zonge, Inc." /\ Forall plain_char (txt "Zonge, Inc.") /\
  text_through_file (txt " R&D <mt@usgs.gov> ") = txt "Randamp;D andlt;mt@usgs.govandgt;".
Proof. split; [reflexivity|]. split; [apply existsb_special|]; vm_compute; reflexivity. Qed.
(** Different texts become the same. *)
Theorem C104_different_refuted : exists s s', s <> s' /\ strip s = s /\ strip s' = s' /\ text_through_file s = text_through_file s'.
Proof. exists (txt "R&D"), (txt "Randamp;D"). split; [discriminate|]. repeat split. Qed.
(** A text that stands for nothing is written as nothing. *)
Theorem C104_nothing tag s : says_nothing s -> read (remove_null (Elem tag [] (Some s) [])) = Ok XNone.
Proof. intros H. apply null_in in H. cbn [remove_null map]. rewrite H. reflexivity. Qed.

Print Assumptions C102_round_trip. Print Assumptions C102_again. Print Assumptions C102_update. Print Assumptions C102_whole. Print Assumptions C102_order_refuted. Print Assumptions C102_double_refuted. Print Assumptions C102_no_array_refuted.
Print Assumptions C103_estimates. Print Assumptions C103_types. Print Assumptions C103_no_estimates_refuted. Print Assumptions C103_no_types_refuted. Print Assumptions C103_tipper_refuted.
Print Assumptions C104_text. Print Assumptions C104_same. Print Assumptions C104_again. Print Assumptions C104_different_refuted. Print Assumptions C104_nothing.
