(** Proofs about the dipoles of the field notes. *)
From Coq Require Import Qabs.
From Verif Require Import PyBase PyText PyNum PyFloat PyFacts TextFacts PyFloatFacts ValidatorsModel ValidatorsProofs ContainerModel CommentModel XmlModel XmlSpec XmlProofs XmlProps
  EmtfModel EmtfSpec EmtfProofs LayModel LaySpec LayProofs DipModel DipSpec.
From Verif Require ZmmProofs.
From Coq Require Import Lia.
Local Open Scope nat_scope.
Local Open Scope list_scope.

Lemma group_more tag acc vs : ~ In tag (map fst acc) -> forall l, fold_left add_group (map (fun v => (tag, v)) vs) (acc ++ [(tag, l)]) = acc ++ [(tag, l ++ vs)].
Proof.
  intros N. induction vs as [|v vs IH]; intros l; cbn [map fold_left]; [now rewrite app_nil_r|]. unfold add_group at 2. cbn [fst snd].
  assert (G : forall x : list xval, dget text_dec tag (acc ++ [(tag, x)]) = Some x).
  { intros x. rewrite dget_app', (dget_fresh tag acc N). cbn [dget]. destruct (text_dec tag tag); [reflexivity|contradiction]. }
  assert (D : forall x y : list xval, dset text_dec tag y (acc ++ [(tag, x)]) = acc ++ [(tag, y)]).
  { intros x y. clear - N. induction acc as [|[k w] acc IH]; cbn [app dset map fst] in *; [destruct (text_dec tag tag); [reflexivity|contradiction]|].
    destruct (text_dec tag k) as [->|_]; [exfalso; apply N; now left|]. rewrite IH; [reflexivity|]. intros I. apply N. now right. }
  rewrite G, D, IH, <- app_assoc. reflexivity.
Qed.
Lemma group_tail tag acc v vs : ~ In tag (map fst acc) -> fold_left add_group (map (fun v => (tag, v)) (v :: vs)) acc = acc ++ [(tag, v :: vs)].
Proof.
  intros N. cbn [map fold_left]. unfold add_group at 2. cbn [fst snd]. rewrite (dget_fresh tag acc N), (dset_fresh tag _ acc N), (group_more tag acc vs N). reflexivity.
Qed.

Section Proofs.
Variables (to_time : text -> option Z) (show : Z -> text).

(** What an electrode's element reads as. *)
Definition remark (s : text) : text := if is_null s then [] else strip s.
Definition electrode_dict (e : electrode) : xval :=
  XDict ([(txt "location", XText (side_text (e_side e))); (txt "number", XText (null_text (e_number e)))] ++
         match remark (as_string show (e_comments e)) with [] => [] | s => [(txt "value", XText s)] end).
Lemma read_electrode e : read (remove_null (electrode_xml show e)) = Ok (electrode_dict e).
Proof.
  unfold electrode_xml, electrode_dict. rewrite remove_null_eq. cbn [map fst snd].
  assert (S : null_text (upper (side_text (e_side e))) = side_text (e_side e)) by (destruct (e_side e); reflexivity). rewrite S.
  assert (A : read_attribs [(txt "location", side_text (e_side e)); (txt "number", null_text (e_number e))]).
  { split; [cbn [map fst]; repeat constructor; cbn; intuition discriminate|]. cbn. intuition discriminate. }
  unfold remark. destruct (is_null (as_string show (e_comments e))).
  - rewrite C60_attribs; [reflexivity|discriminate|exact A|discriminate].
  - destruct (strip (as_string show (e_comments e))) as [|c s] eqn:E.
    + rewrite C60_attribs; [reflexivity|discriminate|exact A|]. intros s [= <-]. exact E.
    + rewrite C60_attribs_text; [rewrite E; reflexivity|discriminate|exact A|cbn; intuition discriminate|rewrite E; discriminate].
Qed.
Lemma conv_electrode e : conv (electrode_dict e) = Ok (electrode_dict e).
Proof.
  unfold electrode_dict. rewrite conv_dict. destruct (remark (as_string show (e_comments e))) as [|c s]; cbn [app];
  (rewrite conv_each_id; [reflexivity|repeat (apply Forall_cons; [cbn [fst snd]; split; [vm_compute; reflexivity|reflexivity]|]); apply Forall_nil|cbn [map fst app]; repeat constructor; cbn; intuition discriminate]).
Qed.
Definition electrode_through (e : electrode) : electrode := mkElectrode (e_side e) (null_text (e_number e)) (remark (as_string show (e_comments e))) no_comment.
Lemma electrode_of_dict e : electrode_of to_time (electrode_dict e) = Ok (electrode_through e).
Proof.
  unfold electrode_dict, electrode_through. assert (S : side_of (side_text (e_side e)) = Ok (e_side e)) by (destruct (e_side e); reflexivity).
  destruct (remark (as_string show (e_comments e))) as [|c s]; cbn [app electrode_of set_electrode_all set_electrode text_only bindR text_eqb];
  change (text_eqb (txt "location") (txt "location")) with true; change (text_eqb (txt "number") (txt "location")) with false; change (text_eqb (txt "number") (txt "number")) with true;
  change (text_eqb (txt "value") (txt "location")) with false; change (text_eqb (txt "value") (txt "number")) with false; change (text_eqb (txt "value") (txt "value")) with true;
  cbn [bindR]; rewrite S; reflexivity.
Qed.
Lemma electrodes_of_dicts es : electrodes_of to_time (map electrode_dict es) = Ok (map electrode_through es).
Proof. induction es as [|e es IH]; [reflexivity|]. cbn [map electrodes_of]. rewrite electrode_of_dict. cbn [bindR]. rewrite IH. reflexivity. Qed.
Lemma electrode_through_back e : electrode_back show e (electrode_through e).
Proof.
  unfold electrode_back, electrode_through. cbn [e_side e_number e_value e_comments]. split; [reflexivity|]. split; [apply null_name|]. split; [|split; reflexivity].
  unfold remark_back, remark. destruct (is_null (as_string show (e_comments e))) eqn:E; [left; split; [apply null_in, E|reflexivity]|right; split; [|reflexivity]]. intros N. apply null_in in N. congruence.
Qed.

(** The dipole. *)
Definition manu_value (o : option text) : xval :=
  match o with Some s => if is_null s then XNone else XText (strip s) | None => XNone end.
Definition num_entry (k : text) (o : option Q) : list (text * xval) := match o with Some q => [(k, XText (show_fixed 3 q))] | None => [] end.
Definition pack (k : text) (l : list xval) : list (text * xval) := match l with [] => [] | _ => [(k, one_or_list l)] end.
Definition dipole_dict (m l a e : text) (p : dipole) : xval :=
  XDict ([(m, manu_value (p_manu p))] ++ num_entry l (p_length p) ++ num_entry a (p_azimuth p) ++ pack e (map electrode_dict (p_electrodes p)) ++
         [(txt "name", XText (null_text (or_empty (p_name p)))); (txt "type", XText (null_text (or_empty (p_type p))))]).
Definition file_dict := dipole_dict (txt "Manufacturer") (txt "Length") (txt "Azimuth") (txt "Electrode").
Definition lower_dict := dipole_dict (txt "manufacturer") (txt "length") (txt "azimuth") (txt "electrode").
Lemma fixed_strip q : strip (show_fixed 3 q) = show_fixed 3 q /\ exists c s, show_fixed 3 q = c :: s.
Proof.
  split.
  - apply strip_trimmed. pose proof (ZmmProofs.show_fixed_chars 3 q) as F. rewrite forallb_forall in F.
    assert (N : forall c, num_char c = true -> is_space c = false).
    { intros c H. assert (X : forall c, implb (num_char c) (negb (is_space c)) = true) by (apply ascii_forall; vm_compute; reflexivity). specialize (X c). rewrite H in X. cbn in X. now apply negb_true_iff. }
    split; intros c r E; apply N, F; rewrite E; [now left|apply in_or_app; right; now left].
  - destruct (show_fixed 3 q) eqn:E; [|eauto]. destruct (read_fixed3 q) as (q' & R & _). rewrite E in R. discriminate R.
Qed.
Lemma is_null_fixed q : is_null (show_fixed 3 q) = false.
Proof.
  destruct (is_null (show_fixed 3 q)) eqn:N; [|reflexivity]. pose proof (null_fixed q) as E. unfold null_text in E. rewrite N in E. destruct (fixed_strip q) as (_ & c & s & F). rewrite F in E. discriminate E.
Qed.
Lemma read_number tag u q : read (Elem tag [(txt "units", u)] (Some (show_fixed 3 q)) []) = Ok (XText (show_fixed 3 q)).
Proof. destruct (fixed_strip q) as (S & c & s & E). rewrite E at 1. rewrite read_leaf_text by (right; eauto). rewrite <- E, S. reflexivity. Qed.
Lemma read_manu o : read (Elem (txt "Manufacturer") [] (match o with Some s => if is_null s then None else Some s | None => None end) []) = Ok (manu_value o).
Proof.
  destruct o as [s|]; [|reflexivity]. cbn [manu_value]. destruct (is_null s) eqn:N; [reflexivity|]. destruct s as [|c s]; [discriminate N|]. apply read_leaf_text. now left.
Qed.
Lemma read_electrodes es : read_each (map remove_null (map (electrode_xml show) es)) = Ok (map (fun v => (txt "Electrode", v)) (map electrode_dict es)).
Proof.
  induction es as [|e es IH]; [reflexivity|]. cbn [map read_each]. rewrite read_electrode. cbn [bindR]. rewrite IH. reflexivity.
Qed.
Lemma read_dipole p : read (remove_null (dipole_xml show p)) = Ok (file_dict p).
Proof.
  unfold dipole_xml. rewrite remove_null_eq. cbn [map fst snd]. rewrite remove_null_eq. cbn [map]. rewrite !map_app.
  rewrite read_eq. match goal with |- context [read_each ?l] => set (cs := l) end.
  assert (E : read_each cs = Ok ([(txt "Manufacturer", manu_value (p_manu p))] ++ num_entry (txt "Length") (p_length p) ++ num_entry (txt "Azimuth") (p_azimuth p) ++ map (fun v => (txt "Electrode", v)) (map electrode_dict (p_electrodes p)))).
  { unfold cs. cbn [read_each]. rewrite read_manu. cbn [bindR]. rewrite (read_each_app _ _ (num_entry (txt "Length") (p_length p)) (num_entry (txt "Azimuth") (p_azimuth p) ++ map (fun v => (txt "Electrode", v)) (map electrode_dict (p_electrodes p)))); [reflexivity| |].
    - destruct (p_length p) as [q|]; [|reflexivity]. cbn [map]. rewrite remove_null_eq. cbn [map fst snd]. rewrite is_null_fixed. cbn [read_each]. rewrite read_number. reflexivity.
    - apply read_each_app; [|apply read_electrodes]. destruct (p_azimuth p) as [q|]; [|reflexivity]. cbn [map]. rewrite remove_null_eq. cbn [map fst snd]. rewrite is_null_fixed. cbn [read_each]. rewrite read_number. reflexivity. }
  rewrite E. cbn [bindR].
  set (head := [(txt "Manufacturer", manu_value (p_manu p))] ++ num_entry (txt "Length") (p_length p) ++ num_entry (txt "Azimuth") (p_azimuth p)).
  assert (CV : child_value ([(txt "Manufacturer", manu_value (p_manu p))] ++ num_entry (txt "Length") (p_length p) ++ num_entry (txt "Azimuth") (p_azimuth p) ++ map (fun v => (txt "Electrode", v)) (map electrode_dict (p_electrodes p))) =
    XDict (head ++ pack (txt "Electrode") (map electrode_dict (p_electrodes p)))).
  { rewrite !app_assoc. rewrite <- (app_assoc [_]). fold head. unfold child_value, group. change (fun d kv => dset text_dec (fst kv) _ d) with add_group. rewrite fold_left_app.
    assert (H : fold_left add_group head [] = map (fun kv => (fst kv, [snd kv])) head). { rewrite group_new; [reflexivity|]. unfold head. destruct (p_length p), (p_azimuth p); cbn; repeat constructor; cbn; intuition discriminate. }
    rewrite H. destruct (map electrode_dict (p_electrodes p)) as [|v vs].
    - cbn [map fold_left pack]. rewrite app_nil_r, map_map. cbn [fst snd one_or_list]. unfold head. destruct (p_length p), (p_azimuth p); reflexivity.
    - rewrite group_tail. { rewrite map_app, map_map. cbn [map fst snd pack]. unfold head. destruct (p_length p), (p_azimuth p); reflexivity. }
      unfold head. destruct (p_length p), (p_azimuth p); cbn; intuition discriminate. }
  rewrite CV. unfold cs. cbn [length nonempty]. cbn zeta.
  assert (ND : forall k, In k [txt "name"; txt "type"] -> ~ In k (map fst (head ++ pack (txt "Electrode") (map electrode_dict (p_electrodes p))))).
  { intros k K. unfold head, pack. destruct (p_length p), (p_azimuth p), (map electrode_dict (p_electrodes p)); cbn in *; intuition (subst; discriminate). }
  cbn [set_attribs]. change (text_eqb (txt "name") (txt "units") && (2 <=? 2))%bool with false. change (text_eqb (txt "name") (txt "type") && (2 <=? 1))%bool with false. cbn [andb set_in bindR].
  rewrite dset_fresh by (apply ND; now left). cbn [bindR]. change (text_eqb (txt "type") (txt "units") && (2 <=? 2))%bool with false. change (text_eqb (txt "type") (txt "type") && (2 <=? 1))%bool with false. cbn [andb set_in bindR].
  rewrite dset_fresh. 2: { rewrite map_app. intros I. apply in_app_or in I as [I|I]; [revert I; apply ND; right; now left|cbn in I; intuition discriminate]. }
  cbn [bindR set_text]. unfold file_dict, dipole_dict. unfold head. rewrite <- !app_assoc. reflexivity.
Qed.

Lemma conv_electrodes e es : inner (one_or_list (map electrode_dict (e :: es))) = Ok (one_or_list (map electrode_dict (e :: es))).
Proof.
  assert (L : forall l, conv_list (map electrode_dict l) = Ok (map electrode_dict l)).
  { induction l as [|x l IH]; [reflexivity|]. cbn [map conv_list]. rewrite conv_electrode. cbn [bindR]. rewrite IH. reflexivity. }
  destruct es as [|e2 es]; [exact (conv_electrode e)|]. cbn [map one_or_list]. unfold inner. rewrite conv_lst. change (electrode_dict e :: electrode_dict e2 :: map electrode_dict es) with (map electrode_dict (e :: e2 :: es)). now rewrite L.
Qed.
Lemma keys_lower : validate_attribute (txt "Manufacturer") = Ok (txt "manufacturer") /\ validate_attribute (txt "Length") = Ok (txt "length") /\ validate_attribute (txt "Azimuth") = Ok (txt "azimuth") /\
  validate_attribute (txt "Electrode") = Ok (txt "electrode") /\ validate_attribute (txt "name") = Ok (txt "name") /\ validate_attribute (txt "type") = Ok (txt "type").
Proof. repeat split; vm_compute; reflexivity. Qed.
Lemma conv_step k k' v d acc : validate_attribute k = Ok k' -> inner v = Ok v -> conv_each ((k, v) :: d) acc = conv_each d (dset text_dec k' v acc).
Proof. intros K V. cbn [conv_each]. rewrite K. cbn [bindR]. change (match v with XDict _ | XList _ => conv v | _ => Ok v end) with (inner v). rewrite V. reflexivity. Qed.
Lemma conv_text k k' t d acc : validate_attribute k = Ok k' -> conv_each ((k, XText t) :: d) acc = conv_each d (dset text_dec k' (XText t) acc).
Proof. intros K. apply conv_step; [exact K|reflexivity]. Qed.
Lemma manu_inner o : inner (manu_value o) = Ok (manu_value o).
Proof. destruct o as [s|]; [|reflexivity]. cbn [manu_value]. destruct (is_null s); reflexivity. Qed.
Lemma conv_dipole p : conv (file_dict p) = Ok (lower_dict p).
Proof.
  destruct keys_lower as (K1 & K2 & K3 & K4 & K5 & K6). unfold file_dict, lower_dict, dipole_dict. rewrite conv_dict. unfold num_entry, pack.
  pose proof conv_electrodes as CE. 
  destruct (p_electrodes p) as [|e es]; [|specialize (CE e es)]; cbn [map] in CE |- *; destruct (p_length p) as [q|], (p_azimuth p) as [q'|]; cbn [app];
  (rewrite (conv_step _ _ _ _ _ K1 (manu_inner _)) ||idtac);
  repeat (rewrite (conv_text _ _ _ _ _ K2) || rewrite (conv_text _ _ _ _ _ K3) || rewrite (conv_step _ _ _ _ _ K4 CE) || rewrite (conv_text _ _ _ _ _ K5) || rewrite (conv_text _ _ _ _ _ K6));
  reflexivity.
Qed.

(** What comes back. *)
Definition dipole_through (p : dipole) : dipole :=
  mkDipole (match manu_value (p_manu p) with XText s => Some s | _ => None end) (option_map read_num (p_length p)) (option_map read_num (p_azimuth p))
    (Some (null_text (or_empty (p_name p)))) (Some (null_text (or_empty (p_type p)))) (map electrode_through (p_electrodes p)).
Lemma set_manu p o : set_dipole to_time p (txt "manufacturer") (manu_value o) =
  Ok (mkDipole (match manu_value o with XText s => Some s | _ => None end) (p_length p) (p_azimuth p) (p_name p) (p_type p) (p_electrodes p)).
Proof. destruct o as [s|]; [|reflexivity]. cbn [manu_value]. destruct (is_null s); reflexivity. Qed.
Lemma set_length p q : set_dipole to_time p (txt "length") (XText (show_fixed 3 q)) = Ok (mkDipole (p_manu p) (Some (read_num q)) (p_azimuth p) (p_name p) (p_type p) (p_electrodes p)).
Proof.
  unfold set_dipole. change (text_eqb (txt "length") (txt "manufacturer")) with false. change (text_eqb (txt "length") (txt "length")) with true. cbv iota.
  unfold number_or_none. rewrite number_fixed. reflexivity.
Qed.
Lemma set_azimuth p q : set_dipole to_time p (txt "azimuth") (XText (show_fixed 3 q)) = Ok (mkDipole (p_manu p) (p_length p) (Some (read_num q)) (p_name p) (p_type p) (p_electrodes p)).
Proof.
  unfold set_dipole. change (text_eqb (txt "azimuth") (txt "manufacturer")) with false. change (text_eqb (txt "azimuth") (txt "length")) with false. change (text_eqb (txt "azimuth") (txt "azimuth")) with true. cbv iota.
  unfold number_or_none. rewrite number_fixed. reflexivity.
Qed.
Lemma set_electrodes p e e2 es : set_dipole to_time p (txt "electrode") (XList (map electrode_dict (e :: e2 :: es))) = Ok (mkDipole (p_manu p) (p_length p) (p_azimuth p) (p_name p) (p_type p) (map electrode_through (e :: e2 :: es))).
Proof.
  unfold set_dipole. change (text_eqb (txt "electrode") (txt "manufacturer")) with false. change (text_eqb (txt "electrode") (txt "length")) with false. change (text_eqb (txt "electrode") (txt "azimuth")) with false.
  change (text_eqb (txt "electrode") (txt "name")) with false. change (text_eqb (txt "electrode") (txt "type")) with false. change (text_eqb (txt "electrode") (txt "electrode")) with true. cbv iota.
  rewrite electrodes_of_dicts. reflexivity.
Qed.
Lemma dipole_of_lower p : length (p_electrodes p) <> 1 -> dipole_of to_time (lower_dict p) = Ok (dipole_through p).
Proof.
  intros N. unfold lower_dict, dipole_dict, dipole_of, dipole_through, num_entry. destruct (p_electrodes p) as [|e [|e2 es]]; [|exfalso; apply N; reflexivity|].
  - change (pack (txt "electrode") (map electrode_dict [])) with (@nil (text * xval)). destruct (p_length p) as [q|], (p_azimuth p) as [q'|]; cbn [app set_dipole_all option_map]; rewrite set_manu; cbn [bindR];
    repeat ((rewrite set_length || rewrite set_azimuth); cbn [bindR]); reflexivity.
  - change (pack (txt "electrode") (map electrode_dict (e :: e2 :: es))) with [(txt "electrode", XList (map electrode_dict (e :: e2 :: es)))].
    destruct (p_length p) as [q|], (p_azimuth p) as [q'|]; cbn [app set_dipole_all option_map]; rewrite set_manu; cbn [bindR];
    repeat ((rewrite set_length || rewrite set_azimuth || rewrite set_electrodes); cbn [bindR]); reflexivity.
Qed.
Lemma one_electrode p e : p_electrodes p = [e] -> dipole_of to_time (lower_dict p) = Err AttributeError.
Proof.
  intros N. unfold lower_dict, dipole_dict, dipole_of, pack, num_entry. rewrite N. cbn [map one_or_list app].
  assert (X : forall p', set_dipole to_time p' (txt "electrode") (electrode_dict e) = Err AttributeError) by reflexivity.
  destruct (p_length p) as [q|], (p_azimuth p) as [q'|]; cbn [app set_dipole_all]; rewrite set_manu; cbn [bindR];
  repeat ((rewrite set_length || rewrite set_azimuth || rewrite X); cbn [bindR]); reflexivity.
Qed.
Lemma of_element p D : spaced (remove_null (dipole_xml show p)) D -> dipole_of_element to_time D = dipole_of to_time (lower_dict p).
Proof. intros S. unfold dipole_of_element. rewrite (spaced_read _ _ S), read_dipole. cbn [bindR]. rewrite conv_dipole. reflexivity. Qed.
Lemma dipole_through_back p : dipole_back show p (dipole_through p).
Proof.
  unfold dipole_back, dipole_through. cbn [p_manu p_length p_azimuth p_name p_type p_electrodes].
  assert (A : forall o, attribute_back o (null_text (or_empty o))) by (intros [s|]; cbn [attribute_back or_empty]; [apply null_name|reflexivity]).
  split; [|split; [|split; [|split; [|split]]]].
  - destruct (p_manu p) as [s|]; cbn [manufacturer_back manu_value]; [|reflexivity]. destruct (is_null s) eqn:E; [left; split; [apply null_in, E|reflexivity]|right; split; [|reflexivity]]. intros X. apply null_in in X. congruence.
  - destruct (p_length p); cbn; [apply read_num_near|exact I].
  - destruct (p_azimuth p); cbn; [apply read_num_near|exact I].
  - eexists; split; [reflexivity|apply A].
  - eexists; split; [reflexivity|apply A].
  - induction (p_electrodes p) as [|e es IH]; cbn [map]; constructor; [apply electrode_through_back|exact IH].
Qed.
End Proofs.
