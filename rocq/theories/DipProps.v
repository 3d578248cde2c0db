(** C134: dipoles and electrodes of field notes through an EMTF XML file. *)
From Coq Require Import Qabs.
From Verif Require Import PyBase PyText PyNum PyFloat PyFacts TextFacts ContainerModel CommentModel XmlModel EmtfModel EmtfSpec LayModel LaySpec LayProofs DipModel DipSpec DipProofs.
From Verif Require EmtfProps.
From Coq Require Import Lia.
Local Open Scope nat_scope.
Local Open Scope list_scope.

Section Props.
Variables (to_time : text -> option Z) (show : Z -> text).
Notation from_element := (dipole_of_element to_time).
Notation to_element p := (remove_null (dipole_xml show p)).

(** A dipole with two electrodes or more, or with none: its manufacturer, length, azimuth, name, type and electrodes, in their order, come back;
    the remark of an electrode comes back as its value. *)
Theorem C134_dipole p D : length (p_electrodes p) <> 1 -> spaced (to_element p) D -> exists p', from_element D = Ok p' /\ dipole_back show p p'.
Proof. intros N S. exists (dipole_through show p). split; [rewrite (of_element to_time show p D S); now apply dipole_of_lower|apply dipole_through_back]. Qed.

(** A second time nothing changes any more, but the values of the electrodes. *)
Theorem C134_again p D p' D' : length (p_electrodes p) <> 1 -> spaced (to_element p) D -> from_element D = Ok p' -> spaced (to_element p') D' ->
  exists p'', from_element D' = Ok p'' /\ p_length p'' = p_length p' /\ p_azimuth p'' = p_azimuth p' /\ p_name p'' = p_name p' /\ p_type p'' = p_type p' /\
    map e_side (p_electrodes p'') = map e_side (p_electrodes p') /\ map e_number (p_electrodes p'') = map e_number (p_electrodes p').
Proof.
  intros N S E S'. rewrite (of_element to_time show p D S), dipole_of_lower in E by exact N. injection E as <-.
  assert (N' : length (p_electrodes (dipole_through show p)) <> 1) by (cbn; now rewrite map_length).
  exists (dipole_through show (dipole_through show p)). split; [rewrite (of_element to_time show _ D' S'); now apply dipole_of_lower|].
  unfold dipole_through at 1 3 5 7 9 11. cbn [p_length p_azimuth p_name p_type p_electrodes].
  split; [unfold dipole_through; cbn; destruct (p_length p); cbn; [now rewrite read_num_idem|reflexivity]|].
  split; [unfold dipole_through; cbn; destruct (p_azimuth p); cbn; [now rewrite read_num_idem|reflexivity]|].
  split; [unfold dipole_through; cbn [p_name or_empty]; now rewrite null_idem|].
  split; [unfold dipole_through; cbn [p_type or_empty]; now rewrite null_idem|].
  unfold dipole_through. cbn [p_electrodes]. rewrite !map_map. split; apply map_ext; intros e; cbn [electrode_through e_side e_number]; [reflexivity|apply null_idem].
Qed.

(** Refuted (what was read can be written and read again): the values of the electrodes, whatever they are, are not written. *)
Theorem C134_values_refuted p D p' D' : length (p_electrodes p) <> 1 -> spaced (to_element p) D -> from_element D = Ok p' -> spaced (to_element p') D' ->
  exists p'', from_element D' = Ok p'' /\ Forall (fun e => e_value e = []) (p_electrodes p'').
Proof.
  intros N S E S'. rewrite (of_element to_time show p D S), dipole_of_lower in E by exact N. injection E as <-.
  assert (N' : length (p_electrodes (dipole_through show p)) <> 1) by (cbn; now rewrite map_length).
  exists (dipole_through show (dipole_through show p)). split; [rewrite (of_element to_time show _ D' S'); now apply dipole_of_lower|].
  unfold dipole_through. cbn [p_electrodes]. rewrite map_map. apply Forall_map. apply Forall_forall. intros e _. reflexivity.
Qed.

(** Refuted (every dipole can be read again): with exactly one electrode it cannot. *)
Theorem C134_one_electrode_refuted p D : length (p_electrodes p) = 1 -> spaced (to_element p) D -> from_element D = Err AttributeError.
Proof.
  intros N S. rewrite (of_element to_time show p D S). destruct (p_electrodes p) as [|e [|e2 es]] eqn:E; try discriminate N. exact (one_electrode to_time show p e E).
Qed.
End Props.

(** Refuted (None stays None): names and types that are missing come back as empty texts. *)
Theorem C134_none_refuted to_time show p D p' : p_name p = None -> p_type p = None -> length (p_electrodes p) <> 1 -> spaced (remove_null (dipole_xml show p)) D ->
  dipole_of_element to_time D = Ok p' -> p_name p' = Some [] /\ p_type p' = Some [].
Proof.
  intros A B N S E. destruct (C134_dipole to_time show p D N S) as (p2 & E2 & _ & _ & _ & (n & N1 & N2) & (t & T1 & T2) & _). rewrite E in E2. injection E2 as <-.
  rewrite A in N2. rewrite B in T2. cbn in N2, T2. subst n t. split; assumption.
Qed.

(** A concrete dipole. *)
Definition note (s : string) : comment := mkComment None default_time (Some (txt s)).
Definition ex_dipole : dipole :=
  mkDipole (Some (txt "Geometrics")) (Some (2001 # 20)%Q) (Some 90%Q) (Some (txt "Ex")) (Some (txt "wire"))
    [mkElectrode North (txt "1a") [] (note "Ag-AgCl"); mkElectrode South (txt "2") (txt "Pb") (note " moved by a cow ")].
Example C134_dipole_hyp : length (p_electrodes ex_dipole) <> 1 /\ spaced (remove_null (dipole_xml (fun _ => []) ex_dipole)) (remove_null (dipole_xml (fun _ => []) ex_dipole)) /\
  exists p', dipole_of_element (fun _ => None) (remove_null (dipole_xml (fun _ => []) ex_dipole)) = Ok p' /\ map e_value (p_electrodes p') = [txt "Ag-AgCl"; txt "moved by a cow"] /\
    map e_number (p_electrodes p') = [txt "1a"; txt "2"] /\ p_type p' = Some (txt "wire").
Proof.
  split; [discriminate|]. split.
  - apply EmtfProps.spaced_self. repeat (apply Forall_cons; [apply spaced_leaf|]). apply Forall_nil.
  - eexists. split; [vm_compute; reflexivity|]. repeat split.
Qed.
Definition one_dipole : dipole := mkDipole None (Some 100%Q) None None None [mkElectrode West (txt "3") [] no_comment].
Example C134_one_electrode_hyp : length (p_electrodes one_dipole) = 1 /\ spaced (remove_null (dipole_xml (fun _ => []) one_dipole)) (remove_null (dipole_xml (fun _ => []) one_dipole)).
Proof. split; [reflexivity|]. apply EmtfProps.spaced_self. repeat (apply Forall_cons; [apply spaced_leaf|]). apply Forall_nil. Qed.
Example C134_none_hyp : p_name new_dipole = None /\ p_type new_dipole = None /\ length (p_electrodes new_dipole) <> 1 /\
  spaced (remove_null (dipole_xml (fun _ => []) new_dipole)) (remove_null (dipole_xml (fun _ => []) new_dipole)).
Proof. split; [reflexivity|]. split; [reflexivity|]. split; [discriminate|]. apply EmtfProps.spaced_self. repeat (apply Forall_cons; [apply spaced_leaf|]). apply Forall_nil. Qed.

Print Assumptions C134_dipole.
Print Assumptions C134_again.
Print Assumptions C134_values_refuted.
Print Assumptions C134_one_electrode_refuted.
