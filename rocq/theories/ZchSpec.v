(** What the channels of an AVG object should be. *)
From Verif Require Import PyBase PyText TxlModel ZchModel.
Local Open Scope list_scope.

Section Spec.
Variables (num : Type) (read : text -> option num).
(** A component of the file describes the electric sensor, then the magnetic one. *)
Record sensors : Type := mkSensors { s_az : num; s_tilt : num; s_number : text }.
Definition listed (o : out) (a b : text) : Prop := exists r, o = OList (a :: b :: r).
Definition describes (k : comp num) (e m : sensors) : Prop :=
  exists a1 a2 i1 i2, listed (k_azimuth num k) a1 a2 /\ read a1 = Some (s_az e) /\ read a2 = Some (s_az m) /\
    listed (k_incl num k) i1 i2 /\ read i1 = Some (s_tilt e) /\ read i2 = Some (s_tilt m) /\
    listed (k_number num k) (s_number e) (s_number m).
(** The first entry of a component in the dictionary of the header. *)
Definition component_is (h : header num) (c : text) (k : comp num) : Prop :=
  exists l1 l2, h_comps num h = l1 ++ (c, k) :: l2 /\ ~ In c (map fst l1).
Definition described (h : header num) : Prop := exists k, component_is h (txt "zxx") k /\ k_cmp num k <> ONone.
(** A channel oriented as a sensor. *)
Definition oriented (c : chan num) (w : component) (s : sensors) : Prop :=
  c_comp num c = w /\ c_azimuth num c = Some (s_az s) /\ c_tr_azimuth num c = Some (s_az s) /\
  c_tilt num c = Some (s_tilt s) /\ c_tr_tilt num c = Some (s_tilt s).
(** A channel at an angle, of which the rest is not known. *)
Definition at_angle (c : chan num) (w : component) (a : num) (id : text) : Prop :=
  c_comp num c = w /\ c_azimuth num c = Some a /\ c_tr_azimuth num c = Some a /\ c_tilt num c = None /\ c_tr_tilt num c = None /\
  c_id num c = id /\ c_sensor num c = None.
End Spec.
