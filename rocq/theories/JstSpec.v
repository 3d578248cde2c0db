(** Specification for C140: the station metadata of a J file. *)
From Verif Require Import PyBase PyText PyNum ContainerModel JstModel.
Local Open Scope list_scope.
Local Open Scope string_scope.

(** There is something in the array: it was not read, or has an entry that is not zero. *)
Definition given (a : array) : Prop := forall l, a = Some l -> exists x y, In (x, y) l /\ ~ (x == 0 /\ y == 0)%Q.
Definition absent (a : array) : Prop := exists l, a = Some l /\ forall x y, In (x, y) l -> (x == 0 /\ y == 0)%Q.
(** The channels of a run with their kinds and numbers. *)
Definition impedance_channels : list (string * kind * nat) := [("ex", Electric, 1); ("ey", Electric, 2); ("hx", Magnetic, 3); ("hy", Magnetic, 4)]%nat.
Definition tipper_channels : list (string * kind * nat) := [("hz", Magnetic, 5)]%nat.
Definition word (s : string) : Prop := forall c, In c (list_ascii_of_string s) -> is_alpha c = true \/ is_digit c = true \/ c = "_"%char.
(** What the metadata must be, for a list of channels. *)
Definition describes (h : header) (cs : list (string * kind * nat)) (m : meta) : Prop :=
  m_id m = h_station h /\ m_tf_id m = h_station h /\ (m_lat m = h_lat h /\ m_lon m = h_lon h /\ m_elev m = h_elev h)
  /\ ((h_deltat h < 0)%Q -> (m_rate m == - h_deltat h)%Q) /\ ((0 < h_deltat h)%Q -> (m_rate m * h_deltat h == 1)%Q)
  /\ s_run_list (m_station m) = ["001"] /\ m_processed m = ["001"]
  /\ m_ids m = map (fun x => (fst (fst x), snd x)) cs
  /\ s_channels (m_station m) = map (fun x => fst (fst x)) cs
  /\ m_params m = map (fun kv => fst kv ++ " = " ++ snd kv) (h_params h)
  /\ exists r, s_runs (m_station m) = [("001", r)] /\ r_id r = "001"
       /\ map (fun kv => (fst kv, ch_kind (snd kv), ch_comp (snd kv))) (r_channels r) = map (fun x => (fst (fst x), snd (fst x), fst (fst x))) cs
       /\ r_electric r = map (fun x => fst (fst x)) (filter (fun x => kind_eqb (snd (fst x)) Electric) cs)
       /\ r_magnetic r = map (fun x => fst (fst x)) (filter (fun x => kind_eqb (snd (fst x)) Magnetic) cs) /\ r_auxiliary r = [].
