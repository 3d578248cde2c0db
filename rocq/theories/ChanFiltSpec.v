(** Specification vocabulary for the applied filters of a channel. *)
From Verif Require Import PyBase PyText ChanFiltModel.

(** An unset stage counts as stage 0. *)
Definition stage_number (f : applied) : Z := match a_stage f with Some z => z | None => 0%Z end.
Definition in_stage_order (l : list applied) : Prop :=
  forall i j f g, i <= j -> nth_error l i = Some f -> nth_error l j = Some g ->
                  (stage_number f <= stage_number g)%Z.
(** [l] without the filters called [n]. *)
Definition without (n : text) (l : list applied) : list applied :=
  filter (fun f => if text_dec (a_name f) n then false else true) l.
(** Stages 1, 2, 3, ... *)
Definition numbered (l : list applied) : Prop :=
  map a_stage l = map (fun i => Some (Z.of_nat i)) (seq 1 (length l)).
(** Same filter, up to its stage. *)
Definition same_but_stage (f g : applied) : Prop := a_name f = a_name g /\ a_applied f = a_applied g.
(** A name that [AppliedFilter] stores as it is: not blank, no slash, no capitals. *)
Definition plain_name (n : text) : Prop :=
  (exists c, In c n /\ is_space c = false) /\ ~ In "/"%char n /\ (forall c, In c n -> is_upper c = false).
(** A history in which every filter is added by name or assigned, not as an object. *)
Definition by_name (o : op) : Prop := match o with AddObject _ _ _ => False | _ => True end.
(** Operations that mention plain names only, and assign duplicate-free lists. *)
Definition tidy (o : op) : Prop :=
  match o with
  | AddName n _ _ => plain_name n
  | Assign l => NoDup (map a_name l)
  | _ => True
  end.
