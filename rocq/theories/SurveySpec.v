(** What it means for a survey's box to be the tight one around its stations, and for its dates to
    enclose them, without reference to how they are computed. *)
From Verif Require Import PyBase PyNum ContainerModel SurveyModel.

Definition some_lat (d : dict site) (q : Q) : Prop := exists k x, In (k, x) d /\ st_lat x = Some q.
Definition some_lon (d : dict site) (q : Q) : Prop := exists k x, In (k, x) d /\ st_lon x = Some q.

(** [lo] and [hi] are the least and the greatest of the values of [P]. *)
Definition range_of (P : Q -> Prop) (lo hi : Q) : Prop :=
  (forall q, P q -> lo <= q /\ q <= hi)%Q
  /\ (exists q, P q /\ q == lo)%Q
  /\ (exists q, P q /\ q == hi)%Q.

(** Southeast latitude is the least one, northwest latitude the greatest; southeast longitude the
    greatest, northwest longitude the least. *)
Definition tight_lat (d : dict site) (b : corners) : Prop := range_of (some_lat d) (se_lat b) (nw_lat b).
Definition tight_lon (d : dict site) (b : corners) : Prop := range_of (some_lon d) (nw_lon b) (se_lon b).

Definition same_box (a b : corners) : Prop :=
  (se_lat a == se_lat b /\ se_lon a == se_lon b /\ nw_lat a == nw_lat b /\ nw_lon a == nw_lon b)%Q.

(** A date covers the instants of its day: [start] is not after the first, [stop] not before the last. *)
Definition set_start (d : dict site) (t : Z) : Prop :=
  exists k x, In (k, x) d /\ p_start (st_period x) = t /\ t <> default_time.
Definition set_end (d : dict site) (t : Z) : Prop :=
  exists k x, In (k, x) d /\ p_end (st_period x) = t /\ t <> default_time.
Definition day : Z := (24 * 60 * 60 * 1000000000)%Z.
Definition dates_enclose (d : dict site) (first last : Z) : Prop :=
  (forall t, set_start d t -> first * day <= t)%Z /\ (forall t, set_end d t -> t < (last + 1) * day)%Z.

(** Every station is stored under its id, once. *)
Definition keyed_sites (d : dict site) : Prop :=
  NoDup (dkeys d) /\ forall k x, In (k, x) d -> st_id x = k.

(** The ids of [a] followed by the ids of [b] that are new. *)
Definition union_ids (a b : list string) : list string :=
  (a ++ filter (fun k => if in_dec string_dec k a then false else true) b)%list.
