(** Specification for C96: what is left of a TF object after a Z file. *)
From Coq Require Import QArith Qabs Reals Qreals.
From Verif Require Import PyBase PyText PyNum PyFloat Cplx TfModel TfSpec.
From Verif Require ZmmSpec ZheadModel ZheadSpec TfEmtfModel PySciFacts.
Local Open Scope nat_scope.

Notation cpair := TfEmtfModel.cpair.
(** A number that can be written: both parts are numbers whose power of ten has two digits. *)
Definition writable (x : cpair) : Prop := exists a b, x = (Some a, Some b) /\ ZmmSpec.printable a /\ ZmmSpec.printable b.
(** The same number to half a unit of the fifth digit of each part. *)
Definition near (x : cpair) (y : option Cx) : Prop :=
  exists a b u v, x = (Some a, Some b) /\ y = Some (u, v) /\
    (Rabs (u - Q2R a) <= 5 / 100000 * Rabs (Q2R a))%R /\ (Rabs (v - Q2R b) <= 5 / 100000 * Rabs (Q2R b))%R.
Definition conjugate (x y : option Cx) : Prop := exists u v, x = Some (u, v) /\ y = Some (u, (- v)%R).

(** The outputs in a file: the vertical field with a tipper, the electric fields with an impedance. *)
Definition outputs (tipper impedance : bool) : list chan := (if tipper then [Hz] else []) ++ (if impedance then [Ex; Ey] else []).
Definition inputs : list chan := [Hx; Hy].
(** [o'] is [o] or comes before it. *)
Definition below (l : list chan) (o o' : chan) : Prop := exists r c, at_place chan_dec o l = Some r /\ at_place chan_dec o' l = Some c /\ c <= r.

Section Written.
Variable spr : cpair -> cpair -> cpair.
Notation cells := (TfEmtfModel.cells spr).
(** What the object has. *)
Definition has_both (t : tf cells) (tipper impedance : bool) : Prop :=
  (tipper = true <-> there cells ATip t) /\ (impedance = true <-> there cells AImp t).
(** All numbers that are written can be. *)
Definition finite_data (t : tf cells) (outs : list chan) : Prop :=
  forall p, p < length (periods cells t) ->
    (forall o i, In o outs -> In i inputs -> writable (entry cells t VTf p o i)) /\
    (forall i j, below inputs i j -> writable (entry cells t VIsp p i j)) /\
    (forall o o', below outs o o' -> writable (entry cells t VRes p o o')).
(** There is something in the lower triangles of the covariances. *)
Definition not_zero (x : cpair) : Prop := is_zero cells x = false.
Definition has_power (t : tf cells) : Prop := exists p i j, p < length (periods cells t) /\ below inputs i j /\ not_zero (entry cells t VIsp p i j).
Definition has_residual (t : tf cells) (outs : list chan) : Prop := exists p o o', p < length (periods cells t) /\ below outs o o' /\ not_zero (entry cells t VRes p o o').
(** The names of the channels are found by the names in use. *)
Definition names_known (t : tf cells) : Prop := snd (inverse_names cells t) = map (fun kv => (snd kv, fst kv)) (name_items (t_names cells t)).
(** The channels of the first run: each that is needed is there, once, and there is no other but remote references and
    channels of the object; or there are none at all. *)
Definition described (ns : names) (run : list (text * (Q * Q))) (needed : list chan) : Prop :=
  NoDup (map fst run) /\
  (forall x, In x (map fst run) -> contains (txt "rr") x = true \/ exists c, x = name ns c) /\
  (forall c, In c needed -> In (name ns c) (map fst run) /\ contains (txt "rr") (name ns c) = false).
(** Sensors along the axes. *)
Definition azimuth_of (c : chan) : Q := match c with Hx | Ex | Hz => 0%Q | Hy | Ey => 90%Q end.
Definition along_axes (ns : names) (run : list (text * (Q * Q))) : Prop :=
  forall c a, c <> Hz -> In (name ns c, a) run -> (fst a == azimuth_of c)%Q.
End Written.

(** What decimation levels give for a period can be written. *)
Definition good_level (d : Z * (Z * Z) * Z * text) : Prop :=
  let '(level, _, _, rate) := d in
  (-999999 <= level <= 9999999)%Z /\ rate <> [] /\ forallb PySciFacts.sci_char rate = true /\ exists v, read_float rate = Some v.

(** A new object. *)
Definition fresh (t : tf cx_nums) : Prop :=
  consistent cx_nums t /\ t_names cx_nums t = default_names /\ same_periods (periods cx_nums t) [1%Q] = true.

(** The error that belongs to an output covariance and an input covariance. *)
Definition error_of (r s e : option Cx) : Prop := exists a b, r = Some a /\ s = Some b /\ e = Some (RtoC (sqrt (Cabs (Cmul a b)))).
Definition zero_at (t : tf cx_nums) (v : var) (p : nat) (o i : chan) : Prop := entry cx_nums t v p o i = Some C0.
Section Back.
Variable spr : cpair -> cpair -> cpair.
Notation cells := (TfEmtfModel.cells spr).
(** What comes back apart from the transfer function: periods to five decimals, covariances to five digits (the upper
    triangles as conjugates of the lower), the errors that belong to them, and zeros. *)
Definition rest_back (t : tf cells) (outs : list chan) (t' : tf cx_nums) : Prop :=
  t_names cx_nums t' = default_names /\
  Forall2 (fun q q' => Qabs (q' - q) <= 5 # 1000000)%Q (periods cells t) (periods cx_nums t') /\
  (forall p, p < length (periods cells t) ->
    (forall i j, below inputs i j -> near (entry cells t VIsp p i j) (entry cx_nums t' VIsp p i j) /\
       (i <> j -> conjugate (entry cx_nums t' VIsp p i j) (entry cx_nums t' VIsp p j i))) /\
    (forall o o', below outs o o' -> near (entry cells t VRes p o o') (entry cx_nums t' VRes p o o') /\
       (o <> o' -> conjugate (entry cx_nums t' VRes p o o') (entry cx_nums t' VRes p o' o))) /\
    (forall o i, In o [Ex; Ey; Hz] -> In i inputs -> error_of (entry cx_nums t' VRes p o o) (entry cx_nums t' VIsp p i i) (entry cx_nums t' VErr p o i))) /\
  (forall p o i, ~ (In o outs /\ In i inputs) -> zero_at t' VTf p o i) /\
  (forall p o i, ~ (In o inputs /\ In i inputs) -> zero_at t' VIsp p o i) /\
  (forall p o i, ~ (In o outs /\ In i outs) -> zero_at t' VRes p o i) /\
  (forall p o i, zero_at t' VModel p o i).
(** And the transfer function. *)
Definition tf_back (t : tf cells) (outs : list chan) (t' : tf cx_nums) : Prop :=
  forall p o i, p < length (periods cells t) -> In o outs -> In i inputs -> near (entry cells t VTf p o i) (entry cx_nums t' VTf p o i).
End Back.
(** An object, the channels of its first run, a header and decimation levels that can be written. *)
Definition convertible (spr : cpair -> cpair -> cpair) (t : tf (TfEmtfModel.cells spr)) (ht hi : bool) (head : ZheadModel.zhead) (dec : Q -> Z * (Z * Z) * Z * text) : Prop :=
  consistent (TfEmtfModel.cells spr) t /\ has_both spr t ht hi /\ (ht = true \/ hi = true) /\ names_known spr t /\
  ZheadSpec.readable head /\ ZheadSpec.west_east head /\ (forall q, good_level (dec q)) /\
  finite_data spr t (outputs ht hi) /\ periods (TfEmtfModel.cells spr) t <> [].
