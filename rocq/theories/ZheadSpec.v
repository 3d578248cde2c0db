(** Specification for C95: what the header of a Z file keeps. *)
From Coq Require Import Qabs Sorting.Sorted.
From Verif Require Import PyBase PyText PyNum PyFloat EdiModel ZmmModel ZheadModel.
Local Open Scope list_scope.
Local Open Scope Z_scope.

(** The characters of a station id. *)
Definition id_like (s : text) : Prop := forall c, In c s -> is_alpha c = true \/ is_digit c = true \/ c = "_"%char.
(** Words by which the reader knows the lines. *)
Definition keywords : list text := [txt "station"; txt "coordinate"; txt "number"; txt "orientations"].
(** A header that can be written and read back. *)
Definition readable (h : zhead) : Prop :=
  id_like (zh_station h) /\
  (forall w, In w keywords -> contains w (zh_station h) = false) /\
  contains (txt "period") (lower (zh_station h)) = false /\
  contains (txt "period") (lower (zh_type h)) = false /\ ~ In newline (zh_type h) /\
  (Qabs (zh_latitude h) <= 90 # 1)%Q /\
  zh_channels h <> None /\ zh_frequencies h <> None.
(** Longitudes as stations have them. *)
Definition west_east (h : zhead) : Prop := (Qabs (zh_longitude h) <= 180 # 1)%Q.
Definition close (tol q : Q) (p : pynum) : Prop := exists v, p = Fin v /\ (Qabs (v - q) <= tol)%Q.
(** To two decimals; what has two decimals comes back as it is. *)
Definition two_decimals (q : Q) (p : pynum) : Prop :=
  close (5 # 1000) q p /\ (forall k, (q * 100 == inject_Z k)%Q -> close 0 q p).
(** The number of a channel in the file: its own, or its place in hx, hy, hz, ex, ey counted from zero. *)
Definition in_file (c : comp) (n : option Z) : Z :=
  match n with
  | Some n => n
  | None => match c with Hx => 0 | Hy => 1 | Hz => 2 | Ex => 3 | Ey => 4 end
  end.
(** A zero stands for the number of channels. *)
Definition as_number (nc : Z) (n : Z) : Z := if Z.eq_dec n 0 then nc else n.
Definition channel_kept (nc : Z) (c : comp) (w : option (zchannel Q)) (r : option (zchannel pynum)) : Prop :=
  match w, r with
  | None, None => True
  | Some w, Some r => zn_number r = Some (as_number nc (in_file c (zn_number w))) /\
      two_decimals (zn_azimuth w) (zn_azimuth r) /\ two_decimals (zn_tilt w) (zn_tilt r)
  | _, _ => False
  end.
(** Everything but the longitude. *)
Definition kept (h : zhead) (g : zgot) : Prop :=
  zg_tf_type g = strip (zh_type h) /\ zg_station g = zh_station h /\
  zg_run g = lower (zh_station h) ++ txt "a" /\ zg_tf g = lower (zh_station h) /\
  (contains (txt "**") (zh_type h) = false -> zg_type g = Some (strip (lower (zh_type h))) /\ zg_comments g = txt "WITH FULL ERROR COVARIANCE") /\
  close (5 # 10000) (zh_latitude h) (zg_latitude g) /\ close (5 # 1000) (zh_declination h) (zg_declination g) /\
  zg_channels g = zh_channels h /\ zg_frequencies g = zh_frequencies h /\
  (forall c nc, zh_channels h = Some nc -> channel_kept nc c (zh_channel h c) (zg_channel g c)).

(** Every channel has a number of its own, and none is zero. *)
Definition own_numbers {A} (f : comp -> option (zchannel A)) : Prop :=
  (forall c x, f c = Some x -> exists n, zn_number x = Some n /\ n <> 0) /\
  (forall c d x y, f c = Some x -> f d = Some y -> zn_number x = zn_number y -> c = d).
Definition number_of {A} (f : comp -> option (zchannel A)) (c : comp) : option Z :=
  match f c with Some x => zn_number x | None => None end.
Definition before {A} (f : comp -> option (zchannel A)) (c d : comp) : Prop :=
  exists m n, number_of f c = Some m /\ number_of f d = Some n /\ m < n.
(** The channels there are, by their numbers. *)
Definition by_number {A} (f : comp -> option (zchannel A)) (l : list comp) : Prop :=
  StronglySorted (before f) l /\ forall c, In c l <-> f c <> None.
