(** What an EDI object should report of the channels of the station it was given. *)
From Coq Require Import QArith Reals.
From Verif Require Import PyBase PyText PyFloat EdnModel EdnSpec EchModel.
Local Open Scope list_scope.

(** ** The station *)
Definition channels_of (rs : list erun) : list (text * chan) := flat_map (fun r => map (pair (e_id r)) (e_channels r)) rs.
(** The only channel with this component, and the id of its run *)
Definition only (comp : text) (rs : list erun) (rid : text) (c : chan) : Prop :=
  c_component c = comp /\ exists l1 l2, channels_of rs = l1 ++ (rid, c) :: l2 /\ forall x, In x (l1 ++ l2) -> c_component (snd x) <> comp.
(** No part of a dotted name ends like the component *)
Definition apart (comp w : text) : Prop := ~ mentions (comp ++ txt ".") (w ++ txt ".").
Definition no_blank (w : text) : Prop := forall c, In c w -> is_space c = false.
Definition tidy (comp : text) (rs : list erun) : Prop :=
  (forall r, In r rs -> ~ In "."%char (e_id r) /\ apart comp (e_id r) /\ (forall f v, In (f, v) (e_fields r) -> apart comp f)) /\
  (forall x, In x (channels_of rs) -> ~ In "."%char (c_component (snd x)) /\ (c_component (snd x) = comp \/ apart comp (c_component (snd x))) /\
     (forall f v, In (f, v) (c_fields (snd x)) -> apart comp f /\ no_blank f)).
(** Notes that were there before and say nothing about the component *)
Definition quiet (comp : text) (d : notes) : Prop := forall k v, In (k, v) d -> apart comp k.

(** ** Fields *)
(** Those for which no note is written *)
Definition not_noted : list text :=
  map txt ["filter.name"; "filter.applied"; "time_period.start"; "time_period.end"; "location.elevation"; "location.latitude"; "location.longitude";
           "location.x"; "location.y"; "location.z"; "positive.latitude"; "positive.longitude"; "positive.elevation"; "positive.x"; "positive.x2";
           "positive.y"; "positive.y2"; "positive.z"; "positive.z2"; "negative.latitude"; "negative.longitude"; "negative.elevation"; "negative.x";
           "negative.x2"; "negative.y"; "negative.y2"; "negative.z"; "negative.z2"; "sample_rate"; "data_quality.rating.value";
           "data_quality.flag"]%string.
Definition noted (c : chan) (f : text) (v : value) : Prop := In (f, v) (c_fields c) /\ given v /\ ~ In f not_noted.
(** The value of an attribute of the channel that is reported *)
Definition reports (a : attrs) (f : string) (v : cval) : Prop := dget text_dec (txt f) a = Some v.

(** ** Positions *)
Definition coordinate (o : option R) : R := match o with Some x => x | None => 0%R end.
(** The angle from north, in degrees, of a displacement to the north and to the east, with its length *)
Definition has_length (l n e : R) : Prop := (0 <= l)%R /\ (l * l = n * n + e * e)%R.
Definition has_angle (a l n e : R) : Prop := (- 180 < a <= 180)%R /\ n = (l * cos (a * PI / 180))%R /\ e = (l * sin (a * PI / 180))%R.

(** The number a channel id stands for *)
Definition id_number (o : option text) (x : pynum) : Prop := match o with None => x = Fin 0%Q | Some s => read_float s = Some x end.

(** ** The components an EDI object reports; components are in small letters *)
Definition electric_component (comp : text) : Prop := comp = txt "ex" \/ comp = txt "ey".
Definition small_components (rs : list erun) : Prop := forall x, In x (channels_of rs) -> small (c_component (snd x)).
Definition magnetic_component (comp : text) : Prop := In comp (map txt ["hx"; "hy"; "hz"; "rrhx"; "rrhy"]%string).
(** A channel with no position, id or number *)
Definition plain (k : kind) (comp : text) (fs : list (text * value)) (az : option R) : chan := mkCh k comp fs az None 0 None None None None None.
