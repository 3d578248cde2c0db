(** What an experiment that was written to XML should be when it is read. *)
From Verif Require Import PyBase PyText XmlModel XmlSpec ExpxModel.
Local Open Scope list_scope.

(** The fields of an object as they come back from XML (see [back]) *)
Definition own (d d' : fields) : Prop := back (XDict d) (XDict d').
Definition keys (d : fields) : list text := map fst d.
(** The same objects with fields as they come back; no field has the name of a part *)
Definition filt_back (f f' : filt) : Prop := f_class f = f_class f' /\ own (f_fields f) (f_fields f').
Definition chan_back (c c' : chan) : Prop := c_class c = c_class c' /\ own (c_fields c) (c_fields c').
Definition run_back (r r' : run) : Prop :=
  own (r_fields r) (r_fields r') /\ Forall2 chan_back (r_channels r) (r_channels r') /\
  (forall k, In k (keys (r_fields r)) -> ~ In k [txt "electric"; txt "magnetic"; txt "auxiliary"]).
Definition station_back (s s' : station) : Prop :=
  own (s_fields s) (s_fields s') /\ Forall2 run_back (s_runs s) (s_runs s') /\ ~ In (txt "run") (keys (s_fields s)).
Definition survey_back (v v' : survey) : Prop :=
  own (v_fields v) (v_fields v') /\ Forall2 filt_back (v_filters v) (v_filters v') /\ Forall2 station_back (v_stations v) (v_stations v') /\
  ~ In (txt "station") (keys (v_fields v)) /\ ~ In (txt "filters") (keys (v_fields v)).

Definition filter_class_dec (a b : filter_class) : {a = b} + {a <> b}. Proof. decide equality. Defined.
Definition channel_class_dec (a b : channel_class) : {a = b} + {a <> b}. Proof. decide equality. Defined.
Definition of_class (c : filter_class) (fs : list filt) : list filt := filter (fun f => if filter_class_dec (f_class f) c then true else false) fs.
Definition channels_of_class (c : channel_class) (cs : list chan) : list chan := filter (fun x => if channel_class_dec (c_class x) c then true else false) cs.
(** Every element where it occurs first *)
Fixpoint first_seen {A : Type} (dec : forall a b : A, {a = b} + {a <> b}) (l : list A) : list A :=
  match l with [] => [] | x :: r => x :: filter (fun y => if dec y x then false else true) (first_seen dec r) end.
(** The filters class by class *)
Definition by_class (fs : list filt) : list filt := flat_map (fun c => of_class c fs) (first_seen filter_class_dec (map f_class fs)).
(** Those that are read *)
Definition not_fir (fs : list filt) : list filt := filter (fun f => if filter_class_dec (f_class f) FIR then false else true) fs.
Definition key_of (f : filt) : text := lower (name_of (f_fields f)).
(** The channels class by class *)
Definition sorted_run (r : run) : run :=
  mkRun (r_fields r) (channels_of_class Electric (r_channels r) ++ channels_of_class Magnetic (r_channels r) ++ channels_of_class Auxiliary (r_channels r)).
Definition sorted_station (s : station) : station := mkStation (s_fields s) (map sorted_run (s_runs s)).
(** The last filter with the key *)
Definition last_with (k : text) (fs : list filt) : option filt :=
  fold_left (fun acc f => if text_dec k (key_of f) then Some f else acc) fs None.
(** Every station has a run *)
Definition has_runs (v : survey) : Prop := v_stations v <> [] /\ forall s, In s (v_stations v) -> s_runs s <> [].
