(** What an experiment that was written as a dictionary should be when it is read. *)
From Verif Require Import PyBase PyText XmlModel ExpxModel.
Local Open Scope list_scope.

(** The types that filters and channels have (pole_zero_filter.py 26, coefficient_filter.py 25, time_delay_filter.py 25, fir_filter.py 29,
    frequency_response_table_filter.py 31; electric.py, magnetic.py, auxiliary.py) *)
Definition filter_type (c : filter_class) : text :=
  match c with
  | PoleZero => txt "zpk" | Coefficient => txt "coefficient" | TimeDelay => txt "time delay" | ResponseTable => txt "fap" | FIR => txt "fir"
  end.
Definition channel_type (c : channel_class) : text :=
  match c with Electric => txt "electric" | Magnetic => txt "magnetic" | Auxiliary => txt "auxiliary" end.

Definition small_letter (c : ascii) : Prop := (97 <= nat_of_ascii c <= 122)%nat.
Definition digit (c : ascii) : Prop := (48 <= nat_of_ascii c <= 57)%nat.
(** A component in small letters that a channel of the class may have *)
Definition tail_char (c : ascii) : Prop := small_letter c \/ digit c \/ c = "_"%char.
Definition named_for (c : channel_class) (s : text) : Prop :=
  match c with
  | Electric => exists r, s = "e"%char :: r /\ Forall tail_char r
  | Magnetic => exists x r, s = x :: r /\ (x = "h" \/ x = "b" \/ x = "r")%char /\ Forall tail_char r
  | Auxiliary => exists a x b, s = a ++ x :: b /\ tail_char x
  end.

(** An object has the type of its class, and a channel a component that its class may have *)
Definition typed_filter (f : filt) : Prop := dget text_dec (txt "type") (f_fields f) = Some (XText (filter_type (f_class f))).
Definition typed_channel (c : chan) : Prop :=
  dget text_dec (txt "type") (c_fields c) = Some (XText (channel_type (c_class c))) /\
  exists s, dget text_dec (txt "component") (c_fields c) = Some (XText s) /\ named_for (c_class c) s.
(** No field has the name of a part *)
Definition run_ok (r : run) : Prop := Forall typed_channel (r_channels r) /\ ~ In (txt "channels") (map fst (r_fields r)).
Definition station_ok (s : station) : Prop := Forall run_ok (s_runs s) /\ ~ In (txt "runs") (map fst (s_fields s)).
Definition survey_ok (v : survey) : Prop :=
  Forall typed_filter (v_filters v) /\ Forall station_ok (v_stations v) /\ ~ In (txt "stations") (map fst (v_fields v)) /\ ~ In (txt "filters") (map fst (v_fields v)).

Definition the_name (f : filt) : text := name_of (f_fields f).
(** The last entry for which [p] holds *)
Definition last_such {A : Type} (p : A -> bool) (l : list A) : option A := fold_left (fun acc x => if p x then Some x else acc) l None.
Definition same (a b : text) : bool := if text_dec a b then true else false.
