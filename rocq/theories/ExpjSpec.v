(** Which experiments have a JSON text. *)
From Verif Require Import PyBase PyText PyJson PyJsonFacts PyFloat XmlModel ExpxModel.
Local Open Scope list_scope.

(** A number: True, False, an integer or a float, as Python writes them *)
Definition number_text (s : text) : Prop := s = txt "true" \/ s = txt "false" \/ (exists z, s = show_int z) \/ float_text s.
(** A value: dictionaries have distinct keys *)
Inductive value : xval -> Prop :=
| v_none : value XNone
| v_text s : value (XText s)
| v_num s : number_text s -> value (XNum s)
| v_list l : Forall value l -> value (XList l)
| v_dict d : NoDup (map fst d) -> Forall (fun kv => value (snd kv)) d -> value (XDict d).
Definition plain (d : fields) : Prop := value (XDict d).
Definition plain_run (r : run) : Prop := plain (r_fields r) /\ Forall (fun c => plain (c_fields c)) (r_channels r).
Definition plain_station (s : station) : Prop := plain (s_fields s) /\ Forall plain_run (s_runs s).
Definition plain_survey (v : survey) : Prop := plain (v_fields v) /\ Forall (fun f => plain (f_fields f)) (v_filters v) /\ Forall plain_station (v_stations v).
