(** What C32 and C33 mean, apart from the model: positions in degrees. *)
From Coq Require Import Qabs.
From Verif Require Import PyBase PyText PyNum PyFloat.
Local Open Scope Q_scope.

(** Two positions that differ by no more than half of the last decimal of seconds that is kept
    (0.00005 seconds of arc). *)
Definition close_position (a b : Q) : Prop := Qabs (a - b) <= (5 # 100000) / inject_Z 3600.

(** A text "degrees:minutes:seconds" with whole degrees and minutes, and minutes and seconds from 0 to
    below 60. *)
Definition proper_dms (s : text) : Prop :=
  exists d m c dv mv cv,
    s = (d ++ ":"%char :: m ++ ":"%char :: c)%list
    /\ ~ In ":"%char d /\ ~ In ":"%char m /\ ~ In ":"%char c
    /\ read_float d = Some (Fin dv) /\ read_float m = Some (Fin mv) /\ read_float c = Some (Fin cv)
    /\ (exists z, dv == inject_Z z) /\ (exists z, mv == inject_Z z)
    /\ 0 <= mv < inject_Z 60 /\ 0 <= cv < inject_Z 60.
