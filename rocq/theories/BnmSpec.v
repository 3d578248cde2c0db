(** What the names of bands are to be, told without the validators. *)
From Coq Require Import Qabs.
From Verif Require Import PyBase PyText PyNum PyFloat BnmModel.
Local Open Scope list_scope.

(** Settings of frequencies only. *)
Definition of_frequency (s : setting) : Prop := match s with SetName _ => False | _ => True end.
(** The frequencies after settings: the last ones set. *)
Fixpoint low_after (l : Q) (ss : list setting) : Q := match ss with [] => l | SetLow q :: r => low_after q r | _ :: r => low_after l r end.
Fixpoint high_after (h : Q) (ss : list setting) : Q := match ss with [] => h | SetHigh q :: r => high_after q r | _ :: r => high_after h r end.
(** Both ends are there: none of them is 0. *)
Definition has_both (l h : Q) : Prop := ~ (l == 0)%Q /\ ~ (h == 0)%Q.
(** At no moment of the history, before its last setting or after it, were both there. *)
Definition never_both (l h : Q) (ss : list setting) : Prop := forall p r, ss = p ++ r -> ~ has_both (low_after l p) (high_after h p).
(** The text is a number that differs from the mean of the two by at most half of the sixth decimal. *)
Definition tells_mean (t : text) (l h : Q) : Prop := exists q, read_float t = Some (Fin q) /\ (Qabs (q - (l + h) / 2) <= 5 # 10000000)%Q.
