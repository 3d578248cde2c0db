(** Model of the validators of the collections an object holds: surveys of an Experiment
    (/repo/mt_metadata/timeseries/experiment.py 124-157), stations of a Survey (survey.py 379-417), runs of a Station (station.py 299-337),
    channels of a Run (run.py 318-349), channels of an FC Decimation (processing/fourier_coefficients/decimation.py 132-179) and levels of an
    FC (fc.py 146-196).  Objects and keys are those of ListDictModel. *)
From Verif Require Import PyBase ListDictModel.
Local Open Scope list_scope.

Section Lists.
Variable A : Type.
Notation obj := (obj A).

Inductive kind : Type := Surveys | Stations | Runs | Channels | FcChannels | FcLevels.
(** An entry: an object of the class that is collected, with what the class makes of it (run.py 978-1079 _get_correct_channel_type for
    [Channels], from_dict(to_dict()) for [FcChannels]); a dictionary; anything else.  [made]: the object made of it, or what is raised. *)
Inductive item : Type :=
| Obj (o : obj) (made : result obj)
| Dict (made : result obj)
| Else (made : result obj).
(** What happens to an entry: taken, noted as a failure, or an exception that is not caught. *)
Inductive fate : Type := Took (o : obj) | Noted | Raises (e : exn).
Definition catch_key (r : result obj) : fate := match r with Ok o => Took o | Err KeyError => Noted | Err e => Raises e end.
Definition catch_all (r : result obj) : fate := match r with Ok o => Took o | Err _ => Noted end.
Definition catch_none (r : result obj) : fate := match r with Ok o => Took o | Err e => Raises e end.
Definition fate_of (k : kind) (i : item) : fate :=
  match k with
  | Surveys => match i with Obj o _ => Took o | Dict r => catch_none r | Else _ => Noted end
  | Stations | Runs => match i with Obj o _ => Took o | Dict r => catch_key r | Else _ => Noted end
  | Channels => match i with Obj _ r | Dict r | Else r => catch_key r end
  | FcChannels => match i with Obj _ r | Dict r | Else r => catch_all r end
  | FcLevels => match i with Obj o _ => Took o | Dict r | Else r => catch_all r end
  end.
(** The loop; [fails] says whether a failure was noted. *)
Fixpoint collect (k : kind) (l : list item) (fails : bool) (d : home A) : result (home A) :=
  match l with
  | [] => if fails then Err TypeError else Ok d
  | i :: r =>
      match fate_of k i with
      | Took o => collect k r fails (fst (append d o))
      | Noted => collect k r true d
      | Raises e => Err e
      end
  end.
(** What can be given: nothing, a text, a list, tuple or dictionary (its values, 142-146: the keys are not looked at), anything else. *)
Inductive given : Type := GNone | GText (s : string) | GItems (l : list item) | GOther.
Definition validate (k : kind) (v : given) : result (home A) :=
  match v, k with
  | GItems l, _ => collect k l false []
  | GNone, (FcChannels | FcLevels) | GText _, (FcChannels | FcLevels) => Ok []
  | _, _ => Err TypeError
  end.
End Lists.
