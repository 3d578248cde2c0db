(** What a collection should hold. *)
From Verif Require Import PyBase ListDictModel VlsModel.
Local Open Scope list_scope.

Section Spec.
Variable A : Type.
(** The name of an object: its id or, if it has none, its component. *)
Definition named (o : obj A) (k : key) : Prop := at_id o = Some k \/ (at_id o = None /\ at_component o = Some k).
(** The object that an entry stands for.  Objects stand for themselves, but channels, which are converted; a dictionary for the object made of it. *)
Inductive means : kind -> item A -> obj A -> Prop :=
| means_obj k o r : In k [Surveys; Stations; Runs; FcLevels] -> means k (Obj A o r) o
| means_chan k o o' : In k [Channels; FcChannels] -> means k (Obj A o (Ok o')) o'
| means_dict k o : means k (Dict A (Ok o)) o
| means_else k o : In k [Channels; FcChannels; FcLevels] -> means k (Else A (Ok o)) o.
(** The last object of the list with that name. *)
Definition last_named (k : key) (l : list (obj A)) (o : obj A) : Prop :=
  exists l1 l2, l = l1 ++ o :: l2 /\ named o k /\ forall o', In o' l2 -> ~ named o' k.
(** Names in the order in which they first occur, each once. *)
Fixpoint firsts (l : list key) : list key :=
  match l with
  | [] => []
  | k :: r => k :: filter (fun k' => if key_dec k' k then false else true) (firsts r)
  end.
(** An entry that stands for nothing. *)
Definition bad (k : kind) (i : item A) : Prop := forall o, ~ means k i o.
End Spec.
