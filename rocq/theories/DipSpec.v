(** What a dipole should be when it comes back from a file. *)
From Verif Require Import PyBase PyText PyNum ContainerModel CommentModel EmtfSpec LaySpec DipModel.
Local Open Scope nat_scope.
Local Open Scope list_scope.

(** An attribute: words that stand for nothing, and None, become the empty text. *)
Definition attribute_back (o : option text) (s : text) : Prop :=
  match o with Some t => same_name t s | None => s = [] end.
(** A text: without blanks around it; nothing for the words that stand for nothing. *)
Definition manufacturer_back (o o' : option text) : Prop :=
  match o with
  | Some t => (says_nothing t /\ o' = None) \/ (~ says_nothing t /\ o' = Some (strip t))
  | None => o' = None
  end.
Definition number_back (o o' : option Q) : Prop :=
  match o, o' with Some q, Some q' => thousandths q q' | None, None => True | _, _ => False end.
(** The remark of an electrode: its text (without blanks around it), or nothing for the words that stand for nothing. *)
Definition remark_back (s s' : text) : Prop := (says_nothing s /\ s' = []) \/ (~ says_nothing s /\ s' = strip s).
(** An electrode with a remark in its comments comes back with the remark as its value and without comments. *)
Definition electrode_back (show : Z -> text) (e e' : electrode) : Prop :=
  e_side e' = e_side e /\ attribute_back (Some (e_number e)) (e_number e') /\ remark_back (as_string show (e_comments e)) (e_value e') /\
  value (e_comments e') = None /\ author (e_comments e') = None.
Definition dipole_back (show : Z -> text) (p p' : dipole) : Prop :=
  manufacturer_back (p_manu p) (p_manu p') /\ number_back (p_length p) (p_length p') /\ number_back (p_azimuth p) (p_azimuth p') /\
  (exists n, p_name p' = Some n /\ attribute_back (p_name p) n) /\ (exists t, p_type p' = Some t /\ attribute_back (p_type p) t) /\
  Forall2 (electrode_back show) (p_electrodes p) (p_electrodes p').
