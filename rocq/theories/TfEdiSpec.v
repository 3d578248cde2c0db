(** Specification for C94: what of a TF object goes through EDI files. *)
From Coq Require Import QArith Qabs.
From Verif Require Import PyBase PyText TfModel TfSpec TfEmtfModel TfEmtfSpec TfEdiModel.
From Verif Require EdiModel EdiSpec.
Local Open Scope nat_scope.

(** nan counts as zero. *)
Definition number_of (c : cell) : Q := match c with Some q => q | None => 0%Q end.
(** The same number to seven digits. *)
Definition digits (c y : cell) : Prop := exists v, y = Some v /\ (Qabs (v - number_of c) <= (5 # 10000000) * Qabs (number_of c))%Q.
Definition value_digits (x y : cpair) : Prop := digits (fst x) (fst y) /\ digits (snd x) (snd y).
(** An error: its magnitude to six digits. *)
Definition error_digits (x y : cpair) : Prop := exists v, fst y = Some v /\ (Qabs (v - Qabs (number_of (fst x))) <= (1 # 1000000) * Qabs (number_of (fst x)))%Q.
Definition periods_digits (l l' : list Q) : Prop := Forall2 (fun q v => (Qabs (v - q) <= (1 # 1000000) * q)%Q) l l'.
(** The angle at each of [n] periods. *)
Definition angles (n : nat) (r : rotation) (l : list Q) : Prop := match r with ROne a => length l = n /\ Forall (fun x => x = a) l | RMany m => l = m end.
Definition angles_digits (l l' : list Q) : Prop := Forall2 (fun q v => (Qabs (v - q) <= (5 # 10000000) * Qabs q)%Q) l l'.

Section Conversion.
Variable spr : cpair -> cpair -> cpair.
Notation num := (cells spr).
Notation tf := (tf num).
Notation entry := (entry num).
(** All numbers that are written are in the range of doubles and not the marker for missing values. *)
Definition all_writable (empty : Q) (t : tf) (l : list Q) : Prop :=
  Forall (fun q => (0 < q)%Q /\ EdiSpec.writable empty (1 / q)) (periods num t) /\ Forall (EdiSpec.writable empty) l /\
  forall p o i, p < length (periods num t) -> In o [Ex; Ey; Hz] -> In i [Hx; Hy] ->
    EdiSpec.writable empty (number_of (fst (entry t VTf p o i))) /\ EdiSpec.writable empty (number_of (snd (entry t VTf p o i))) /\
    EdiSpec.writable empty (number_of (fst (entry t VErr p o i)) * number_of (fst (entry t VErr p o i)))%Q.
(** [f]: the period of [t] that is the [p]-th of [t']. *)
Definition quantity_moved (f : nat -> nat) (a : atype) (b eb : cpair -> cpair -> Prop) (t t' : tf) : Prop :=
  forall p o i, p < length (periods num t) -> In o (rows a) -> In i (cols a) ->
    (there num a t -> b (entry t VTf (f p) o i) (entry t' VTf p o i) /\ eb (entry t VErr (f p) o i) (entry t' VErr p o i)) /\
    (~ there num a t -> nothing_there (entry t' VTf p o i) /\ nothing_there (entry t' VErr p o i)).
Definition same_place (p : nat) : nat := p.
Definition other_end (n p : nat) : nat := n - S p.
(** Neither covariances nor model errors are in the file. *)
Definition no_covariances (t' : tf) : Prop := forall v p o i, (v = VIsp \/ v = VRes \/ v = VModel) -> nothing_there (entry t' v p o i).
End Conversion.
