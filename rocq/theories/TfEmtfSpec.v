(** Specification for C93: what of a TF object goes through EMTF XML. *)
From Coq Require Import QArith Qabs.
From Verif Require Import PyBase PyText TfModel TfSpec TfEmtfModel.
From Verif Require EmtfModel EmtfSpec.
Local Open Scope nat_scope.

(** A square root to twelve digits. *)
Definition sqrt_like (root : Q -> Q) : Prop := forall v, (0 <= v)%Q -> (0 <= root v /\ Qabs (root v * root v - v) <= (1 # 1000000000000) * v)%Q.
(** A complex number after writing and reading (C92): 1e32 for zero and nan, else six decimals. *)
Definition back (x y : cpair) : Prop := EmtfSpec.came_back EmtfModel.KZ x y.
(** An error: 1e16 for zero and nan, else the magnitude of the error to six decimals. *)
Definition error_back (x y : cpair) : Prop :=
  exists v, fst y = Some v /\
    match fst x with
    | Some e => if Qeq_bool e 0 then (Qabs (v - inject_Z (10 ^ 16)) <= inject_Z (10 ^ 4))%Q else (Qabs (v - Qabs e) <= (1 # 1000000) * Qabs e)%Q
    | None => (Qabs (v - inject_Z (10 ^ 16)) <= inject_Z (10 ^ 4))%Q
    end.
(** An error converted without a file: nan stays, else the magnitude. *)
Definition error_same (x y : cpair) : Prop :=
  match fst x with Some e => exists v, fst y = Some v /\ (Qabs (v - Qabs e) <= (1 # 1000000000000) * Qabs e)%Q | None => fst y = None end.
Definition nothing_there (y : cpair) : Prop := exists a b, y = (Some a, Some b) /\ (a == 0)%Q /\ (b == 0)%Q.

Section Conversion.
Variable spr : cpair -> cpair -> cpair.
Notation tf := (tf (cells spr)).
Notation entry := (entry (cells spr)).
Notation there := (there (cells spr)).
(** What was a quantity [a] with its errors comes back by [b] and [eb]; what was not there is zero. *)
Definition quantity_back (a : atype) (b eb : cpair -> cpair -> Prop) (t t' : tf) : Prop :=
  forall p o i, p < length (periods (cells spr) t) -> In o (rows a) -> In i (cols a) ->
    (there a t -> b (entry t VTf p o i) (entry t' VTf p o i) /\ eb (entry t VErr p o i) (entry t' VErr p o i)) /\
    (~ there a t -> nothing_there (entry t' VTf p o i) /\ nothing_there (entry t' VErr p o i)).
Definition both_covariances (t : tf) : Prop := there ARes t /\ there AIsp t.
(** The covariances of the magnetic channels, of the electric channels and of the vertical field. *)
Definition covariances_back (b : cpair -> cpair -> Prop) (t t' : tf) : Prop :=
  forall p o i, p < length (periods (cells spr) t) ->
    (In o [Hx; Hy] -> In i [Hx; Hy] -> (both_covariances t -> b (entry t VIsp p o i) (entry t' VIsp p o i)) /\ (~ both_covariances t -> nothing_there (entry t' VIsp p o i))) /\
    ((In o [Ex; Ey] /\ In i [Ex; Ey]) \/ (o = Hz /\ i = Hz) -> (both_covariances t -> b (entry t VRes p o i) (entry t' VRes p o i)) /\ (~ both_covariances t -> nothing_there (entry t' VRes p o i))) /\
    ((In o [Ex; Ey] /\ i = Hz) \/ (o = Hz /\ In i [Ex; Ey]) -> nothing_there (entry t' VRes p o i)).
Definition periods_near (l l' : list Q) : Prop := Forall2 (fun q v => (Qabs (v - q) <= (5 # 10000000000000) * Qabs q)%Q) l l'.
(** A new object, TF(). *)
Definition fresh (t : tf) : Prop := new (cells spr) None [] = Ok t.
End Conversion.
