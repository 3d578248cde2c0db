(** What the theorems on EDI data talk about. *)
From Coq Require Import Qabs Qpower.
From Verif Require Import PyBase PyText PyNum PyFloat EdiModel.
Local Open Scope Z_scope.

Notation ten e := (Qpower (10 # 1) e).
(** The finite numbers of binary64 are 0 or between these powers of ten. *)
Definition double_range (q : Q) : Prop := (q == 0)%Q \/ (ten (-324) <= Qabs q /\ Qabs q < ten 309)%Q.
(** A marker for missing values that can be printed with seven digits, like the default 1e32. *)
Definition good_marker (empty : Q) : Prop :=
  double_range empty /\ exists m k, 10 ^ 6 <= Z.abs m < 10 ^ 7 /\ (empty == inject_Z m * ten k)%Q.
(** Not the marker, not even when printed. *)
Definition apart (empty q : Q) : Prop := ((5 # 10000000) * Qabs q < Qabs (q - empty))%Q.
Definition writable (empty q : Q) : Prop := double_range q /\ ((q == 0)%Q \/ apart empty q).
(** The same number to the printed precision: half a unit of the seventh digit. *)
Definition close (q : Q) (p : pynum) : Prop :=
  exists v, p = Fin v /\ (Qabs (v - q) <= (5 # 10000000) * Qabs q)%Q.

(** A relation between numbers, for all the numbers of two EDI objects, place by place. *)
Definition on_pair {A B : Type} (P : A -> B -> Prop) (a : A * A) (b : B * B) : Prop := P (fst a) (fst b) /\ P (snd a) (snd b).
Definition same_data {A B : Type} (P : A -> B -> Prop) (a : edi A) (b : edi B) : Prop :=
  Forall2 P (e_freq a) (e_freq b) /\ Forall2 P (e_rot a) (e_rot b) /\
  (forall c, Forall2 (on_pair P) (e_z a c) (e_z b c)) /\ (forall c, Forall2 P (e_zvar a c) (e_zvar b c)) /\
  (forall c, Forall2 (on_pair P) (e_t a c) (e_t b c)) /\ (forall c, Forall2 P (e_tvar a c) (e_tvar b c)).
(** All arrays of the same length. *)
Definition sizes {A : Type} (n : nat) (e : edi A) : Prop :=
  List.length (e_freq e) = n /\ List.length (e_rot e) = n /\
  (forall c, List.length (e_z e c) = n) /\ (forall c, List.length (e_zvar e c) = n) /\
  (forall c, List.length (e_t e c) = n) /\ (forall c, List.length (e_tvar e c) = n).
Definition all_numbers {A : Type} (P : A -> Prop) (e : edi A) : Prop :=
  Forall P (e_freq e) /\ Forall P (e_rot e) /\
  (forall c, Forall (fun p => P (fst p) /\ P (snd p)) (e_z e c)) /\ (forall c, Forall P (e_zvar e c)) /\
  (forall c, Forall (fun p => P (fst p) /\ P (snd p)) (e_t e c)) /\ (forall c, Forall P (e_tvar e c)).
(** A tipper that is zero everywhere has no errors: nothing of it is written. *)
Definition tipper_errors_kept (e : edi Q) : Prop :=
  (forall c, Forall (fun p => fst p == 0 /\ snd p == 0)%Q (e_t e c)) -> forall c, Forall (fun v => v == 0)%Q (e_tvar e c).
(** The object with its arrays in the opposite order; the same but for the rotation angles. *)
Definition flip {A : Type} (e : edi A) : edi A :=
  mkEdi (rev (e_freq e)) (rev (e_rot e)) (fun c => rev (e_z e c)) (fun c => rev (e_zvar e c))
        (fun c => rev (e_t e c)) (fun c => rev (e_tvar e c)).
Definition flip_but_rotation {A : Type} (e : edi A) : edi A :=
  mkEdi (rev (e_freq e)) (e_rot e) (fun c => rev (e_z e c)) (fun c => rev (e_zvar e c))
        (fun c => rev (e_t e c)) (fun c => rev (e_tvar e c)).
(** Numbers in descending or ascending order, each strictly. *)
Inductive number_lt : pynum -> pynum -> Prop := number_lt_fin : forall x y, (x < y)%Q -> number_lt (Fin x) (Fin y).
Fixpoint ordered {A : Type} (R : A -> A -> Prop) (l : list A) : Prop :=
  match l with
  | x :: r => (forall y, In y r -> R x y) /\ ordered R r
  | [] => True
  end.
Definition descending (l : list pynum) : Prop := ordered (fun x y => number_lt y x) l.
Definition ascending (l : list pynum) : Prop := ordered number_lt l.
(** The keys of the blocks that are written. *)
Definition data_keys : list text :=
  map txt ["freq"; "zrot"; "zxxr"; "zxxi"; "zxx.var"; "zxyr"; "zxyi"; "zxy.var"; "zyxr"; "zyxi"; "zyx.var";
           "zyyr"; "zyyi"; "zyy.var"; "trot"; "txr.exp"; "txi.exp"; "txvar.exp"; "tyr.exp"; "tyi.exp"; "tyvar.exp"]%string.
