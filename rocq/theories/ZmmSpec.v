(** Specification for C51: what a Z file keeps. *)
From Coq Require Import Qabs Qpower.
From Verif Require Import PyBase PyText PyNum PyFloat PySci PySciFacts ZmmModel.
Local Open Scope Z_scope.

(** Numbers whose power of ten has two digits. *)
Definition printable (q : Q) : Prop := (q == 0)%Q \/ (Qpower (10 # 1) (-99) <= Qabs q /\ Qabs q < Qpower (10 # 1) 99)%Q.
Definition printable_pair (x : Q * Q) : Prop := printable (fst x) /\ printable (snd x).
(** The same number to half a unit of its fifth digit. *)
Definition near (q : Q) (p : pynum) : Prop := exists v, p = Fin v /\ (Qabs (v - q) <= (5 # 100000) * Qabs q)%Q.
Definition near_pair (x : Q * Q) (y : zval) : Prop := near (fst x) (fst y) /\ near (snd x) (snd y).
(** The second is the complex conjugate of the first. *)
Definition conj_num (a b : pynum) : Prop := match a, b with Fin x, Fin y => (y == - x)%Q | NonFinite, NonFinite => True | _, _ => False end.
Definition conj_of (x y : zval) : Prop := fst y = fst x /\ conj_num (snd x) (snd y).
(** A period with its entry that can be written: seven characters for the decimation level, a sample rate that is a
    number. *)
Definition writable_block (n : nat) (d : zdata) : Prop :=
  -999999 <= zd_level d <= 9999999 /\
  zd_rate d <> [] /\ forallb sci_char (zd_rate d) = true /\ (exists v, read_float (zd_rate d) = Some v) /\
  (forall i j, (i < n)%nat -> (j < 2)%nat -> printable_pair (zd_tf d i j)) /\
  (forall i j, (i < 2)%nat -> (j <= i)%nat -> printable_pair (zd_sig d i j)) /\
  (forall i j, (i < n)%nat -> (j <= i)%nat -> printable_pair (zd_res d i j)).
(** What has been read is what was written, numbers to the precision of the file. *)
Definition stored (n : nat) (d : zdata) (r : zread) : Prop :=
  (exists p, zr_period r = Fin p /\ (Qabs (p - zd_period d) <= 5 # 1000000)%Q) /\
  zr_level r = zd_level d /\ zr_band r = zd_band d /\ zr_npts r = zd_npts d /\ read_float (zd_rate d) = Some (zr_rate r) /\
  (forall i j, (i < n)%nat -> (j < 2)%nat -> near_pair (zd_tf d i j) (zr_tf r i j)) /\
  (forall i j, (i < 2)%nat -> (j <= i)%nat -> near_pair (zd_sig d i j) (zr_sig r i j)) /\
  (forall i j, (i < n)%nat -> (j <= i)%nat -> near_pair (zd_res d i j) (zr_res r i j)).
(** A matrix as read is Hermitian apart from its diagonal. *)
Definition hermitian_read (n : nat) (m : nat -> nat -> zval) : Prop := forall i j, (j < i)%nat -> (i < n)%nat -> conj_of (m i j) (m j i).
(** A Hermitian matrix. *)
Definition hermitian (n : nat) (m : nat -> nat -> Q * Q) : Prop :=
  forall i j, (i < n)%nat -> (j < n)%nat -> (fst (m j i) == fst (m i j))%Q /\ (snd (m j i) == - snd (m i j))%Q.
(** The data of a period that hold just what was read: the text of the rate is one that reads as the rate read. *)
Definition as_read (n : nat) (r : zread) (d : zdata) : Prop :=
  zr_period r = Fin (zd_period d) /\ zr_level r = zd_level d /\ zr_band r = zd_band d /\ zr_npts r = zd_npts d /\
  (forall i j, (i < n)%nat -> (j < 2)%nat -> zr_tf r i j = (Fin (fst (zd_tf d i j)), Fin (snd (zd_tf d i j)))) /\
  (forall i j, (i < 2)%nat -> (j < 2)%nat -> zr_sig r i j = (Fin (fst (zd_sig d i j)), Fin (snd (zd_sig d i j)))) /\
  (forall i j, (i < n)%nat -> (j < n)%nat -> zr_res r i j = (Fin (fst (zd_res d i j)), Fin (snd (zd_res d i j)))).
