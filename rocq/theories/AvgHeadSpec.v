(** What the properties of headers of AVG files mean.  Nothing here refers to how a header is written or read. *)
From Coq Require Import Qabs.
From Verif Require Import PyBase PyText PyFloat UnitsModel AvgHeadModel.

(** Text on one line without an equals sign. *)
Definition one_line (s : text) : Prop := ~ In (ascii_of_N 10) s /\ ~ In "="%char s.
Definition word (s : text) : Prop := s <> [] /\ Forall (fun c => is_space c = false) s /\ ~ In "="%char s.
(** A value that a header can hold. *)
Definition one_of (l : list string) (v : hvalue) : Prop := exists s, In s l /\ v = HText (txt s).
Definition surveys : list string :=
  ["RMT"; "AMT"; "BBMT"; "LPMT"; "ULPMT"; "MT"; "LP"; "BB"; "WB"; "MT_TF"; "BBMT_TF"; "WBMT_TF"; "LPMT_TF"; "CSAMT"; "NSAMT"]%string.
Definition degrees (lim : Z) (v : hvalue) : Prop := exists q, v = HNum (Fin q) /\ (- inject_Z lim <= q <= inject_Z lim)%Q.
(** A unit of length and the name by which the library knows it (written with any letters). *)
Definition unit_known (s name : text) : Prop := exists r, get_unit_object true (lower s) = Ok r /\ u_name r = name.
(** The headers that can be read back: a smoothing is named, there are two orientation angles or more, the numbers are
    finite, the texts are on one line. *)
Definition good_head (h : head) : Prop :=
  one_of surveys (h_value h FType) /\ one_of ["tensor"%string] (h_value h FArray) /\ one_of ["natural"; "controlled source"]%string (h_value h FTx) /\
  (exists s, h_value h FVersion = HText s /\ one_line s) /\
  one_of ["yes"; "no"]%string (h_value h FFlip) /\ one_of ["robust"; "normal"; "minimal"]%string (h_value h FSmooth) /\
  one_of ["yes"; "no"]%string (h_value h FToZ) /\ one_of ["yes"; "no"]%string (h_value h FDplus) /\
  (exists s, h_value h FStation = HText s /\ one_line s) /\
  (exists q, h_value h FLength = HNum (Fin q)) /\
  (exists l, h_value h FHpr = HList (map Fin l) /\ (2 <= length l)%nat) /\
  degrees 90 (h_value h FLat) /\ degrees 180 (h_value h FLon) /\
  (exists s name, h_value h FUnit = HText s /\ word s /\ unit_known s name).

(** What comes back: members of enumerations as they were, texts without outer blanks and in lower case, numbers to seven
    decimals, angles to one decimal, the unit by its name. *)
Definition in_lower_case (v v' : hvalue) : Prop := exists s, v = HText s /\ v' = HText (lower (strip s)).
Definition near_number (e : Q) (v v' : hvalue) : Prop := exists q q', v = HNum (Fin q) /\ v' = HNum (Fin q') /\ (Qabs (q' - q) <= e)%Q.
Definition near_list (e : Q) (v v' : hvalue) : Prop :=
  exists l l', v = HList (map Fin l) /\ v' = HList (map Fin l') /\ Forall2 (fun q q' => (Qabs (q' - q) <= e)%Q) l l'.
Definition same_unit (v v' : hvalue) : Prop := exists s name, v = HText s /\ unit_known s name /\ v' = HText name.
Definition comes_back (f : hfield) (v v' : hvalue) : Prop :=
  match f with
  | FType | FArray | FTx | FFlip | FSmooth | FToZ | FDplus => v' = v
  | FVersion | FStation => in_lower_case v v'
  | FLength | FLat | FLon => near_number (5 # 100000000) v v'
  | FHpr => near_list (5 # 100) v v'
  | FUnit => same_unit v v'
  end.
(** The texts of a header. *)
Definition texts_on_one_line (h : head) : Prop :=
  forall f s, h_value h f = HText s -> one_line s.
