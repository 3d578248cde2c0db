(** Specification for C92: what the data of an EMTF XML file keep. *)
From Coq Require Import Qabs Qpower.
From Verif Require Import PyBase PyText PyNum ValidatorsModel XmlModel EmtfModel.
Local Open Scope nat_scope.

(** The same element as it is in a file: white space between the elements. *)
Inductive spaced : xml -> xml -> Prop :=
| spaced_leaf : forall tag a t, spaced (Elem tag a t []) (Elem tag a t [])
| spaced_node : forall tag a t cs cs', cs <> [] -> Forall2 spaced cs cs' -> (forall s, t = Some s -> strip s = []) -> spaced (Elem tag a None cs) (Elem tag a t cs').
(** The number of rows and columns of the arrays; the variances are real, everything else is complex. *)
Definition rows (k : key) : nat := match k with KT | KTVar | KTRes => 1 | _ => 2 end.
Definition cols (k : key) : nat := match k with KTRes => 1 | _ => 2 end.
Definition real_array (k : key) : Prop := k = KZVar \/ k = KTVar.
(** Zero or nan; a number close to it (six decimals of the mantissa), nan counting as zero. *)
Definition blank (c : cell) : Prop := match c with None => True | Some q => (q == 0)%Q end.
Definition near (c : cell) (y : cell) : Prop :=
  exists v, y = Some v /\ match c with None => (v == 0)%Q | Some q => (Qabs (v - q) <= (5 # 10000000) * Qabs q)%Q end.
Definition is_1e32 (y : cell) : Prop := exists v, y = Some v /\ (v == inject_Z (10 ^ 32))%Q.
(** What an entry is after it was written and read: 1e32 instead of nothing, else the number. *)
Definition came_back (k : key) (x y : cpair) : Prop :=
  (real_array k -> (blank (fst x) /\ is_1e32 (fst y)) \/ (~ blank (fst x) /\ near (fst x) (fst y))) /\
  (~ real_array k -> (blank (fst x) /\ blank (snd x) /\ is_1e32 (fst y) /\ is_1e32 (snd y)) \/
                     (~ (blank (fst x) /\ blank (snd x)) /\ near (fst x) (fst y) /\ near (snd x) (snd y))).
Definition all_zero (y : cpair) : Prop := y = (Some 0%Q, Some 0%Q).
(** What has been read is what the data hold. *)
Definition stored (d : data) (f : filling) : Prop :=
  f_n f = List.length (e_period d) /\
  (forall p q, nth_error (e_period d) p = Some q -> exists v, f_period f p = Some v /\ (Qabs (v - q) <= (5 # 10000000000000) * Qabs q)%Q) /\
  (forall k p i j, p < List.length (e_period d) -> i < rows k -> j < cols k ->
     match e_arr d k with Some a => came_back k (a p i j) (f_arr f k p i j) | None => all_zero (f_arr f k p i j) end).
(** The data that hold just what was read. *)
Definition as_read (f : filling) (d : data) : Prop :=
  List.length (e_period d) = f_n f /\
  (forall p q, nth_error (e_period d) p = Some q -> f_period f p = Some q) /\
  (forall k, exists a, e_arr d k = Some a /\ forall p i j, a p i j = f_arr f k p i j).
(** A file: a root element with the element of the data and others, which are not called Data, whose tags do not
    become "data" in lower case, and which are not called item. *)
Definition other_child (c : xml) : Prop := tag_of c <> txt "Data" /\ tag_of c <> txt "item" /\ validate_attribute (tag_of c) <> Ok (txt "data").
Definition file_of (d : data) (root : xml) : Prop :=
  exists tag t pre D post, root = Elem tag [] t (pre ++ D :: post)%list /\ (forall s, t = Some s -> strip s = []) /\
    Forall other_child pre /\ Forall other_child post /\ spaced (to_xml d) D.
(** The other elements of the file do not stop the reader before it comes to the data. *)
Definition readable (root : xml) : Prop := exists x y, read root = Ok x /\ conv x = Ok y.
