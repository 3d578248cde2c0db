(** Specification for C102, C103, C104. *)
From Coq Require Import Qabs Permutation.
From Verif Require Import PyBase PyText PyNum ValidatorsModel XmlModel EmtfSpec LayModel.
Local Open Scope nat_scope.

(** A file: a root element with the element [E] (with white space in it), under the tag [tag], read under the key [key], and others, whose
    tags are others and read under other keys; the whole can be turned into a dictionary. *)
Definition other_element (tag key : text) (c : xml) : Prop := tag_of c <> tag /\ tag_of c <> txt "item" /\ validate_attribute (tag_of c) <> Ok key.
Definition file_with (key : text) (E root : xml) : Prop :=
  (exists rt t pre D post, root = Elem rt [] t (pre ++ D :: post)%list /\ (forall s, t = Some s -> strip s = []) /\
    Forall (other_element (tag_of E) key) pre /\ Forall (other_element (tag_of E) key) post /\ spaced (remove_null E) D) /\ readable root.
(** The words and dates that stand for nothing. *)
Definition says_nothing (s : text) : Prop :=
  In s (map txt [""; "null"; "None"; "NONE"; "NULL"; "Null"; "none"; "1980-01-01T00:00:00"; "1980-01-01T00:00:00+00:00"]%string).
(** Channels: the same kind and name, and every number rounded to thousandths. *)
Definition thousandths (q q' : Q) : Prop := (exists n : Z, q' == n # 1000)%Q /\ (Qabs (q' - q) <= 1 # 2000)%Q.
Definition same_name (n n' : text) : Prop := (says_nothing n /\ n' = []) \/ (~ says_nothing n /\ n' = n).
Definition came_back (c c' : chan) : Prop :=
  match c, c' with
  | Mag n o x y z, Mag n' o' x' y' z' => same_name n n' /\ thousandths o o' /\ thousandths x x' /\ thousandths y y' /\ thousandths z z'
  | Ele n o x y z x2 y2 z2, Ele n' o' x' y' z' x2' y2' z2' =>
      same_name n n' /\ thousandths o o' /\ thousandths x x' /\ thousandths y y' /\ thousandths z z' /\
      thousandths x2 x2' /\ thousandths y2 y2' /\ thousandths z2 z2'
  | _, _ => False
  end.
Definition magnetic (c : chan) : bool := match c with Mag _ _ _ _ _ => true | Ele _ _ _ _ _ _ _ _ => false end.
Definition magnetic_first (l : list chan) : list chan := (filter magnetic l ++ filter (fun c => negb (magnetic c)) l)%list.
(** The names the data need: hx and hy as soon as there is anything; ex and ey for the impedance; hz for the tipper. *)
Definition something (l : list (EmtfModel.cell * EmtfModel.cell)) : Prop := exists c, In c l /\ ~ (exists a b, c = (Some a, Some b) /\ (a == 0)%Q /\ (b == 0)%Q).
Definition needs_in (z t : list (EmtfModel.cell * EmtfModel.cell)) (n : text) : Prop := (something z \/ something t) /\ (n = txt "hx" \/ n = txt "hy").
Definition needs_out (z t : list (EmtfModel.cell * EmtfModel.cell)) (n : text) : Prop :=
  (something z /\ (n = txt "ex" \/ n = txt "ey")) \/ (something t /\ n = txt "hz").
(** A channel with only a name: those that begin with "e" are electric, those that begin with "h" are magnetic. *)
Definition bare (c : chan) : Prop := exists n, c = Mag ("h"%char :: n) 0 0 0 0 \/ c = Ele ("e"%char :: n) 0 0 0 0 0 0 0.
(** The channels after the update: those that are needed, unchanged, and a bare one for each that is missing. *)
Definition updated (needs : text -> Prop) (old new : list chan) : Prop :=
  (forall c, In c old -> needs (lower (name_of c)) -> In c new) /\
  (forall n, needs n -> exists c, In c new /\ lower (name_of c) = n) /\
  (forall c, In c new -> needs (lower (name_of c)) /\ (In c old \/ (bare c /\ forall c', In c' old -> lower (name_of c') <> lower (name_of c)))) /\
  (NoDup (map (fun c => lower (name_of c)) old) -> NoDup (map (fun c => lower (name_of c)) new)).
(** Texts: what the file makes of a character, and the characters it leaves. *)
Definition becomes (c : ascii) : text :=
  if Ascii.eqb c "&" then txt "andamp;" else if Ascii.eqb c "<" then txt "andlt;" else if Ascii.eqb c ">" then txt "andgt;"
  else if Ascii.eqb c """" then txt "andquot;" else [c].
Definition plain_char (c : ascii) : Prop := ~ In c ["&"; "<"; ">"; """"]%char.
(** Estimates: a kind is there if the impedance's array has a value that is not zero, or, without such an array, the tipper's. *)
Definition holds (a : arr) : Prop := exists l, a = Some l /\ something l.
Definition told (z t : arr) : Prop := holds z \/ (z = None /\ holds t).
Definition kinds : list text := map txt ["VAR"; "INVSIGCOV"; "RESIDCOV"]%string.
Definition told_kind (d : arrays) (n : text) : Prop :=
  (n = txt "VAR" /\ told (a_z_var d) (a_t_var d)) \/ (n = txt "INVSIGCOV" /\ told (a_z_inv d) (a_t_inv d)) \/ (n = txt "RESIDCOV" /\ told (a_z_res d) (a_t_res d)).
Definition told_type (d : arrays) (n : text) : Prop := (n = txt "Z" /\ holds (a_z d)) \/ (n = txt "T" /\ holds (a_t d)).
(** The names of a list that have a property, in the order of the list. *)
Definition those (P : text -> Prop) (all names : list text) : Prop := exists keep, names = filter keep all /\ forall n, In n all -> (keep n = true <-> P n).
