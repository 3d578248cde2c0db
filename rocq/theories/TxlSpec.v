(** What lists of names written as texts should become. *)
From Verif Require Import PyBase PyText TextFacts TxlModel.
Local Open Scope list_scope.

(** A name: no comma in it, no blanks around it. *)
Definition clean (n : text) : Prop := trimmed n /\ ~ In ","%char n.
(** [t] has the names between commas, with any blanks around them. *)
Definition padded (n p : text) : Prop := exists a b, p = a ++ n ++ b /\ forallb is_space a = true /\ forallb is_space b = true.
Definition listing (t : text) (ns : list text) : Prop := exists ps, ps <> [] /\ Forall2 padded ns ps /\ t = join (txt ",") ps.

(** Texts that stand for nothing. *)
Definition nothing (k : kind) (t : text) : Prop :=
  match k with
  | RunChannels => In t [txt "None"; txt "none"; txt "NONE"; txt "null"]
  | StationNames | FcNames => In t [txt ""; txt "null"; txt "None"; txt "NONE"; txt "NULL"; txt "Null"; txt "none";
                                    txt "1980-01-01T00:00:00"; txt "1980-01-01T00:00:00+00:00"]
  | _ => False
  end.
(** The text of an entry that is a text or a number. *)
Inductive entry : item -> text -> Prop :=
| en_text s : entry (IText s) s
| en_num s : entry (INum s) s.

(** The number that digits write. *)
Definition digit (c : ascii) (n : N) : Prop := (n <= 9)%N /\ c = ascii_of_N (48 + n).
Inductive number : text -> N -> Prop :=
| nu_one c d : digit c d -> number [c] d
| nu_more s n c d : number s n -> digit c d -> number (s ++ [c]) (10 * n + d)%N.
(** The numbers among some texts, in order. *)
Inductive numbers_of : list text -> list N -> Prop :=
| no_nil : numbers_of [] []
| no_number s n l ns : number s n -> numbers_of l ns -> numbers_of (s :: l) (n :: ns)
| no_other s l ns : (forall n, ~ number s n) -> numbers_of l ns -> numbers_of (s :: l) ns.
