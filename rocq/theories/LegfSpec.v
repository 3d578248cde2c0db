(** What the filters of a channel should be after it is given a dictionary. *)
From Verif Require Import PyBase PyText TextFacts ChanFiltModel ChanFiltSpec LegfModel.
Local Open Scope list_scope.

(** Names and flags as filters with the stages k+1, k+2, ... *)
Fixpoint listed (k : nat) (nbs : list (text * bool)) : list applied :=
  match nbs with [] => [] | (n, b) :: r => mkA n b (Some (Z.of_nat (S k))) :: listed (S k) r end.
(** A name that is kept as it is, also in a text with commas *)
Definition simple_name (n : text) : Prop := plain_name n /\ trimmed n /\ ~ In ","%char n.
(** Flags and names as texts, as Python shows lists *)
Definition flag_text (b : bool) : text := if b then txt "True" else txt "False".
Definition with_commas (l : list text) : text := join (txt ", ") l.
Definition in_brackets (s : text) : text := txt "[" ++ s ++ txt "]".
(** A value that says yes or no *)
Inductive says : bool -> scalar -> Prop :=
| Says_bool b : says b (SBool b)
| Says_one : says true (SInt 1)
| Says_zero : says false (SInt 0)
| Says_yes s : In (lower s) [txt "1"; txt "true"; txt "t"; txt "yes"; txt "y"; txt "on"] -> says true (SText s)
| Says_no s : In (lower s) [txt "0"; txt "false"; txt "f"; txt "no"; txt "n"; txt "off"] -> says false (SText s).
(** The ways to give flags: a list, a text with commas, a text as Python shows a list *)
Inductive gives_flags (bs : list bool) : flags_given -> Prop :=
| GFlist vs : Forall2 says bs vs -> gives_flags bs (FList vs)
| GFcommas : gives_flags bs (FText (with_commas (map flag_text bs)))
| GFbrackets : gives_flags bs (FText (in_brackets (with_commas (map flag_text bs)))).
(** The ways to give names: a list, a text with commas *)
Inductive gives_names (ns : list text) : names_given -> Prop :=
| GNlist : gives_names ns (NList ns)
| GNcommas : gives_names ns (NText (with_commas ns)).
(** No text as the list of filters *)
Definition filters_not_text (e : entries) : Prop := forall p, e_filters e <> Some (LText p).
(** Of names with flags, the first of each name that is not among [old] *)
Fixpoint news (old : list text) (nbs : list (text * bool)) : list (text * bool) :=
  match nbs with
  | [] => []
  | (n, b) :: r => if in_dec text_dec n old then news old r else (n, b) :: news (n :: old) r
  end.
