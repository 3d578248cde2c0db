(** Independent vocabulary for unit strings: a unit expression is a first word followed by words
    joined with [ per ] (a quotient) or a blank (a product). *)
From Verif Require Import PyBase PyText.

Inductive joiner : Type := Quotient | Product.

(** A word: not empty, no blank, no slash, no square bracket, and not the word [per]. *)
Definition word_char (c : ascii) : bool :=
  negb (is_space c || Ascii.eqb c "/" || Ascii.eqb c "[" || Ascii.eqb c "]").
Definition is_word (w : text) : bool := nonempty w && forallb word_char w && negb (text_eqb w (txt "per")).

(** Canonical spelling. *)
Definition spell (j : joiner) : text := match j with Quotient => txt " per " | Product => txt " " end.
Fixpoint spell_rest (l : list (joiner * text)) : text :=
  match l with [] => [] | (j, w) :: r => spell j ++ w ++ spell_rest r end.
Definition spell_expr (w : text) (l : list (joiner * text)) : text := w ++ spell_rest l.

(** Every spelling a user may choose: [/] or [ per ] for a quotient, with any number of blanks around
    it, and any positive number of blanks for a product. *)
Definition blanks (n : nat) : text := repeat " "%char n.
Inductive spelling : joiner -> text -> Prop :=
| sp_slash a b : spelling Quotient (blanks a ++ txt "/" ++ blanks b)
| sp_per a b : spelling Quotient (blanks a ++ txt " per " ++ blanks b)
| sp_blank a : spelling Product (blanks (S a)).

(** The spellings with no extra blank before the slash or the [per]. *)
Inductive tight_spelling : joiner -> text -> Prop :=
| ts_slash b : tight_spelling Quotient (txt "/" ++ blanks b)
| ts_per b : tight_spelling Quotient (txt " per " ++ blanks b)
| ts_blank a : tight_spelling Product (blanks (S a)).

(** A compound as the user writes it: separators with their spelling, and words. *)
Fixpoint write_rest (l : list (joiner * text * text)) : text :=
  match l with [] => [] | (_, s, w) :: r => s ++ w ++ write_rest r end.
Definition write_expr (w : text) (l : list (joiner * text * text)) : text := w ++ write_rest l.
