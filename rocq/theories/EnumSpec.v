(** What C37 and C73 mean, apart from the model. *)
From Verif Require Import PyBase PyText.

(** Two texts that differ only in the case of letters. *)
Definition same_letter (a b : ascii) : Prop :=
  a = b \/ (is_upper a = true /\ (code b = code a + 32)%N) \/ (is_upper b = true /\ (code a = code b + 32)%N).
Definition case_variant (s t : text) : Prop := Forall2 same_letter s t.

(** Two texts that differ only in the choice of separators. *)
Definition separator (c : ascii) : Prop := In c ["-"; " "; "."; "("; ")"; "/"; ":"; "_"]%char.
Definition same_spelling (s t : text) : Prop := Forall2 (fun a b => a = b \/ (separator a /\ separator b)) s t.

(** A list of licence identifiers whose spellings are all different, and different from the names that are
    built in. *)
Definition distinct_spellings (ids : list text) : Prop :=
  (forall i j, In i ids -> In j ids -> same_spelling i j -> i = j) /\ NoDup ids
  /\ (forall i b, In i ids -> In b [txt "CC0"; txt "CC-0"; txt "CC BY"; txt "CC BY-SA"; txt "CC BY-NC"; txt "CC BY-NA-SA"; txt "CC BY-ND"; txt "CC BY-NC-ND"] ->
      ~ same_spelling i b)
  /\ ~ In [] ids.

(** The words of a licence identifier, and the release status they call for: nothing may be changed (ND) -
    closed; some use is excluded (NC) or the licence has to stay (SA) - partial; otherwise open.  Licences
    that are not Creative Commons are partial. *)
Definition separatorb (c : ascii) : bool :=
  existsb (Ascii.eqb c) ["-"%char; " "%char; "."%char; "("%char; ")"%char; "/"%char; ":"%char; "_"%char].
Fixpoint words_from (cur : text) (s : text) : list text :=
  match s with
  | [] => [rev cur]
  | c :: r => if separatorb c then rev cur :: words_from [] r else words_from (c :: cur) r
  end.
Definition words (s : text) : list text := words_from [] s.
Definition called_for (s : text) : text :=
  match words s with
  | w :: _ =>
      if text_eqb w (txt "CC") || text_eqb w (txt "CC0") then
        if existsb (text_eqb (txt "ND")) (words s) then txt "closed"
        else if existsb (text_eqb (txt "NC")) (words s) || existsb (text_eqb (txt "SA")) (words s) then txt "partial"
        else txt "open"
      else txt "partial"
  | [] => txt "partial"
  end.
