(** Specification notions for names. *)
From Verif Require Import PyBase PyText.

(** A lower-case word: letters, then possibly digits. *)
Definition word (w : text) : Prop :=
  exists l d, w = l ++ d /\ l <> [] /\ Forall (fun c => is_lower c = true) l /\
              Forall (fun c => is_digit c = true) d.

(** The words of a snake_case name. *)
Definition snake (ws : list text) : text := join (txt "_") ws.

(** Forget the underscores. *)
Definition without_underscores (s : text) : text := filter (fun c => negb (Ascii.eqb c "_")) s.

(** A station-name character. *)
Definition name_char (c : ascii) : Prop :=
  is_upper c = true \/ is_lower c = true \/ is_digit c = true \/ c = "_"%char.
