(** What the theorems about the data section of an EDI file say. *)
From Verif Require Import PyBase PyText PyNum PyFloat PyRepr PyFacts JfileModel ZmmModel DsecModel.
Local Open Scope nat_scope.

(** A text that can stand for a value: nothing to strip, no mark of the format. *)
Definition clean (s : text) : Prop := strip s = s /\ forall c, In c s -> c <> ">"%char /\ c <> "="%char /\ c <> """"%char.
(** The channels of a section: two electric and three magnetic ones, and two of the remote reference *)
Definition local_channels : list text := [txt "ex"; txt "ey"; txt "hx"; txt "hy"; txt "hz"].
Definition remote_channels : list text := [txt "rrhx"; txt "rrhy"].
Definition the_channels : list text := [txt "ex"; txt "ey"; txt "hx"; txt "hy"; txt "hz"; txt "rrhx"; txt "rrhy"].
Definition tidy (d : dsect) : Prop := clean (d_sectid d) /\ forall k s, In k the_channels -> id_of d k = Some s -> clean s.

(** A line that opens a data section, and one that opens any block. *)
Definition opens_section (l : text) : Prop := contains (txt ">=") l = true /\ contains (txt "sect") (lower l) = true.
Definition opens_block (l : text) : Prop := In ">"%char l /\ ~ opens_section l.

(** The name of the station after a file: blanks are underscores. *)
Definition blanks_to_underscores (s : text) : text := map (fun c => if Ascii.eqb c " " then "_"%char else c) s.
(** The id of a channel after a file: "0" is not written, a whole number is written plainly, any other text is kept. *)
Definition id_after (o : option text) : option text :=
  match o with
  | None => None
  | Some s => if text_dec s (txt "0") then None else Some (match read_int s with Some z => show_int z | None => s end)
  end.
(** [d'] is what a file makes of [d]. *)
Definition after_file (d d' : dsect) : Prop :=
  d_nfreq d' = d_nfreq d /\ d_nchan d' = d_nchan d /\ d_maxblocks d' = d_maxblocks d /\
  d_sectid d' = blanks_to_underscores (d_sectid d) /\ forall k, In k the_channels -> id_of d' k = id_after (id_of d k).
(** The ids of the channels that have one, in the order of the names. *)
Definition all_ids (d : dsect) : list text := flat_map (fun k => match id_of d k with Some s => [s] | None => [] end) the_channels.
(** The same section. *)
Definition same_section (d d' : dsect) : Prop :=
  d_nfreq d' = d_nfreq d /\ d_nchan d' = d_nchan d /\ d_maxblocks d' = d_maxblocks d /\ d_sectid d' = d_sectid d /\
  forall k, In k the_channels -> id_of d' k = id_of d k.

(** A line of ids: words between blanks, more than ten characters. *)
Definition id_word (w : text) : Prop :=
  w <> [] /\ Forall (fun c => is_space c = false /\ c <> ">"%char /\ c <> "="%char /\ c <> "/"%char) w.
Definition id_line (ws : list text) (l : text) : Prop := Forall id_word ws /\ l = join (txt " ") ws /\ 10 < List.length l.

(** The id [cid] names the number [q]: what follows the last "ch" of it, whatever the case, is that number. *)
Definition names_number (cid : text) (q : Q) : Prop := exists x, read_float (bare_id cid) = Some (Fin x) /\ (x == q)%Q.
