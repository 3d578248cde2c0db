(** What the INFO section of a Phoenix EDI file is expected to say. *)
From Verif Require Import PyBase PyText EdiMetaSpec HeadSpec InfoSpec.
Local Open Scope list_scope.

Definition blanks (s : text) : Prop := forall c, In c s -> is_space c = true.
Definition separators : list ascii := [":"; "="]%char.
Definition separated (s : text) : Prop := exists c, In c separators /\ In c s.
Definition first_word (s w : text) : Prop := w <> [] /\ (forall c, In c w -> is_space c = false) /\ (s = w \/ exists c r, s = w ++ c :: r /\ is_space c = true).

(** ** The entries *)
(** The names of the table of the format. *)
Definition standard : list (string * string) :=
  [("stn number", "station.id"); ("company", "station.acquired_by.organization"); ("start-up", "station.time_period.start"); ("end-time", "station.time_period.end");
   ("survey", "survey.id"); ("job", "survey.project");
   ("hardware", "run.data_logger.model"); ("mtu-box serial number", "run.data_logger.id"); ("mtuprog version", "run.data_logger.firmware.version");
   ("ex pot resist", "run.ex.contact_resistance.start"); ("ey pot resist", "run.ey.contact_resistance.start");
   ("hx sen", "run.hx.sensor.id"); ("hy sen", "run.hy.sensor.id"); ("hz sen", "run.hz.sensor.id"); ("rx sen", "run.rrhx.sensor.id"); ("ry sen", "run.rrhy.sensor.id");
   ("xpr weighting", "processing_parameter")]%string.
(** All others share one name. *)
Inductive title (k : text) : text -> Prop :=
| title_known a b : In (a, b) standard -> lower k = txt a -> title k (txt b)
| title_other : ~ names (map fst standard) (lower k) -> title k (txt "phoenix_attribute").
(** A part of a voltage, and the number in it. *)
Inductive volts : text -> text -> Prop :=
| volts_unit n : ~ In "m"%char n -> volts (n ++ txt "mV") n
| volts_bare n : ~ In "m"%char n -> volts n n.
Inductive part (channel : text) : text -> list (text * text) -> Prop :=
| part_value t x n : ~ In "="%char t -> ~ In "="%char x -> volts x n -> part channel (t ++ "="%char :: x) [(txt "run." ++ channel ++ txt "." ++ lower t ++ txt ".start", n)]
| part_other s : ~ In "="%char s -> part channel s [].
Definition without (c : ascii) (s : text) : text := filter (fun x => negb (Ascii.eqb x c)) s.
(** What an entry with key [k] and value [v] writes. *)
Inductive entry (k v : text) : list (text * text) -> Prop :=
| entry_voltage ps ws : says "voltage" k -> ~ says "pot resist" k ->
    ps <> [] -> (forall p, In p ps -> ~ In ","%char p) -> without " " v = join (txt ",") ps -> Forall2 (part (firstn 2 (lower k))) ps ws -> entry k v (concat ws)
| entry_resistance t w : ~ says "voltage" k -> says "pot resist" k -> ~ says " sen" k -> title k t -> first_word v w -> entry k v [(t, w)]
| entry_sensor t c : ~ says "voltage" k -> ~ says "pot resist" k -> says " sen" k -> title k t -> first_word (lower k) c ->
    entry k v [(t, v); (c ++ txt ".sensor.manufacturer", txt "Phoenix Geophysics"); (c ++ txt ".sensor.type", txt "Induction Coil")]
| entry_plain t : ~ says "voltage" k -> ~ says "pot resist" k -> ~ says " sen" k -> title k t -> entry k v [(t, v)].

(** ** The lines *)
(** The text after the separator is the value; two blanks in it cut it at its first blank. *)
Inductive content : text -> text -> Prop :=
| content_whole s : (forall a b, strip s <> a ++ txt "  " ++ b) -> content s (strip s)
| content_cut s w r a b : strip s = w ++ " "%char :: r -> (forall c, In c w -> is_space c = false) -> strip s = a ++ txt "  " ++ b -> content s w.
Inductive column : text -> list (text * text) -> Prop :=
| column_entry k c s v ws : In c separators -> ~ separated k -> content s v -> entry (strip k) v ws -> column (k ++ c :: s) ws
| column_title s : ~ separated s -> column s [].
(** All runs of blanks are shorter than [n]. *)
Definition narrow (n : nat) (s : text) : Prop := forall a sp b, s = a ++ sp ++ b -> blanks sp -> (List.length sp < n)%nat.
Definition two_columns (s : text) : Prop := exists l sp r, s = l ++ sp ++ r /\ blanks sp /\ (4 <= List.length sp)%nat /\ separated l /\ separated r.
(** [row s ws]: a line without blanks at its ends, and what it writes.  Two columns are four or more blanks apart, and have four words. *)
Inductive row : text -> list (text * text) -> Prop :=
| row_one s ws : ~ two_columns s \/ (List.length (split_ws s) < 4)%nat -> column s ws -> row s ws
| row_two l sp r ws1 ws2 : l <> [] -> r <> [] -> strip l = l -> strip r = r -> blanks sp -> (4 <= List.length sp)%nat ->
    narrow (List.length sp) l -> narrow (Datatypes.S (List.length sp)) r -> (4 <= List.length (split_ws l) + List.length (split_ws r))%nat ->
    separated l -> separated r -> column l ws1 -> column r ws2 -> row (l ++ sp ++ r) (ws1 ++ ws2).
Definition section_row (s : text) : Prop := strip s <> [] /\ ~ In ">"%char s /\ ~ says "electrics" s /\ ~ says "magnetics" s /\ ~ says "empower" s.
(** The last value written for a name. *)
Fixpoint last_written (K : text) (ws : list (text * text)) : option text :=
  match ws with
  | [] => None
  | (k, v) :: r => match last_written K r with Some x => Some x | None => if text_eqb k K then Some v else None end
  end.
(** What a line of a file writes. *)
Definition line_writes (s : text) (ws : list (text * text)) : Prop := (strip s = [] /\ ws = []) \/ (section_row s /\ row (strip s) ws).
(** Names without a special treatment, and a section with these rows. *)
Definition plain_name (a : string) : Prop := ~ says "voltage" (txt a) /\ ~ says "pot resist" (txt a) /\ ~ says " sen" (txt a).
Definition section_of (rows : list text) : list text := txt ">INFO" :: txt "RUN INFORMATION" :: rows.
