(** What the INFO section of an Empower EDI file is expected to say. *)
From Verif Require Import PyBase PyText EdiMetaSpec HeadSpec InfoSpec PhxSpec.
Local Open Scope list_scope.

(** ** Names *)
Definition general_names : list (string * string) :=
  [("processingsoftware", "transfer_function.software.name"); ("sitename", "station.geographic_name"); ("year", "survey.time_period.start_date");
   ("process_date", "transfer_function.processed_date"); ("declination", "station.location.declination.value")]%string.
(** About the run and station of the file. *)
Definition run_names : list (string * string) :=
  [("recording id", "run.id"); ("instrument type", "run.data_logger.model"); ("station name", "station.geographic_name"); ("operator", "run.acquired_by.author")]%string.
(** About a channel. *)
Definition channel_names : list (string * string) :=
  [("length", "dipole_length"); ("azimuth", "measured_azimuth"); ("sensor type", "sensor.model"); ("sensor_type", "sensor.model"); ("detected sensor type", "sensor.model");
   ("sensor serial", "sensor.id"); ("sensor_serial", "sensor.id")]%string.
Definition electric_names : list (string * string) :=
  [("ac", "ac.end"); ("dc", "dc.end"); ("negative res", "contact_resistance.start"); ("negative_res", "contact_resistance.start"); ("positive res", "contact_resistance.end"); ("positive_res", "contact_resistance.end")]%string.
Definition remark_names : list string := ["cal name"; "cal_name"; "saturation"; "min value"; "max value"]%string.
Definition electric_channels : list (string * string) := [("ex", "ex"); ("ey", "ey"); ("e1", "ex"); ("e2", "ey")]%string.
Definition magnetic_channels : list (string * string) := [("hx", "hx"); ("hy", "hy"); ("hz", "hz"); ("h1", "hx"); ("h2", "hy"); ("h3", "hz"); ("rx", "rrhx"); ("ry", "rrhy")]%string.
Definition channels : list (string * string) := electric_channels ++ magnetic_channels.
Definition blocks : list string := ["electrics"; "magnetics"; "reference"]%string.
Definition known_keys : list string := map fst (general_names ++ run_names ++ channel_names ++ electric_names) ++ remark_names ++ ["tag"]%string.
Definition home (b : string) : string := if String.eqb b "reference" then "transfer_function.remote_references." else "run.".

(** Before the first block. *)
Definition early_names : list (string * string) :=
  general_names ++ [("recording id", "id"); ("instrument type", "run.data_logger.model"); ("station name", "station.geographic_name"); ("operator", "run.acquired_by.author")]%string ++ channel_names ++ electric_names.

(** ** Values *)
Definition no_char (l : list ascii) (s : text) : Prop := forall c, In c s -> ~ In c l.
Definition mentions (w : string) (s : text) : Prop := exists a b, s = a ++ txt w ++ b.
(** A number with a unit in brackets, or a text.  A number of one character keeps its unit. *)
Inductive value_of : text -> text -> Prop :=
| value_unit n u : (2 <= List.length n)%nat -> no_char [" "; "["; "]"; ","]%char n -> strip n = n -> no_char ["["; "]"; ","]%char u -> value_of (n ++ txt " [" ++ u ++ txt "]") n
| value_plain s : ~ In "["%char s -> ~ mentions " m" s -> ~ mentions " V" s -> strip s = s -> value_of s s
| value_short c u : is_space c = false -> ~ In c ["["; ","]%char -> no_char [" "]%char u -> value_of (c :: txt " [" ++ u ++ txt "]") (c :: txt " [" ++ u ++ txt "]")
| value_list s : (exists r, s = "["%char :: r) -> ~ mentions " m" s -> ~ mentions " V" s -> strip s = s -> value_of s s.

(** ** Entries *)
(** A value under a name, or a remark that is added to those under a name. *)
Inductive write : Type := Put (K v : text) | Note (K s : text).
(** The block and channel of a line. *)
Inductive spot : Type := Early (b : string) | Block (b : string) (c : option string).
Definition start_spot : spot := Early "general".
(** Keys of channels without a meaning of their own. *)
Definition ends_in (w : string) (s : text) : Prop := exists a, s = a ++ txt w.
Definition plain_key (k : text) : Prop :=
  (forall w, In w ["azimuth"; "component"; "comments"; "data_logger"; "geographic_name"; "author"; "acquired_by"; "ac"; "dc"]%string -> ~ mentions w k) /\ k <> txt "id" /\ ~ ends_in ".id" k.
Definition given_channel (c : option string) : Prop := match c with Some x => In x (map fst channels) | None => True end.
Inductive entry_says : spot -> text -> text -> list write -> Prop :=
| says_general a K v : In (a, K) general_names -> entry_says start_spot (txt a) v [Put (txt K) v]
| says_general_other k v : ~ names known_keys k -> ~ mentions "comments" k -> entry_says start_spot k v [Put k v]
| says_early b k v : b <> "general"%string -> ~ names known_keys k -> ~ mentions "comments" k -> entry_says (Early b) k v [Put (txt b ++ txt "." ++ k) v]
| says_run b c a K v : b <> "reference"%string -> given_channel c -> In (a, K) run_names -> entry_says (Block b c) (txt a) v [Put (txt K) v]
| says_remote_name c v : given_channel c -> entry_says (Block "reference" c) (txt "station name") v [Put (txt "transfer_function.remote_references.geographic_name") v]
| says_remote_id c v : given_channel c -> entry_says (Block "reference" c) (txt "recording id") v [Put (txt "run.id") v]
| says_remote_other c a v : given_channel c -> a = "instrument type"%string \/ a = "operator"%string -> entry_says (Block "reference" c) (txt a) v []
| says_azimuth b v : entry_says (Block b None) (txt "azimuth") v [Put (txt (home b ++ "measured_azimuth")) v]
| says_block_other b k v : ~ names known_keys k -> ~ mentions "comments" k -> entry_says (Block b None) k v [Put (txt b ++ txt "." ++ k) v]
| says_attribute b c n a K v : In (c, n) channels -> In (a, K) channel_names -> entry_says (Block b (Some c)) (txt a) v [Put (txt (home b ++ n ++ "." ++ K)) v]
| says_tag b c n v : In (c, n) channels -> entry_says (Block b (Some c)) (txt "tag") v [Put (txt (home b ++ n ++ ".component")) (txt c)]
| says_electric b c n a K v : In (c, n) electric_channels -> In (a, K) electric_names -> entry_says (Block b (Some c)) (txt a) v [Put (txt (home b ++ n ++ "." ++ K)) v]
| says_magnetic b c n a v : In (c, n) magnetic_channels -> a = "ac"%string \/ a = "dc"%string -> entry_says (Block b (Some c)) (txt a) v [Note (txt (home b ++ n ++ ".comments.end")) (txt a ++ txt "=" ++ v)]
| says_remark b c n a v : In (c, n) channels -> In a remark_names -> entry_says (Block b (Some c)) (txt a) v [Note (txt (home b ++ n ++ ".comments")) (txt a ++ txt "=" ++ v)]
| says_channel_other b c n k v : In (c, n) channels -> ~ names known_keys k -> plain_key k -> entry_says (Block b (Some c)) k v [Put (txt (home b ++ n ++ ".") ++ k) v]
| says_early_known b a K v : In (a, K) early_names -> entry_says (Early b) (txt a) v [Put (txt K) v]
| says_early_remark b a v : In a remark_names -> entry_says (Early b) (txt a) v [Note (txt "comments") (txt a ++ txt "=" ++ v)]
| says_block_known b a K v : In (a, K) (channel_names ++ electric_names) -> entry_says (Block b None) (txt a) v [Put (txt (home b ++ K)) v]
| says_block_remark b a v : In a remark_names -> entry_says (Block b None) (txt a) v [Note (txt (home b ++ "comments")) (txt a ++ txt "=" ++ v)]
| says_site b c v : given_channel c -> entry_says (Block b c) (txt "sitename") v [Put (txt (if String.eqb b "reference" then "transfer_function.remote_references.geographic_name" else "station.geographic_name")) v]
| says_block_general b a K v : In (a, K) general_names -> a <> "sitename"%string -> entry_says (Block b None) (txt a) v [Put (txt (home b ++ K)) v]
| says_channel_general b c n a K v : In (c, n) channels -> In (a, K) general_names -> a <> "sitename"%string -> entry_says (Block b (Some c)) (txt a) v [Put (txt (home b ++ n ++ "." ++ K)) v].

(** ** Lines *)
Definition headings : list string := blocks ++ ["stations"; "editing workbench"]%string ++ map fst channels.
(** [line_says p s p' ws]: the line [s] at [p], what it writes, and where the next line is.  A new block keeps the channel. *)
Inductive line_says : spot -> text -> spot -> list write -> Prop :=
| says_first_block b0 b s : In b blocks -> lower s = txt b -> line_says (Early b0) s (Block b None) []
| says_next_block b0 c b s : In b blocks -> lower s = txt b -> line_says (Block b0 c) s (Block b c) []
| says_stations b0 s : lower s = txt "stations" -> line_says (Early b0) s (Early "stations") []
| says_workbench b0 s : lower s = txt "editing workbench" -> line_says (Early b0) s (Early "editing_workbench") []
| says_channel b c0 c s : In c (map fst channels) -> lower s = txt c -> line_says (Block b c0) s (Block b (Some c)) []
| says_text p s : ~ separated s -> ~ names headings (lower s) -> line_says p s p []
| says_entry p k c x v ws : In c separators -> ~ separated k -> value_of (strip x) v -> entry_says p (lower (strip k)) v ws -> line_says p (k ++ c :: x) p ws.
Inductive lines_say : spot -> list text -> spot -> list write -> Prop :=
| lines_nil p : lines_say p [] p []
| lines_cons p s q ws ls r ws' : line_says p s q ws -> lines_say q ls r ws' -> lines_say p (s :: ls) r (ws ++ ws').
(** What is found under a name: all its remarks, or the last value. *)
Fixpoint remarks (K : text) (ws : list write) : list text :=
  match ws with
  | [] => []
  | Note k s :: r => if text_eqb k K then s :: remarks K r else remarks K r
  | Put _ _ :: r => remarks K r
  end.
Fixpoint last_put (K : text) (ws : list write) : option text :=
  match ws with
  | [] => None
  | Put k v :: r => match last_put K r with Some x => Some x | None => if text_eqb k K then Some v else None end
  | Note _ _ :: r => last_put K r
  end.
Definition found_in (ws : list write) (K : text) : option text :=
  match remarks K ws with [] => last_put K ws | l => Some (join (txt ",") l) end.
Definition empower_row (s : text) : Prop := strip s <> [] /\ ~ In ">"%char s.
Definition of_empower (s : text) : Prop := ~ says "run information" s /\ (says "electrics" s \/ says "magnetics" s \/ (says "empower" s /\ says "v" s)).
Definition bare_rows (lines : list text) : list text := filter (fun s => match s with [] => false | _ => true end) (map strip lines).
