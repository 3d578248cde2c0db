(** Model of the filters of the channels of a network in StationXML and the names they get:
    mt_metadata/timeseries/stationxml/xml_channel_mt_channel.py 518-572, xml_inventory_mt_experiment.py 72-79 and
    list_dict.py 276-287.

    Simplified: of a filter there is its type, its name, the text of its input sample rate when it decimates, the
    rounded amplitude of its response at 1 Hz, and one text for all the rest.  Texts are ASCII. *)
From Verif Require Import PyBase PyText PyFloat JfileModel ZmmModel.
Local Open Scope Z_scope.

Record fil : Type := mkFil { fl_type : text; fl_name : text; fl_rate : option text; fl_size : Z; fl_data : text }.
Definition named (n : text) (f : fil) : fil := mkFil (fl_type f) n (fl_rate f) (fl_size f) (fl_data f).
(** Python dictionaries, in the order of insertion. *)
Definition fdict : Type := list (text * fil).
Definition fget (k : text) (d : fdict) : option fil := dget text_dec k d.
Definition fset (k : text) (v : fil) (d : fdict) : fdict := dset text_dec k v d.
Definition fupdate (d other : fdict) : fdict := fold_left (fun d kv => fset (fst kv) (snd kv) d) other d.

(** [f"{n:02}"] *)
Definition pad2 (n : Z) : text := let s := show_int n in match s with [c] => ["0"%char; c] | _ => s end.
Definition last_two (s : text) : text := skipn (length s - 2) s.
Definition number_name (t : text) (n : Z) : text := t ++ txt "_" ++ pad2 n.
(** xml_channel_mt_channel.py 555-560: the first with the same type and rounded amplitude. *)
Fixpoint same_filter (d : fdict) (f : fil) : option text :=
  match d with
  | [] => None
  | (_, g) :: r => if text_eqb (fl_type g) (fl_type f) && (fl_size g =? fl_size f) then Some (fl_name g) else same_filter r f
  end.
(** 562-572. *)
Definition next_name (d : fdict) (t : text) : text :=
  match rev (sort_texts (filter (contains t) (map fst d))) with
  | [] => number_name t 0
  | last :: _ => match read_int (last_two last) with Some n => number_name t (n + 1) | None => number_name t 0 end
  end.
(** 544-572 [_add_filter_number]. *)
Definition add_filter_number (d : fdict) (f : fil) : text * bool :=
  match same_filter d f with
  | Some n => (n, false)
  | None => (next_name d (fl_type f), true)
  end.
(** 541: the key of a filter among those of its channel. *)
Definition key_of (name : text) : text := lower (replace_char "/" (txt " per ") name).
(** 533-535. *)
Definition full_name (f : fil) : text := match fl_rate f with Some r => fl_name f ++ txt "_" ++ r | None => fl_name f end.
(** 524-541: one stage; the existing filters and those of the channel. *)
Definition read_stage (ex : fdict) (ch : fdict) (f : fil) : fdict * fdict :=
  let '(f1, filter_name, is_new) :=
    match fl_name f with
    | [] => let '(n, b) := add_filter_number ex f in (named n f, n, b)
    | _ => (f, [], false)
    end in
  let f2 := named (full_name f1) f1 in
  ((if is_new then fset filter_name f2 ex else ex), fset (key_of (fl_name f2)) f2 ch).
Fixpoint read_stages (ex ch : fdict) (l : list fil) : fdict * fdict :=
  match l with
  | [] => (ex, ch)
  | f :: r => let '(ex, ch) := read_stage ex ch f in read_stages ex ch r
  end.
(** xml_inventory_mt_experiment.py 76-79: one channel; the filters of the survey, and those of the channel. *)
Definition read_channel (ex : fdict) (stages : list fil) : fdict * fdict :=
  let '(ex, ch) := read_stages ex [] stages in (fupdate ex ch, ch).
Fixpoint read_network (ex : fdict) (chs : list (list fil)) : fdict * list fdict :=
  match chs with
  | [] => (ex, [])
  | c :: r => let '(ex, ch) := read_channel ex c in let '(ex, l) := read_network ex r in (ex, ch :: l)
  end.
