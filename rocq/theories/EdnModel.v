(** Model of the notes of an EDI object (the dictionary of its INFO section) that carry the metadata of a station and of a survey:
    /repo/mt_metadata/transfer_functions/io/edi/edi.py 964-1024 (survey), 1062-1189 (station, read) and 1237-1273 (station, set).

    The fields that live in the header or in the measurements (latitude and so on) are not here (C86, C87).  Setting an attribute of a metadata
    object is a line of a log with what is set; [refuse] says which of them raise. *)
From Verif Require Import PyBase PyText LayModel.
Local Open Scope list_scope.

(** The value of a note; a number is given by its text *)
Inductive value : Type := VNone | VText (s : text) | VList (l : list text) | VNum (s : text).
(** [value in NULL_VALUES], /repo/mt_metadata/__init__.py 93-104 *)
Definition null (v : value) : bool := match v with VNone => true | VText s => is_null s | _ => false end.
(** f"{value}"; that of a list is not needed: [shown] is for the others *)
Definition shown (v : value) : text := match v with VText s => s | VNum s => s | VNone => txt "None" | VList l => txt "[" ++ join (txt ", ") (map (fun s => "'"%char :: s ++ ["'"%char]) l) ++ txt "]" end.
Definition notes : Type := list (text * value).

(** ** Set: 1237-1273 *)
(** item.split("=", 1) into two *)
Fixpoint put_parameters (items : list text) (d : notes) : result notes :=
  match items with
  | [] => Ok d
  | i :: r => match split1 "=" i with
              | (p, Some v) => put_parameters r (dset text_dec (txt "transfer_function.processing_parameters." ++ p) (VText v) d)
              | (_, None) => Err ValueError
              end
  end.
Fixpoint put_tf (fields : list (text * value)) (d : notes) : result notes :=
  match fields with
  | [] => Ok d
  | (k, v) :: r =>
      if null v then put_tf r d
      else if text_eqb k (txt "processing_parameters") then
        match v with VList l => bindR (put_parameters l d) (put_tf r) | _ => Err ValueError end
      else put_tf r (dset text_dec (txt "transfer_function." ++ k) v d)
  end.
Fixpoint put_all (prefix : text) (fields : list (text * value)) (d : notes) : notes :=
  match fields with
  | [] => d
  | (k, v) :: r => put_all prefix r (if null v then d else dset text_dec (prefix ++ k) v d)
  end.
(** edi.py 143-169 *)
Definition skipped : list text :=
  map txt ["filter.name"; "filter.applied"; "time_period.start"; "time_period.end"; "location.elevation"; "location.latitude"; "location.longitude";
           "location.x"; "location.y"; "location.z"; "positive.latitude"; "positive.longitude"; "positive.elevation"; "positive.x"; "positive.x2";
           "positive.y"; "positive.y2"; "positive.z"; "positive.z2"; "negative.latitude"; "negative.longitude"; "negative.elevation"; "negative.x";
           "negative.x2"; "negative.y"; "negative.y2"; "negative.z"; "negative.z2"; "sample_rate"; "data_quality.rating.value";
           "data_quality.flag"]%string.
Record run : Type := mkRun { r_id : text; r_fields : list (text * value); r_channels : list (text * list (text * value)) }.
Definition put_channel (id : text) (d : notes) (c : text * list (text * value)) : notes :=
  put_all (id ++ txt "." ++ fst c ++ txt ".") (filter (fun kv => negb (existsb (text_eqb (fst kv)) skipped)) (snd c)) d.
Definition put_run (d : notes) (r : run) : notes :=
  fold_left (put_channel (r_id r)) (r_channels r) (put_all (r_id r ++ txt ".") (r_fields r) d).
(** The dictionaries of the transfer function and the provenance, and the runs *)
Record station : Type := mkSt { s_tf : list (text * value); s_provenance : list (text * value); s_runs : list run }.
Definition set_station (s : station) (d : notes) : result notes :=
  bindR (put_tf (s_tf s) d) (fun d1 => Ok (fold_left put_run (s_runs s) (put_all (txt "provenance.") (s_provenance s) d1))).
(** 1013-1024 *)
Definition left_out (k : text) : bool := (contains (txt "northwest") k || contains (txt "southeast") k || contains (txt "time_period") k)%bool.
Definition set_survey (fields : list (text * value)) (d : notes) : notes :=
  let d1 := match dget text_dec (txt "summary") fields with Some v => if null v then d else dset text_dec (txt "survey.summary") v d | None => d end in
  put_all (txt "survey.") (filter (fun kv => negb (left_out (fst kv))) fields) d1.

(** ** Read: 1062-1189 *)
(** s.split(sep)[1] *)
Definition after (sep s : text) : option text := match find sep s with Some n => Some (skipn (n + List.length sep) s) | None => None end.
Definition before (sep s : text) : text := match find sep s with Some n => firstn n s | None => s end.
Definition second (sep s : text) : result text := match after sep s with Some r => Ok (before sep r) | None => Err IndexError end.

Inductive place : Type := OfStation | OfTF | OfRun.
Record got : Type := mkGot { g_params : list text; g_refs : list text; g_runs : list text; g_processed : list text; g_log : list (place * text * value) }.
Definition add_params (l : list text) (g : got) : got := mkGot (g_params g ++ l) (g_refs g) (g_runs g) (g_processed g) (g_log g).
Definition add_refs (l : list text) (g : got) : got := mkGot (g_params g) (g_refs g ++ l) (g_runs g) (g_processed g) (g_log g).
Definition set_refs (l : list text) (g : got) : got := mkGot (g_params g) l (g_runs g) (g_processed g) (g_log g).

Section Read.
Variable refuse : place -> text -> value -> option exn.
Definition assign (p : place) (k : text) (v : value) (g : got) : result got :=
  match refuse p k v with
  | Some x => Err x
  | None => Ok (mkGot (g_params g) (g_refs g) (g_runs g) (g_processed g) (g_log g ++ [(p, k, v)]))
  end.
(** "a=b" stays, "a=b=c" cannot be unpacked (1074) *)
Fixpoint list_parameters (l : list text) : result (list text) :=
  match l with
  | [] => Ok []
  | i :: r => bindR (if has_char "=" i then match split_on "=" i with [p; v] => Ok (p ++ txt "=" ++ v) | _ => Err ValueError end else Ok i)
                    (fun x => bindR (list_parameters r) (fun xs => Ok (x :: xs)))
  end.
Definition last_part (k : text) : text := last (split_on "." k) [].
Definition dots (k : text) : nat := List.length (split_on "." k) - 1.
(** 1068-1119 *)
Definition tf_note (k : text) (v : value) (g : got) : result got :=
  bindR (second (txt "transfer_function.") k) (fun k =>
  if contains (txt "processing_parameters") k then
    match v with
    | VList l => bindR (list_parameters l) (fun l => Ok (add_params l g))
    | _ => Ok (add_params [last_part k ++ txt "=" ++ shown v] g)
    end
  else if contains (txt "remote_references") k then
    if Nat.ltb 1 (dots k) then Ok g
    else match v with
         | VList l => Ok (add_refs l g)
         | VText s => Ok (add_refs [s] g)
         | VNum s => Ok (add_refs [s] g)
         | VNone => Ok g
         end
  else if contains (txt "runs_processed") k then Ok g
  else assign OfTF k v g).
Definition some_word (v : value) : result text := match v with VText s => Ok s | _ => Err AttributeError end.
(** value.split(",") or value.split() *)
Definition words (s : text) : list text := if has_char "," s then split_on "," s else split_ws s.
Fixpoint new_runs (have : list text) (l : list text) : list text :=
  match l with [] => have | r :: rest => new_runs (if memb text_dec r have then have else have ++ [r]) rest end.
Definition one_note (g : got) (kv : text * value) : result got :=
  let v := snd kv in
  if null v then Ok g
  else
    let k := lower (fst kv) in
    if contains (txt "provenance") k then assign OfStation k v g
    else if contains (txt "transfer_function") k then tf_note k v g
    else if prefix_of (txt "run.") k then
      (* 1120-1158: exceptions are caught; what a note of a run does is not modelled *)
      Ok g
    else if prefix_of (txt "data_logger") k then assign OfRun k v g
    else if prefix_of (txt "station.") k then bindR (second (txt "station.") k) (fun k => assign OfStation k v g)
    else if contains (txt "processing.") k then
      bindR (second (txt "processing.") k) (fun k =>
        if text_eqb k (txt "software") then assign OfTF (txt "software.name") v g
        else if text_eqb k (txt "tag") then bindR (some_word v) (fun s => Ok (set_refs (words s) g))
        else Ok g)
    else if existsb (text_eqb k) [txt "processedby"; txt "processed_by"] then assign OfTF (txt "processed_by.name") v g
    else if existsb (text_eqb k) [txt "runlist"; txt "run_list"] then
      bindR (some_word v) (fun s => Ok (mkGot (g_params g) (g_refs g) (new_runs (g_runs g) (words s)) (words s) (g_log g)))
    else if text_eqb k (txt "sitename") then assign OfStation (txt "geographic_name") v g
    else if text_eqb k (txt "signconvention") then assign OfTF (txt "sign_convention") v g
    else if (contains (txt "mtft") k || contains (txt "emtf") k || contains (txt "mtedit") k)%bool then Ok (add_params [k ++ txt "=" ++ shown v] g)
    else Ok g.
Fixpoint all_notes (d : notes) (g : got) : result got :=
  match d with [] => Ok g | kv :: r => bindR (one_note g kv) (all_notes r) end.
(** 1028-1058 and 1062-1192: there is one run, called after the station; at the end the date of processing is the one of the file *)
Definition read_station (id : text) (filedate : value) (d : notes) : result got :=
  bindR (all_notes d (mkGot [] [] [id ++ txt "a"] [id ++ txt "a"] [(OfTF, txt "id", VText id)])) (fun g =>
  match filedate with VNone => Ok g | v => assign OfTF (txt "processed_date") v g end).
(** 983-989: what is set on the survey, in order; the header's fields come before *)
Fixpoint read_survey (d : notes) : result (list (text * value)) :=
  match d with
  | [] => Ok []
  | (k, v) :: r =>
      if prefix_of (txt "survey.") (lower k) then
        bindR (second (txt "survey.") (lower k)) (fun k' => bindR (read_survey r) (fun l => Ok ((k', v) :: l)))
      else read_survey r
  end.
End Read.
