(** Model of a station with its runs written as a StationXML station and read again:
    /repo/mt_metadata/timeseries/stationxml/xml_station_mt_station.py, xml_equipment_mt_run.py 75-133, utils.py 197-237 and
    timeseries/station.py 261-294, 358-375, 411-447, 449-475.

    The comments of StationXML are those of SxmlModel.v.  Numbers and enumerations in comments are given by their texts, as in a file; a value that
    is false in Python (None, "", 0.0) is the empty text.  Times are integers, 0 is the default time (1980-01-01).  Of a station the model has the
    attributes that one of the two directions handles; the location is passed on as it is. *)
From Coq Require Import QArith.
From Verif Require Import PyBase PyText LayModel SxmlModel.
Local Open Scope list_scope.

(** A run: what is given of its data logger and type, who acquired it and its metadata, and its comment *)
Record run : Type := mkRun { r_id : text; r_start : Z; r_end : Z; r_plain : list (text * text); r_logger : list (text * text); r_by : list (text * text); r_comment : text }.
Record station : Type := mkSt { s_id : text; s_fdsn : option text; s_name : text; s_comment : option text; s_place : Q * Q * Q; s_start : Z; s_end : Z;
  s_author : text; s_notes : list (text * text); s_runs : list run }.
(** An equipment of StationXML *)
Record equipment : Type := mkEq { e_resource : text; e_start : Z; e_end : Z; e_plain : list (text * text); e_description : text }.
Record xstation : Type := mkX { x_code : text; x_alternate : text; x_description : option text; x_place : Q * Q * Q; x_start : Z; x_end : Z;
  x_site : text; x_operators : list text; x_comments : list (option text * text); x_equipments : list equipment }.

(** ** Write: 173-285 *)
(** 80-91, sorted, but for "run_list", which is the last *)
Definition note_keys : list text :=
  map txt ["data_type"; "location.declination.comments"; "location.declination.model"; "location.declination.value"; "orientation.method";
           "orientation.reference_frame"; "provenance.software.author"; "provenance.software.name"; "provenance.software.version"]%string.
Definition note (s : station) (k : text) : text := match dget text_dec k (s_notes s) with Some v => v | None => [] end.
Definition station_comments (s : station) : list (option text * text) :=
  flat_map (fun k => if nonempty (note s k) then [(Some (txt "mt.station." ++ k), note s k)] else []) note_keys ++
  match s_runs s with [] => [] | _ => [(Some (txt "mt.station.run_list"), join (txt ", ") (map r_id (s_runs s)))] end.
(** xml_equipment_mt_run.py 55-59 *)
Definition run_comments (r : run) : list (option text * text) :=
  let get k := dget text_dec k (r_by r) in
  [(Some (txt "mt.run:" ++ r_id r ++ txt ".acquired_by"), dict_comment get [txt "acquired_by.author"; txt "acquired_by.comments"]);
   (Some (txt "mt.run:" ++ r_id r ++ txt ".metadata_by"), dict_comment get [txt "metadata_by.author"; txt "metadata_by.comments"])] ++
  (if nonempty (r_comment r) then [(Some (txt "mt.run:" ++ r_id r ++ txt ".comments"), r_comment r)] else []).
(** xml_equipment_mt_run.py 107-133: the description has the given values of the data logger *)
Definition to_equipment (r : run) : equipment := mkEq (run_resource (r_id r)) (r_start r) (r_end r) (r_plain r) (pairs_text (r_logger r)).
(** The station's own id is used even if there is another for FDSN; the comment list of 256-258 is replaced by 274.
    That 208-209 give the station itself an FDSN id is not modelled. *)
Definition mt_to_xml (s : station) : xstation :=
  mkX (upper (s_id s)) (upper (s_id s)) (s_comment s) (s_place s) (s_start s) (s_end s) (s_name s)
      (if nonempty (s_author s) then [s_author s] else []) (station_comments s ++ flat_map run_comments (s_runs s)) (map to_equipment (s_runs s)).
(** ** Read: 93-171 *)
(** The defaults of the attributes in comments: station.py 74-86, declination.py, orientation.py, software.py *)
Definition fresh_notes : list (text * text) :=
  [(txt "data_type", txt "BBMT"); (txt "location.declination.model", txt "IGRF"); (txt "orientation.method", txt "compass"); (txt "orientation.reference_frame", txt "geographic")].
Definition new_station : station := mkSt [] None [] None (0%Q, 0%Q, 0%Q) 0 0 [] fresh_notes [].
Definition new_run (id : text) : run := mkRun id 0 0 [] [] [] [].
Definition set_runs (rs : list run) (s : station) : station := mkSt (s_id s) (s_fdsn s) (s_name s) (s_comment s) (s_place s) (s_start s) (s_end s) (s_author s) (s_notes s) rs.
Definition set_note (k v : text) (s : station) : station :=
  mkSt (s_id s) (s_fdsn s) (s_name s) (s_comment s) (s_place s) (s_start s) (s_end s) (s_author s) (dset text_dec k v (s_notes s)) (s_runs s).
(** station.py 261-285: runs are made for a list that is longer than the runs there are; a shorter list is replaced by their ids *)
Definition set_run_list (l : list text) (s : station) : station :=
  if (List.length (s_runs s) <? List.length l)%nat then
    set_runs (fold_left (fun rs i => if existsb (fun r => text_eqb (r_id r) i) rs then rs else rs ++ [new_run i]) l (s_runs s)) s
  else s.

Section Read.
(** Which texts are values of an attribute *)
Variable accepts : text -> text -> bool.
(** update_attribute with what a comment says.  A dictionary is no text; of a dictionary for the comment on the declination only its "value" is the
    comment.  Attributes that no station writes are not modelled. *)
Definition set_key (k : text) (v : cvalue) (s : station) : result station :=
  match v with
  | CText t =>
      if text_eqb k (txt "run_list") then if is_null t then Err ValueError else Ok (set_run_list (map strip (split_on "," t)) s)
      else if existsb (text_eqb k) note_keys then if accepts k t then Ok (set_note k t s) else Err ValueError
      else Err AttributeError
  | CDict d =>
      if text_eqb k (txt "location.declination.comments")
      then Ok (set_note k (match dget text_dec (txt "value") d with Some (Some t) => t | _ => [] end) s)
      else Err ValueError
  end.
Definition add_comment (v : cvalue) (s : station) : result station :=
  match v with
  | CText t => Ok (mkSt (s_id s) (s_fdsn s) (s_name s) (Some (match s_comment s with Some (c :: u) => (c :: u) ++ t | _ => t end)) (s_place s) (s_start s) (s_end s) (s_author s) (s_notes s) (s_runs s))
  | CDict _ => Err TypeError
  end.
(** key.split("mt.station.")[1] *)
Definition station_key (key : text) : text :=
  match find (txt "mt.station.") key with
  | Some n => let r := skipn (n + 11) key in match find (txt "mt.station.") r with Some m => firstn m r | None => r end
  | None => key
  end.
Definition take_comment (c : option text * text) (st : station * list (text * cvalue)) : result (station * list (text * cvalue)) :=
  bindR (read_comment (fst c) (snd c)) (fun kv =>
  if contains (txt "mt.run") (fst kv) then Ok (fst st, snd st ++ [kv])
  else
    let k := replace (txt "summary") (txt "comments") (station_key (fst kv)) in
    bindR (if text_eqb k (txt "comments") then add_comment (snd kv) (fst st) else set_key k (snd kv) (fst st)) (fun s => Ok (s, snd st))).
Fixpoint take_comments (l : list (option text * text)) (st : station * list (text * cvalue)) : result (station * list (text * cvalue)) :=
  match l with [] => Ok st | c :: r => bindR (take_comment c st) (take_comments r) end.
(** xml_equipment_mt_run.py 75-105; [r_logger] has the names without "data_logger." *)
Definition to_run (e : equipment) : result run :=
  bindR (parse_description (e_description e)) (fun d =>
  bindR (read_run_id (e_resource e)) (fun i => Ok (mkRun i (e_start e) (e_end e) (e_plain e) (map (fun kv => (skipn 12 (fst kv), snd kv)) d) [] []))).
(** metadata.py 574-610 (update) and from_dict of a run: what is given replaces what is there; both are the same on runs that have nothing or the
    same values *)
Definition absorb (it r : run) : run :=
  mkRun (r_id r) (if (r_start it =? 0)%Z then r_start r else r_start it) (if (r_end it =? 0)%Z then r_end r else r_end it)
        (dupdate text_dec (r_plain r) (r_plain it)) (dupdate text_dec (r_logger r) (r_logger it)) (r_by r) (r_comment r).
Fixpoint least (m : Z) (l : list Z) : Z := match l with [] => m | x :: r => least (Z.min m x) r end.
Fixpoint greatest (m : Z) (l : list Z) : Z := match l with [] => m | x :: r => greatest (Z.max m x) r end.
(** station.py 418-447 *)
Definition update_time (s : station) : station :=
  let known l := filter (fun t => negb (t =? 0)%Z) l in
  let a := match known (map r_start (s_runs s)) with [] => s_start s | x :: l => let m := least x l in if (s_start s =? 0)%Z then m else if (m <? s_start s)%Z then m else s_start s end in
  let b := match known (map r_end (s_runs s)) with [] => s_end s | x :: l => let m := greatest x l in if (s_end s =? 0)%Z then m else if (s_end s <? m)%Z then m else s_end s end in
  mkSt (s_id s) (s_fdsn s) (s_name s) (s_comment s) (s_place s) a b (s_author s) (s_notes s) (s_runs s).
Fixpoint index_of (i : text) (rs : list run) : option nat :=
  match rs with [] => None | r :: l => if text_eqb (r_id r) i then Some 0%nat else option_map S (index_of i l) end.
Definition on_run (i : text) (f : run -> run) (rs : list run) : list run := map (fun r => if text_eqb (r_id r) i then f r else r) rs.
(** 287-324 with station.py 449-475 (add_run) *)
Definition put_item (it : run) (s : station) : station :=
  match index_of (r_id it) (s_runs s) with
  | Some (S _) => set_runs (on_run (r_id it) (absorb it) (s_runs s)) s
  | Some 0%nat => update_time (set_runs (on_run (r_id it) (absorb it) (s_runs s)) s)
  | None => update_time (set_runs (s_runs s ++ [it]) s)
  end.
Fixpoint put_equipments (es : list equipment) (s : station) : result station :=
  match es with [] => Ok s | e :: r => bindR (to_run e) (fun it => put_equipments r (put_item it s)) end.
(** 326-382 *)
Definition one_update (u : run_update) (r : run) : run :=
  match u with
  | RComment t => mkRun (r_id r) (r_start r) (r_end r) (r_plain r) (r_logger r) (r_by r) (match r_comment r with [] => t | c => c ++ txt ", " ++ t end)
  | RSet k (Some v) => mkRun (r_id r) (r_start r) (r_end r) (r_plain r) (r_logger r) (dset text_dec k v (r_by r)) (r_comment r)
  | RSet k None => mkRun (r_id r) (r_start r) (r_end r) (r_plain r) (r_logger r) (ddel text_dec k (r_by r)) (r_comment r)
  end.
Definition do_updates (us : list (text * run_update)) (rs : list run) : list run := fold_left (fun rs iu => on_run (fst iu) (one_update (snd iu)) rs) us rs.
Fixpoint add_run_comments (l : list (text * cvalue)) (rs : list run) : result (list run) :=
  match l with
  | [] => Ok rs
  | (k, v) :: r => bindR (run_comment (map r_id rs) k v) (fun us => add_run_comments r (do_updates us rs))
  end.
(** What 132-153 set: the id and the code for FDSN, the comment, the place, the times and the name *)
Definition set_fields (x : xstation) (s : station) : station :=
  mkSt (x_alternate x) (Some (x_code x)) (x_site x) (match x_description x with Some d => Some d | None => s_comment s end) (x_place x) (x_start x) (x_end x) (s_author s) (s_notes s) (s_runs s).
Definition xml_to_mt (x : xstation) : result station :=
  bindR (take_comments (x_comments x) (new_station, [])) (fun st =>
  bindR (put_equipments (x_equipments x) (set_fields x (fst st))) (fun s1 =>
  bindR (put_equipments (x_equipments x) s1) (fun s2 =>
  bindR (add_run_comments (snd st) (s_runs s2)) (fun rs => Ok (set_runs rs s2))))).
Definition trip (s : station) : result station := xml_to_mt (mt_to_xml s).
End Read.
