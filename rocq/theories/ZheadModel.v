(** Model of the header of Z files (EMTF transfer functions):
    /repo/mt_metadata/transfer_functions/io/zfiles/zmm.py 115-208 (read_header), 210-267 (write_header),
    284-304 (channels_recorded, input_channels, output_channels) and zfiles/metadata/channel.py. *)
From Verif Require Import PyBase PyText PyNum IsoModel PyFloat PySci EdiModel ZmmModel.
From Verif Require LocationModel.
Local Open Scope list_scope.
Local Open Scope Z_scope.

Inductive comp : Type := Ex | Ey | Hx | Hy | Hz.
Definition comp_eqb (a b : comp) : bool :=
  match a, b with Ex, Ex | Ey, Ey | Hx, Hx | Hy, Hy | Hz, Hz => true | _, _ => false end.
Definition comp_name (c : comp) : text :=
  match c with Ex => txt "ex" | Ey => txt "ey" | Hx => txt "hx" | Hy => txt "hy" | Hz => txt "hz" end.
(** The order of [channel_dict] and [channels_recorded], zmm.py 273 and 287. *)
Definition comps : list comp := [Ex; Ey; Hx; Hy; Hz].
(** zmm.py 52 *)
Definition channel_order : list comp := [Hx; Hy; Hz; Ex; Ey].

(** zfiles/metadata/channel.py 15-90: the channel of a component has the name of that component (TF.to_zmm and
    read_header set it so). *)
Record zchannel (A : Type) : Type := mkChannel { zn_number : option Z; zn_azimuth : A; zn_tilt : A }.
Arguments mkChannel {A}.
Arguments zn_number {A}.
Arguments zn_azimuth {A}.
Arguments zn_tilt {A}.

(** The attributes written in a header; [zh_type] is station_metadata.transfer_function.processing_type. *)
Record zhead : Type := mkHead {
  zh_type : text; zh_station : text; zh_latitude : Q; zh_longitude : Q; zh_declination : Q;
  zh_channels : option Z; zh_frequencies : option Z; zh_channel : comp -> option (zchannel Q) }.

(** [str.capitalize] *)
Definition capitalize (s : text) : text := match s with [] => [] | c :: r => to_upper c :: lower r end.
(** zmm.py 53-56 *)
Definition header_lines : list text :=
  [txt "TRANSFER FUNCTIONS IN MEASUREMENT COORDINATES"; txt "********* WITH FULL ERROR COVARIANCE ********"].
(** zmm.py 246-263: a channel without a number gets its place in the order, counted from zero. *)
Definition channel_line (station : text) (ii : nat) (c : comp) (ch : zchannel Q) : text :=
  let number := match zn_number ch with Some n => n | None => Z.of_nat ii end in
  rjust 5 (show_int number) ++ txt " " ++ rjust 8 (show_fixed 2 (zn_azimuth ch)) ++ txt " " ++
  rjust 8 (show_fixed 2 (zn_tilt ch)) ++ txt " " ++ rjust 3 station ++ txt " " ++ rjust 3 (capitalize (comp_name c)).
(** zmm.py 244-267: what is None is left out. *)
Fixpoint channel_lines (station : text) (f : comp -> option (zchannel Q)) (ii : nat) (l : list comp) : list text :=
  match l with
  | [] => []
  | c :: r => match f c with
              | Some ch => channel_line station ii c ch :: channel_lines station f (S ii) r
              | None => channel_lines station f (S ii) r
              end
  end.
(** zmm.py 235-237 *)
Definition coordinate_line (h : zhead) : text :=
  txt "coordinate " ++ rjust 9 (show_fixed 3 (zh_latitude h)) ++ txt " " ++ rjust 9 (show_fixed 3 (zh_longitude h)) ++
  txt " declination " ++ rjust 8 (show_fixed 2 (zh_declination h)).
(** zmm.py 238-240 *)
Definition number_line (nc nf : Z) : text :=
  txt "number of channels  " ++ rjust 3 (show_int nc) ++ txt "  number of frequencies " ++ rjust 3 (show_int nf).
(** zmm.py 229-267.  [f"{None:>3d}"] raises TypeError. *)
Definition write_header (h : zhead) : result (list text) :=
  match zh_channels h, zh_frequencies h with
  | Some nc, Some nf =>
      Ok (header_lines ++ [zh_type h; txt "station: " ++ zh_station h; coordinate_line h; number_line nc nf;
                           txt " orientations and tilts of each channel"] ++
          channel_lines (zh_station h) (zh_channel h) 0 channel_order)
  | _, _ => Err TypeError
  end.
(** write_header leaves the numbers it has given in the channels, zmm.py 247-248. *)
Fixpoint place_from (ii : nat) (c : comp) (l : list comp) : nat :=
  match l with [] => ii | d :: r => if comp_eqb c d then ii else place_from (S ii) c r end.
Definition numbered (f : comp -> option (zchannel Q)) : comp -> option (zchannel Q) :=
  fun c => match f c with
           | Some ch => Some (mkChannel (Some (match zn_number ch with Some n => n | None => Z.of_nat (place_from 0 c channel_order) end)) (zn_azimuth ch) (zn_tilt ch))
           | None => None
           end.

(** What read_header leaves in the object: the comments, the two processing types, the station with the ids of
    its run and transfer function, the location and the channels.  The channels of the run are those of the
    object. *)
Record zgot : Type := mkGot {
  zg_comments : text; zg_type : option text; zg_tf_type : text; zg_station : text; zg_run : text; zg_tf : text;
  zg_latitude : pynum; zg_longitude : pynum; zg_declination : pynum;
  zg_channels : option Z; zg_frequencies : option Z; zg_channel : comp -> option (zchannel pynum) }.

(** timeseries/station.py 122 and run.py 121: the pattern of an id. *)
Definition id_char (c : ascii) : bool := (is_alpha c || is_digit c || Ascii.eqb c "_")%bool.
Definition valid_id (s : text) : bool := forallb id_char s.

(** The loop of zmm.py 127-134.  At the end of a file [readline] returns the empty text again and again: without
    a line with "period" the loop does not end. *)
Fixpoint header_part (lines : list text) : option (list text) :=
  match lines with
  | [] => None
  | l :: r => if contains (txt "period") l then Some [] else option_map (cons l) (header_part r)
  end.

Definition item {A} (l : list A) (i : nat) : result A := match nth_error l i with Some x => Ok x | None => Err IndexError end.
Definition last_item {A} (l : list A) : result A := match rev l with x :: _ => Ok x | [] => Err IndexError end.
Definition to_float (s : text) : result pynum := match read_float s with Some x => Ok x | None => Err ValueError end.
Definition to_int (s : text) : result Z := match read_int s with Some x => Ok x | None => Err ValueError end.
(** [s.replace("*", "")] *)
Definition no_stars (s : text) : text := replace_char "*" [] s.
(** [s[-2:]] *)
Definition last2 (s : text) : text := skipn (List.length s - 2) s.
Definition comp_of (s : text) : option comp := List.find (fun c => text_eqb (comp_name c) s) comps.
(** zmm.py 163-165 *)
Definition wrap_longitude (x : pynum) : pynum :=
  match x with Fin q => if Qle_bool q 180 then Fin q else Fin (q - 360)%Q | NonFinite => NonFinite end.

(** zmm.py 147-208: one line.  Setting id checks its pattern and setting latitude and longitude their limits (both
    raise pydantic's ValidationError, a ValueError); the number of a channel must be an integer. *)
Definition read_line (st : zgot) (ii : nat) (line : text) : result zgot :=
  let set_chan c ch := mkGot (zg_comments st) (zg_type st) (zg_tf_type st) (zg_station st) (zg_run st) (zg_tf st)
    (zg_latitude st) (zg_longitude st) (zg_declination st) (zg_channels st) (zg_frequencies st)
    (fun d => if comp_eqb d c then Some ch else zg_channel st d) in
  if contains (txt "**") line then
    let c := strip (no_stars line) in
    Ok (mkGot (if nonempty (zg_comments st) then zg_comments st ++ [newline] ++ c else c) (zg_type st) (zg_tf_type st) (zg_station st)
          (zg_run st) (zg_tf st) (zg_latitude st) (zg_longitude st) (zg_declination st) (zg_channels st) (zg_frequencies st) (zg_channel st))
  else if Nat.eqb ii 2 then
    Ok (mkGot (zg_comments st) (Some (strip (lower line))) (zg_tf_type st) (zg_station st)
          (zg_run st) (zg_tf st) (zg_latitude st) (zg_longitude st) (zg_declination st) (zg_channels st) (zg_frequencies st) (zg_channel st))
  else if contains (txt "station") line then
    bindR (item (split_on ":" line) 1) (fun s =>
    if valid_id (strip s) then
      Ok (mkGot (zg_comments st) (zg_type st) (zg_tf_type st) (strip s)
            (zg_run st) (zg_tf st) (zg_latitude st) (zg_longitude st) (zg_declination st) (zg_channels st) (zg_frequencies st) (zg_channel st))
    else Err ValueError)
  else if contains (txt "coordinate") line then
    let l := split_ws (strip line) in
    bindR (item l 1) (fun s => bindR (LocationModel.validate_position LocationModel.Latitude (LocationModel.GText s)) (fun lat =>
    bindR (item l 2) (fun s => bindR (to_float s) (fun x =>
    bindR (LocationModel.validate_position LocationModel.Longitude (LocationModel.GNum (wrap_longitude x))) (fun lon =>
    bindR (last_item l) (fun s => bindR (to_float s) (fun d =>
      Ok (mkGot (zg_comments st) (zg_type st) (zg_tf_type st) (zg_station st)
            (zg_run st) (zg_tf st) lat lon d (zg_channels st) (zg_frequencies st) (zg_channel st)))))))))
  else if contains (txt "number") line then
    let l := split_ws (strip line) in
    bindR (item l 3) (fun s => bindR (to_int s) (fun nc => bindR (last_item l) (fun s => bindR (to_int s) (fun nf =>
      Ok (mkGot (zg_comments st) (zg_type st) (zg_tf_type st) (zg_station st)
            (zg_run st) (zg_tf st) (zg_latitude st) (zg_longitude st) (zg_declination st) (Some nc) (Some nf) (zg_channel st))))))
  else if contains (txt "orientations") line then Ok st
  else match comp_of (lower (last2 (strip line))) with
  | None => Ok st
  | Some _ =>
      let l := split_ws (strip line) in
      bindR (last_item l) (fun s => bindR (item l 0) (fun n => bindR (to_int n) (fun n =>
      bindR (item l 1) (fun a => bindR (to_float a) (fun a => bindR (item l 2) (fun t => bindR (to_float t) (fun t =>
      bindR (item l 3) (fun _ =>
      match (if n =? 0 then zg_channels st else Some n) with
      | None => Err ValueError
      | Some n => match comp_of (lower s) with
                  | Some c => Ok (set_chan c (mkChannel (Some n) a t))
                  | None => Err ValueError
                  end
      end))))))))
  end.
Fixpoint read_lines (st : zgot) (ii : nat) (lines : list text) : result zgot :=
  match lines with [] => Ok st | l :: r => bindR (read_line st ii l) (fun st => read_lines st (S ii) r) end.
(** zmm.py 135-145: the station of the fourth line, in lower case, names the run and the transfer function. *)
Definition fourth_station (line : text) : result text :=
  let s := strip (lower line) in
  if has_char ":" s then bindR (item (split_on ":" s) 1) (fun x => Ok (strip x)) else Ok s.
Definition read_header_list (l : list text) : result zgot :=
  bindR (item l 2) (fun l2 => bindR (item l 3) (fun l3 => bindR (fourth_station l3) (fun s =>
  if valid_id s then
    read_lines (mkGot [] None (strip l2) s (s ++ txt "a") s (Fin 0) (Fin 0) (Fin 0) None None (fun _ => None)) 0 l
  else Err ValueError))).
(** zmm.py 115-208; [None]: does not return. *)
Definition read_header (s : text) : option (result zgot) := option_map read_header_list (header_part (split_on newline s)).

(** channels_recorded, zmm.py 284-296: a dictionary by index, in the order of the index. *)
Fixpoint put_index (k : Z) (c : comp) (d : list (Z * comp)) : list (Z * comp) :=
  match d with [] => [(k, c)] | (k', c') :: r => if k =? k' then (k', c) :: r else (k', c') :: put_index k c r end.
Fixpoint insert_index (x : Z * comp) (l : list (Z * comp)) : list (Z * comp) :=
  match l with [] => [x] | y :: r => if fst x <=? fst y then x :: l else y :: insert_index x r end.
Definition sort_index (l : list (Z * comp)) : list (Z * comp) := fold_right insert_index [] l.
(** Channels that have a number; the index is the number less one (channel.py 127-131). *)
Definition channels_recorded {A} (f : comp -> option (zchannel A)) : list comp :=
  map snd (sort_index (fold_left (fun d c => match f c with
    | Some ch => match zn_number ch with Some n => put_index (n - 1) c d | None => d end
    | None => d end) comps [])).
(** zmm.py 298-304 *)
Definition input_channels {A} (f : comp -> option (zchannel A)) : list comp := firstn 2 (channels_recorded f).
Definition output_channels {A} (f : comp -> option (zchannel A)) : list comp := skipn 2 (channels_recorded f).

(** zmm.py 644-737 and 559-616: a whole file, header and data.  The arrays have room for num_freq periods and
    num_channels - 2 output channels: a further block raises IndexError (here after all blocks have been read), and
    periods that are not in the file stay zero ([None]). *)
Definition write_zmm (h : zhead) (n : nat) (l : list zdata) : result text :=
  bindR (write_header h) (fun lines => Ok (write_file lines n l)).
Definition fill_arrays (g : zgot) (s : text) : result (list (option zread)) :=
  match zg_channels g, zg_frequencies g with
  | Some nc, Some nf =>
      if (nc <? 2) || (nf <? 0) then Err ValueError
      else bindR (read_file (Z.to_nat (nc - 2)) s) (fun rs =>
        if Nat.ltb (Z.to_nat nf) (List.length rs) then Err IndexError
        else Ok (map Some rs ++ repeat None (Z.to_nat nf - List.length rs)))
  | _, _ => Err TypeError
  end.
Definition read_zmm (s : text) : option (result (zgot * list (option zread))) :=
  option_map (fun r => bindR r (fun g => bindR (fill_arrays g s) (fun rs => Ok (g, rs)))) (read_header s).
