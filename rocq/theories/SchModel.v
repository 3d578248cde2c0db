(** Model of a channel written as a StationXML channel and read again:
    /repo/mt_metadata/timeseries/stationxml/xml_channel_mt_channel.py 48-356, 443-516, 601-655 and timeseries/channel.py 255-262, 303-318.

    Positions, angles and rates are rational numbers, times are seconds since 1970-01-01.  The response of the channel (204-207, 518-599) is left out:
    see C101; so are the limits that obspy sets on latitudes, longitudes, azimuths and dips.  A value that reading skips because it is false (0.0, 127)
    is the default of its attribute, so the model passes it on. *)
From Coq Require Import QArith Qround.
From Verif Require Import PyBase PyText PyFloat PyRepr FdsnModel SxmlModel.
Local Open Scope list_scope.

Record place : Type := mkPlace { p_lat : Q; p_lon : Q; p_elev : Q }.
(** timeseries/electrode.py, common/instrument.py: the type is set to "electrode" by reading (285, 289) and not written, and left out here. *)
Record electrode : Type := mkElectrode { l_id : option text; l_maker : option text; l_model : option text; l_place : place }.
Record sensor : Type := mkSensor { s_id : option text; s_maker : option text; s_model : option text; s_type : option text; s_name : option text }.
(** timeseries/electric.py, magnetic.py, auxiliary.py *)
Inductive kind : Type :=
| Electric (positive negative : electrode) (dipole : pynum)
| Magnetic (s : sensor) (p : place)
| Auxiliary (s : sensor) (p : place).
(** [c_special] is the attribute that line 128 makes of the types of the StationXML channel. *)
Record channel : Type := mkChannel { c_comp : text; c_kind : kind; c_azimuth : Q; c_tilt : Q; c_rate : Q; c_start : Z; c_end : Z;
  c_comment : option text; c_special : option (list text) }.

(** The parts of obspy's Equipment and Channel that are used. *)
Record equipment : Type := mkEquipment { q_type : option text; q_desc : option text; q_maker : option text; q_model : option text; q_serial : option text }.
Record xchannel : Type := mkX { x_code : text; x_place : place; x_types : list text; x_sensor : equipment; x_comments : list (text * text);
  x_azimuth : Q; x_dip : Q; x_rate : Q; x_start : Z; x_end : Z; x_alternate : text }.

(** timeseries/channel.py 303-318: the type of a channel is that of its class, whatever was given. *)
Definition type_of (k : kind) : text :=
  match k with Electric _ _ _ => txt "electric" | Magnetic _ _ => txt "magnetic" | Auxiliary _ _ => txt "auxiliary" end.

(** Truth of a text or None. *)
Definition given (v : option text) : option text := match v with Some (c :: r) => Some (c :: r) | _ => None end.
(** f"{length} meters" (321) *)
Definition length_text (x : pynum) : text := match x with Fin q => dipole_text q | NonFinite => txt "nan meters" end.
(** 314-356 [_mt_to_sensor]; the branches that repeat the test of the positive electrode (324-325, 329-330) are never taken. *)
Definition mt_to_sensor (k : kind) : result equipment :=
  match k with
  | Electric p n d =>
      Ok (mkEquipment (Some (txt "dipole")) (Some (length_text d)) (given (l_maker p)) (given (l_model p))
            (Some (electrode_text (show_opt (l_id p)) (show_opt (l_id n)))))
  | Magnetic s _ =>
      bindR (match s_model s with
             | Some (c :: r) => match split_ws (c :: r) with w :: _ => Ok (Some w) | [] => Err IndexError end
             | _ => Ok None
             end)
            (fun model => Ok (mkEquipment (s_type s) (s_name s) (s_maker s) model (s_id s)))
  | Auxiliary s _ => Ok (mkEquipment (s_type s) (s_name s) (s_maker s) (s_model s) (s_id s))
  end.

(** Python's [x % 360] (224-228). *)
Definition mod_360 (x : Q) : Q := (x - inject_Z (360 * Qfloor (x / 360)))%Q.
(** 147-237 [mt_to_xml] with hard_code=True. *)
Definition write_channel (c : channel) : result xchannel :=
  match rev (c_comp c) with
  | [] => Err IndexError
  | d :: _ =>
      bindR (make_channel_code (c_rate c) (type_of (c_kind c)) (ADirection (lower [d])) Horizontal) (fun code =>
      bindR (mt_to_sensor (c_kind c)) (fun s =>
      bindR (channel_comments (c_comment c)) (fun cs =>
      Ok (mkX code (match c_kind c with Electric p _ _ => l_place p | Magnetic _ p => p | Auxiliary _ p => p end)
            [txt "GEOPHYSICAL"] s cs (mod_360 (c_azimuth c)) (mod_360 (c_tilt c)) (c_rate c) (c_start c) (c_end c) (c_comp c)))))
  end.

(** 48-55 *)
Definition understood_sensor_types : list text :=
  [txt "logger"; txt "magnetometer"; txt "induction coil"; txt "coil"; txt "dipole"; txt "electrode"].
(** 601-655 [_deduce_sensor_type] *)
Definition or_empty (v : option text) : text := match v with Some s => s | None => [] end.
Definition one_of (s : text) (l : list text) : bool := existsb (text_eqb s) l.
Definition deduce_sensor_type (s : equipment) : option text :=
  let t := or_empty (q_type s) in
  let d := or_empty (q_desc s) in
  if one_of (lower t) understood_sensor_types then Some t
  else
    let t := if text_eqb (lower t) (txt "bartington") then txt "magnetometer" else t in
    let t := match t with
             | [] =>
                 let t := if text_eqb d (txt "Bartington 3-Axis Fluxgate Sensor") then txt "magnetometer" else [] in
                 if nonempty d then
                   if contains (txt "bf-4") (lower d) && contains (txt "schlumberger") (lower d) then txt "magnetometer"
                   else if contains (txt "electric") (lower d) && contains (txt "dipole") (lower d) then txt "dipole"
                   else t
                 else t
             | _ => t
             end in
    match t with [] => q_type s | _ => Some t end.

(** 239-312 [_sensor_to_mt]; the equipment has already been given the deduced type (252). *)
Definition coil_types : list text := [txt "magnetometer"; txt "induction coil"; txt "coil"].
Definition electrode_types : list text := [txt "dipole"; txt "electrode"].
Definition model_text (s : equipment) : text := show_opt (q_model s) ++ txt " " ++ show_opt (q_desc s).
Definition sensor_to_mt (s : equipment) (k : kind) : result kind :=
  match deduce_sensor_type s with
  | Some (a :: t) =>
      let t := a :: t in
      if one_of (lower t) coil_types then
        match k with
        | Magnetic _ p => Ok (Magnetic (mkSensor (q_serial s) (q_maker s) (Some (model_text s)) (Some t) (q_desc s)) p)
        | _ => Err ValueError
        end
      else if one_of (lower t) electrode_types then
        match k with
        | Electric p n d =>
            bindR (match given (q_serial s) with
                   | Some ids => bindR (electrode_ids ids) (fun pn => Ok (Some (fst pn), Some (snd pn)))
                   | None => Ok (l_id p, l_id n)
                   end) (fun pn =>
            bindR (match q_desc s with Some d => dipole_length d | None => Err AttributeError end) (fun d =>
            Ok (Electric (mkElectrode (fst pn) (q_maker s) (q_model s) (l_place p)) (mkElectrode (snd pn) (q_maker s) (q_model s) (l_place n)) d)))
        | _ => Err ValueError
        end
      else
        match k with
        | Auxiliary s0 p => Ok (Auxiliary (mkSensor (q_serial s) (q_maker s) (Some (model_text s)) (Some t) (s_name s0)) p)
        | _ => Err ValueError
        end
  | _ => Ok k
  end.

(** common/instrument.py: a new sensor; timeseries/electric.py: a new channel, put at the place of the StationXML channel (471-496). *)
Definition new_sensor : sensor := mkSensor (Some []) (Some []) None (Some []) None.
Definition new_electrode (p : place) : electrode := mkElectrode (Some []) (Some []) None p.
(** 107-113 *)
Definition new_kind (measurement : text) (p : place) : kind :=
  if text_eqb measurement (txt "electric") then Electric (new_electrode p) (new_electrode p) (Fin 0)
  else if text_eqb measurement (txt "magnetic") then Magnetic new_sensor p
  else Auxiliary new_sensor p.
(** The patterns of the component: timeseries/electric.py 22, magnetic.py 21, channel.py 90; channel.py 255-262 makes it lower case first. *)
Definition word_char (c : ascii) : bool := is_alpha c || is_digit c || Ascii.eqb c "_".
Definition component_ok (k : kind) (s : text) : bool :=
  match k, s with
  | Electric _ _ _, c :: r => Ascii.eqb c "e" && forallb word_char r
  | Magnetic _ _, c :: r => (Ascii.eqb c "h" || Ascii.eqb c "b" || Ascii.eqb c "r") && forallb word_char r
  | Auxiliary _ _, _ => existsb word_char s
  | _, [] => false
  end.
Definition set_component (k : kind) (s : text) : result text :=
  if component_ok k (lower s) then Ok (lower s) else Err ValueError.
(** 141-144: 2200-01-01 *)
Definition far_end : Z := 7258118400.
(** 90-145 [xml_to_mt]: the alternate code (124-128) is used unless it is empty. *)
Definition read_channel (x : xchannel) : result channel :=
  bindR (read_channel_code (x_code x)) (fun info =>
  let k := new_kind (i_measurement info) (x_place x) in
  bindR (bindR (create_mt_component (x_code x)) (set_component k)) (fun comp =>
  let '(_, comment) := channel_runs (x_comments x) in
  bindR (sensor_to_mt (x_sensor x) k) (fun k =>
  bindR (match x_alternate x with [] => Ok comp | s => set_component k s end) (fun comp =>
  Ok (mkChannel comp k (x_azimuth x) (x_dip x) (x_rate x) (x_start x) (if (x_end x <? x_start x)%Z then far_end else x_end x) (Some comment)
        (match x_types x with [] => None | l => Some l end)))))).

(** Written and read again. *)
Definition trip (c : channel) : result channel := bindR (write_channel c) read_channel.

(** 498-516 [_get_mt_units]: the units of the last stage, from their name and description. *)
Definition units_of (name description : option text) : option text :=
  match given description, given name with
  | Some d, Some n => if (length n <? length d)%nat then Some d else Some n
  | Some d, None => Some d
  | None, Some n => Some n
  | None, None => None
  end.
