(** Model of the channels of a station in StationXML: mt_metadata/timeseries/stationxml/xml_inventory_mt_experiment.py
    75-120 and 181-288, with the parts of xml_channel_mt_channel.py 84-142 and 144-236 that they use.

    Simplified: positions, angles and rates are rational numbers; times are integers; an instrument ([sensor], built by
    xml_channel_mt_channel.py 313-360) is the list of its texts, compared attribute by attribute as obspy does; a
    response is any text.  [xml_station.select(channel=code)] is a comparison of codes: the codes are three letters or
    digits, none of them a wildcard.  The sensor, filters and comments are not read back here (C82, C83). *)
From Coq Require Import QArith Qround.
From Verif Require Import PyBase PyText PyNum ContainerModel FdsnModel SxmlModel.
Local Open Scope Z_scope.

(** What is written of a channel (Electric, Magnetic or Auxiliary).  The position is that of the positive electrode of
    an electric channel and the location of any other (188-206).  [mc_comments] are the comments already made of it. *)
Record channel : Type := mkChannel {
  mc_comp : text; mc_type : text; mc_rate : Q; mc_sensor : list text; mc_lat : Q; mc_lon : Q; mc_azimuth : Q; mc_tilt : Q;
  mc_start : Z; mc_end : Z; mc_response : text; mc_comments : list (text * text) }.
(** An obspy channel of a station: one epoch. *)
Record epoch : Type := mkEpoch {
  e_code : text; e_comp : text; e_rate : Q; e_sensor : list text; e_lat : Q; e_lon : Q; e_azimuth : Q; e_dip : Q;
  e_start : Z; e_end : Z; e_response : text; e_comments : list (text * text) }.

(** Python's [x % 360] (218-224). *)
Definition mod_360 (x : Q) : Q := (x - inject_Z (360 * Qfloor (x / 360)))%Q.
(** xml_channel_mt_channel.py 178-186 and fdsn_tools.py 227-252 for a direction. *)
Definition channel_code (c : channel) : result text :=
  match rev (mc_comp c) with
  | [] => Err IndexError
  | d :: _ =>
      bindR (code_of_direction (lower [d]))
            (fun o => Ok (get_period_code (mc_rate c) :: get_measurement_code (mc_type c) :: show_code o))
  end.
(** xml_channel_mt_channel.py 144-236 [mt_to_xml]. *)
Definition to_epoch (c : channel) : result epoch :=
  bindR (channel_code c) (fun code =>
  Ok (mkEpoch code (mc_comp c) (mc_rate c) (mc_sensor c) (mc_lat c) (mc_lon c) (mod_360 (mc_azimuth c)) (mod_360 (mc_tilt c))
        (mc_start c) (mc_end c) (mc_response c) (mc_comments c))).

(** Python's [round(x, d)]: the number of units of the last decimal. *)
Definition round_to (d : Z) (x : Q) : Z := round_half_even (x * inject_Z (10 ^ d)).
(** xml_inventory_mt_experiment.py 249-288 [compare_xml_channel]. *)
Definition same_channel (a b : epoch) : bool :=
  text_eqb (e_code a) (e_code b) && Qeq_bool (e_rate a) (e_rate b)
  && (if list_eq_dec text_dec (e_sensor a) (e_sensor b) then true else false)
  && (round_to 3 (e_lat a) =? round_to 3 (e_lat b)) && (round_to 3 (e_lon a) =? round_to 3 (e_lon b))
  && (round_to 2 (e_azimuth a) =? round_to 2 (e_azimuth b)) && (round_to 2 (e_dip a) =? round_to 2 (e_dip b)).

Definition run_subject : text := txt "mt.run.id".
(** 206, 213-216, 231-236, 241-246: the run id is added unless some comment has it as its value. *)
Definition with_run (id : text) (cs : list (text * text)) : list (text * text) :=
  if existsb (fun kv => text_eqb id (snd kv)) cs then cs else cs ++ [(run_subject, id)].
Definition listed (id : text) (e : epoch) : epoch :=
  mkEpoch (e_code e) (e_comp e) (e_rate e) (e_sensor e) (e_lat e) (e_lon e) (e_azimuth e) (e_dip e) (e_start e) (e_end e)
    (e_response e) (with_run id (e_comments e)).
(** 209-224. *)
Definition widen (id : text) (x e : epoch) : epoch :=
  mkEpoch (e_code e) (e_comp e) (e_rate e) (e_sensor e) (e_lat e) (e_lon e) (e_azimuth e) (e_dip e)
    (if e_start x <? e_start e then e_start x else e_start e) (if e_end e <? e_end x then e_end x else e_end e)
    (e_response e) (with_run id (e_comments e)).
(** 199-204: the first of the epochs with this code that start last; its place and its start. *)
Fixpoint latest (code : text) (l : list epoch) : option (nat * Z) :=
  match l with
  | [] => None
  | e :: r =>
      match latest code r with
      | None => if text_eqb code (e_code e) then Some (O, e_start e) else None
      | Some (k, s) => if text_eqb code (e_code e) && (s <=? e_start e) then Some (O, e_start e) else Some (S k, s)
      end
  end.
Fixpoint change (k : nat) (f : epoch -> epoch) (l : list epoch) : list epoch :=
  match l, k with
  | [], _ => []
  | e :: r, O => f e :: r
  | e :: r, S k => e :: change k f r
  end.
(** 197-246: one channel of a run. *)
Definition add_epoch (id : text) (x : epoch) (l : list epoch) : list epoch :=
  match latest (e_code x) l with
  | None => l ++ [listed id x]
  | Some (k, _) =>
      match nth_error l k with
      | Some e => if same_channel x e then change k (widen id x) l else l ++ [listed id x]
      | None => l
      end
  end.
(** 181-247 [add_run]; a run is its id and its channels. *)
Fixpoint add_channels (id : text) (cs : list channel) (l : list epoch) : result (list epoch) :=
  match cs with
  | [] => Ok l
  | c :: r => bindR (to_epoch c) (fun x => add_channels id r (add_epoch id x l))
  end.
(** 171-173: the runs of a station, as they are in it. *)
Fixpoint write_runs (rs : list (text * list channel)) (l : list epoch) : result (list epoch) :=
  match rs with
  | [] => Ok l
  | (id, cs) :: r => bindR (add_channels id cs l) (fun l => write_runs r l)
  end.

(** ** Reading *)
(** The runs of a channel: xml_channel_mt_channel.py 408-441, comments of which only the texts are runs. *)
Definition run_ids (cs : list (text * text)) : list string :=
  map (fun kv => string_of_list_ascii (snd kv)) (filter (fun kv => text_eqb (comment_key (Some (fst kv))) run_subject) cs).
(** xml_channel_mt_channel.py 102-110. *)
Definition kind_of_code (code : text) : result kind :=
  bindR (read_channel_code code) (fun i =>
  Ok (if text_eqb (i_measurement i) (txt "electric") then ContainerModel.Electric
      else if text_eqb (i_measurement i) (txt "magnetic") then ContainerModel.Magnetic else ContainerModel.Auxiliary)).

Section Read.
(** All that is read of a channel but its component and times. *)
Variable info : epoch -> string.
(** xml_channel_mt_channel.py 84-142: the component is that of the code (113) and then the alternate code (122-126). *)
Definition read_channel (e : epoch) : result chan :=
  bindR (kind_of_code (e_code e)) (fun k =>
  bindR (create_mt_component (e_code e)) (fun c =>
  bindR (make k (string_of_list_ascii c)) (fun ch =>
  bindR (match e_comp e with [] => Ok ch | a => make k (string_of_list_ascii a) end) (fun ch =>
  Ok (mkChan (ch_kind ch) (ch_comp ch) (mkPeriod (e_start e) (e_end e)) (info e)))))).

(** A station and the sample rates of its runs. *)
Definition rated : Type := station * dict Q.
Definition rate_of (rates : dict Q) (i : string) : Q := match sget i rates with Some q => q | None => 0%Q end.
(** xml_inventory_mt_experiment.py 83-91: one run of the list. *)
Definition put_in_run (ch : chan) (s : station) (i : string) : result station :=
  bindR (get_run s i) (fun o =>
  match o with
  | None => Err AttributeError
  | Some r => Ok (with_runs s (sset i (add_channel r (mkChan (ch_kind ch) (ch_comp ch) (r_period r) (ch_info ch)) true) (s_runs s)))
  end).
Fixpoint put_in_runs (ch : chan) (s : station) (ids : list string) : result station :=
  match ids with
  | [] => Ok s
  | i :: r => bindR (put_in_run ch s i) (fun s => put_in_runs ch s r)
  end.
(** 95-112: no list of runs.  The channel goes to the runs of its rate inside its times. *)
Definition fits (rates : dict Q) (rate : Q) (ch : chan) (r : run) : bool :=
  (Qeq_bool (rate_of rates (r_id r)) rate || Qeq_bool (rate_of rates (r_id r)) 0)
  && (p_start (ch_period ch) <=? p_start (r_period r)) && (p_end (r_period r) <=? p_end (ch_period ch)).
Definition append_channel (ch : chan) (r : run) : run := with_channels r (sset (ch_comp ch) ch (r_channels r)).
Definition match_runs (rate : Q) (ch : chan) (sr : rated) : rated :=
  let '(s, rates) := sr in
  (with_runs s (map (fun kr => if fits rates rate ch (snd kr) then (fst kr, append_channel ch (snd kr)) else kr) (s_runs s)),
   fold_left (fun d kr => if fits rates rate ch (snd kr) then sset (r_id (snd kr)) rate d else d) (s_runs s) rates).
(** 113-120: no runs either; [len(mt_station.runs)] is 0. *)
Definition new_run_of (rate : Q) (ch : chan) (sr : rated) : rated :=
  let '(s, rates) := sr in
  let r := append_channel ch (with_run_period (new_run "001") (ch_period ch)) in
  (with_runs s (sset "001" r (s_runs s)), sset "001"%string rate rates).
(** 75-120. *)
Definition read_one (sr : rated) (e : epoch) : result rated :=
  bindR (read_channel e) (fun ch =>
  match run_ids (e_comments e) with
  | [] => Ok (match s_runs (fst sr) with [] => new_run_of (e_rate e) ch sr | _ => match_runs (e_rate e) ch sr end)
  | ids => bindR (put_in_runs ch (fst sr) (sorted ids)) (fun s => Ok (s, snd sr))
  end).
Fixpoint read_epochs (sr : rated) (l : list epoch) : result rated :=
  match l with
  | [] => Ok sr
  | e :: r => bindR (read_one sr e) (fun sr => read_epochs sr r)
  end.
End Read.
