(** Specification for C84 and C99: the channels of a station in StationXML. *)
From Coq Require Import QArith Qabs.
From Verif Require Import PyBase PyText ContainerModel ContainerSpec EpochModel.
Local Open Scope Z_scope.

(** A run is an id and its channels. *)
Definition run_of : Type := text * list channel.
Definition channel_of (rs : list run_of) (id : text) (c : channel) : Prop := exists cs, In (id, cs) rs /\ In c cs.
(** Two numbers that are written the same with that many units: both within half a unit of the same one. *)
Definition close (units : Z) (a b : Q) : Prop :=
  exists n, (Qabs (a * inject_Z units - inject_Z n) <= 1 # 2)%Q /\ (Qabs (b * inject_Z units - inject_Z n) <= 1 # 2)%Q.
(** The same direction, from 0 to 360 degrees. *)
Definition turned (a b : Q) : Prop := (0 <= b)%Q /\ (b < 360)%Q /\ exists k : Z, (b == a + inject_Z (360 * k))%Q.
(** The channel an epoch is about: same code, sample rate and instrument, same position to three decimals and same
    angles to two. *)
Definition about (c : channel) (e : epoch) : Prop :=
  channel_code c = Ok (e_code e) /\ (mc_rate c == e_rate e)%Q /\ mc_sensor c = e_sensor e /\
  close 1000 (mc_lat c) (e_lat e) /\ close 1000 (mc_lon c) (e_lon e) /\
  (exists a, turned (mc_azimuth c) a /\ close 100 a (e_azimuth e)) /\ (exists a, turned (mc_tilt c) a /\ close 100 a (e_dip e)).
Definition lists_run (e : epoch) (id : text) : Prop := In (txt "mt.run.id", id) (e_comments e).
Definition in_time (c : channel) (e : epoch) : Prop := e_start e <= mc_start c /\ mc_end c <= e_end e.
(** No comment of a channel, but a list of runs, is the id of a run. *)
Definition plain (rs : list run_of) : Prop :=
  forall id c k i, channel_of rs id c -> In (k, i) (mc_comments c) -> In i (map fst rs) -> k = txt "mt.run.id".
(** All the channels in order. *)
Definition all_channels (rs : list run_of) : list channel := flat_map snd rs.
(** Runs in the order of time: a channel ends before the next one with the same code starts. *)
Definition in_order (rs : list run_of) : Prop :=
  Forall (fun c => mc_start c < mc_end c) (all_channels rs) /\
  ForallOrdPairs (fun a b => channel_code a = channel_code b -> mc_end a <= mc_start b) (all_channels rs).
(** Epochs of the same code follow each other in time. *)
Definition one_at_a_time (l : list epoch) : Prop :=
  ForallOrdPairs (fun e f => e_code e = e_code f -> e_end e <= e_start f) l.
(** Next to each other among the epochs of their code. *)
Definition next_to (l : list epoch) (e f : epoch) : Prop :=
  exists a b d, l = (a ++ e :: b ++ f :: d)%list /\ e_code e = e_code f /\ Forall (fun g => e_code g <> e_code e) b.
Definition no_change (e f : epoch) : Prop :=
  (e_rate e == e_rate f)%Q /\ e_sensor e = e_sensor f /\ (e_lat e == e_lat f)%Q /\ (e_lon e == e_lon f)%Q /\
  (e_azimuth e == e_azimuth f)%Q /\ (e_dip e == e_dip f)%Q.

(** Reading: stations whose runs have no channels yet, under their own ids. *)
Definition str (s : text) : string := string_of_list_ascii s.
Definition waiting (s : station) (ids : list string) : Prop :=
  runs_ok (s_runs s) /\ s_run_list s = dkeys (s_runs s) /\ dkeys (s_runs s) = ids /\
  forall i r, In (i, r) (s_runs s) -> r_channels r = [].
(** Channels that StationXML can hold: electric, magnetic or temperature, with a component in lower case that fits
    their type. *)
Definition kind_of_type (t : text) : option kind :=
  if text_eqb t (txt "electric") then Some ContainerModel.Electric
  else if text_eqb t (txt "magnetic") then Some ContainerModel.Magnetic
  else if text_eqb t (txt "temperature") then Some ContainerModel.Auxiliary else None.
Definition known_channel (c : channel) : Prop :=
  exists k, kind_of_type (mc_type c) = Some k /\ pattern k (str (mc_comp c)) = true /\ lower (mc_comp c) = mc_comp c.
(** No comment of a channel is about runs or is the id of a run. *)
Definition no_run_comments (rs : list run_of) : Prop :=
  forall id c k i, channel_of rs id c -> In (k, i) (mc_comments c) ->
    ~ In i (map fst rs) /\ lower (replace_char " " (txt "_") (strip k)) <> txt "mt.run.id".
(** The code of a channel tells its component. *)
Definition codes_tell (rs : list run_of) : Prop :=
  forall i c j d, channel_of rs i c -> channel_of rs j d -> channel_code c = channel_code d -> mc_comp c = mc_comp d.
Definition apart_in_run (rs : list run_of) : Prop :=
  NoDup (map fst rs) /\ forall id cs, In (id, cs) rs -> NoDup (map mc_comp cs).
