(** What an EMTF XML object keeps of the runs of a station, without the functions of FnotesModel.v that write and read them. *)
From Coq Require Import QArith.
From Verif Require Import PyBase PyText ContainerModel CommentModel FnotesModel.
Local Open Scope list_scope.

Definition three : list text := [txt "hx"; txt "hy"; txt "hz"].
Definition two : list text := [txt "ex"; txt "ey"].
Definition channel_of (r : run) (c : text) : option channel := dget text_dec c (r_chans r).
Definition is_magnetic (x : channel) : Prop := exists s a, c_kind x = KMag s a.
Definition is_electric (x : channel) : Prop := exists l p m, c_kind x = KEle l p m.

(** The channel [c] of the last run that has one: the site layout has one entry for a channel, for all runs. *)
Fixpoint last_channel (s : list run) (c : text) : option channel :=
  match s with
  | [] => None
  | r :: rest => match last_channel rest c with Some x => Some x | None => channel_of r c end
  end.

(** The direction of a channel: the translated azimuth if there is one, else the measured azimuth. *)
Definition direction (x : channel) : Q := match c_translated x with Some q => q | None => c_azimuth x end.

(** The position the layout has for a channel: of a sensor, or of the negative electrode; and of the positive electrode.  A dipole
    with both ends at the station is laid along its axis. *)
Definition first_end (x : channel) : point :=
  match c_kind x with KMag _ a => a | KEle _ _ m => p_at m | KAux => (0, 0, 0)%Q end.
Definition second_end (c : text) (x : channel) : point :=
  match c_kind x with
  | KEle len p m =>
      let '(mx, my, _) := p_at m in
      let '(px, py, pz) := p_at2 p in
      if (Qeq_bool mx 0 && Qeq_bool my 0 && Qeq_bool px 0 && Qeq_bool py 0)%bool
      then (if text_eqb c (txt "ex") then (len, py, pz) else (px, len, pz))
      else (px, py, pz)
  | _ => (0, 0, 0)%Q
  end.

(** The sensors in the field notes of a run.  Nothing is noted after a NIMS or LEMI fluxgate. *)
Definition is_long_period (i : instr) : bool :=
  match i_name i, i_type i with
  | Some n, Some t => ((text_eqb n (txt "NIMS") || text_eqb n (txt "LEMI")) && text_eqb t (txt "fluxgate"))%bool
  | _, _ => false
  end.
Fixpoint sensors (comps : list text) (r : run) : list (text * instr) :=
  match comps with
  | [] => []
  | c :: rest =>
      match channel_of r c with
      | Some x =>
          match c_kind x with
          | KMag i _ => (c, mkInstr (i_id i) (Some c) (i_manu i) (i_type i)) :: (if is_long_period i then [] else sensors rest r)
          | _ => sensors rest r
          end
      | None => sensors rest r
      end
  end.
(** A single sensor is read as that of three channels. *)
Definition sensors_back (r : run) : list (text * instr) :=
  match sensors three r with
  | [(_, i)] => map (fun c => (c, i)) three
  | l => l
  end.
Definition dipoles (r : run) : list text := filter (fun c => match channel_of r c with Some _ => true | None => false end) two.
Definition names_back (r : run) : list text := map fst (sensors_back r) ++ dipoles r.

(** A magnetic channel as it comes back: its place and its direction are those of the layout. *)
Definition mag_back (s : list run) (r : run) (ci : text * instr) : text * channel :=
  (fst ci,
   match last_channel s (fst ci) with
   | Some x => mkChannel (KMag (snd ci) (first_end x)) (direction x) (Some (direction x)) (r_period r)
   | None => mkChannel (KMag (snd ci) (0, 0, 0)%Q) 0%Q None (r_period r)
   end).
(** An electric channel as it comes back: the numbers of its electrodes and its length are those of the run; type and manufacturer
    are those of the positive electrode. *)
Definition ele_back (s : list run) (r : run) (c : text) : text * channel :=
  (c,
   match channel_of r c, last_channel s c with
   | Some (mkChannel (KEle len p m) _ _ _), Some x =>
       mkChannel (KEle len (mkPot (p_id p) (p_type p) (p_manu p) (0, 0, 0)%Q (second_end c x))
                           (mkPot (p_id m) (p_type p) (p_manu p) (first_end x) (0, 0, 0)%Q))
         (direction x) (Some (direction x)) (r_period r)
   | _, _ => mkChannel KAux 0%Q None (r_period r)
   end).
(** What is left of the remark of a run: a text without a colon is dropped. *)
Definition remark_back (m : comment) : text :=
  match value m with Some v => if has_char ":" v then v else [] | None => [] end.
Definition back (s : list run) (r : run) : run :=
  mkRun (r_id r) (mkInstr (i_id (r_logger r)) None (i_manu (r_logger r)) (i_type (r_logger r))) (r_rate r) (r_period r)
    (mkComment None default_time (Some (remark_back (r_comment r))))
    (map (mag_back s r) (sensors_back r) ++ map (ele_back s r) (dipoles r)).

(** The runs that are read: those with a sample rate. *)
Definition kept (s : list run) : list run := filter (fun r => negb (Qeq_bool (r_rate r) 0)) s.
(** Every channel of the layout is one of every run that is read. *)
Definition covered (s : list run) : bool :=
  forallb (fun r => forallb (fun c => match last_channel s c with
                                      | Some _ => existsb (text_eqb c) (names_back r)
                                      | None => true
                                      end) (three ++ two)) (kept s).

(** Remarks that are written: no colon at all, or the three labelled parts that reading makes. *)
Definition part_ok (p : option text) : Prop :=
  match p with None => True | Some p => p <> [] /\ strip p = p /\ ~ In ";"%char p /\ ~ In "|"%char p end.
Definition labelled (l : text) (p : option text) : list text := match p with Some p => [l ++ p] | None => [] end.
Definition remark_ok (m : comment) : Prop :=
  (forall v, value m = Some v -> ~ In ":"%char v) \/
  exists a v e, part_ok a /\ part_ok v /\ part_ok e /\
    value m = Some (join (txt "; ") (labelled (txt "comments.author:") a ++ labelled (txt "comments.value:") v ++ labelled (txt "errors:") e)).

(** An electrode that can be noted. *)
Definition pots_ok (x : channel) : Prop :=
  forall len p m, c_kind x = KEle len p m ->
    (exists n, p_id p = Some n) /\ (exists n, p_id m = Some n) /\ exists t, p_type p = Some t /\ ~ In "|"%char t.
Definition run_ok (r : run) : Prop :=
  (forall c x, In c three -> channel_of r c = Some x -> is_magnetic x) /\
  (forall c x, In c two -> channel_of r c = Some x -> is_electric x /\ pots_ok x) /\
  remark_ok (r_comment r).
Definition station_ok (s : list run) : Prop := NoDup (map r_id s) /\ Forall run_ok s.

(** A run with one sensor only in its field notes. *)
Definition one_sensor (r : run) : Prop := exists ci, sensors three r = [ci].
