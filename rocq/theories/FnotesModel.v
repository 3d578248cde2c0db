(** Model of the runs of a station held by an EMTF XML object (mt_metadata/transfer_functions/io/emtfxml/emtfxml.py):
    the field notes and the site layout made from the runs (1396-1556, part of the setter of [station_metadata]), and the runs
    made from the field notes and the site layout (1039-1162, part of its getter).

    Only the attributes the two functions touch are kept.  Numbers are finite.  A time period is a pair of numbers.
    [add_channel] and [add_run] widen the period of the run and of the station (run.py 950-977, station.py 560-620): every channel
    is given the period of its run before it is added, so the period of the run stays as it is; the period of the station is not
    modelled here (ContainerModel.v).  A channel called hx, hy or hz is magnetic and one called ex or ey is electric (an
    [Auxiliary] may carry any name: not modelled). *)
From Coq Require Import QArith.
From Verif Require Import PyBase PyText ContainerModel CommentModel LayModel.
Local Open Scope nat_scope.
Local Open Scope list_scope.

(** common/instrument.py 12-80 *)
Record instr : Type := mkInstr { i_id : option text; i_name : option text; i_manu : option text; i_type : option text }.
(** common/location.py 85-125, 189-229: [x, y, z] or [x2, y2, z2] *)
Definition point : Type := (Q * Q * Q)%type.
Definition origin : point := (0, 0, 0)%Q.
(** timeseries/electrode.py *)
Record pot : Type := mkPot { p_id : option text; p_type : option text; p_manu : option text; p_at : point; p_at2 : point }.
(** timeseries/magnetic.py, electric.py, auxiliary.py *)
Inductive kind : Type :=
| KMag (sensor : instr) (at_ : point)
| KEle (length_ : Q) (plus minus : pot)
| KAux.
(** timeseries/channel.py 50-250 *)
Record channel : Type := mkChannel { c_kind : kind; c_azimuth : Q; c_translated : option Q; c_period : Z * Z }.
(** timeseries/run.py 40-250; the data logger has an id, a name, a manufacturer and a type *)
Record run : Type := mkRun { r_id : text; r_logger : instr; r_rate : Q; r_period : Z * Z; r_comment : comment;
                             r_chans : list (text * channel) }.

(** io/emtfxml/metadata/electrode.py 17-77 *)
Record fpot : Type := mkFpot { q_location : text; q_number : text; q_comment : comment }.
(** dipole.py 15-91 *)
Record dipole : Type := mkDipole { d_name : option text; d_azimuth : option Q; d_length : option Q; d_manu : option text;
                                   d_type : option text; d_pots : list fpot }.
(** io/emtfxml/metadata/run.py 20-160 *)
Record frun : Type := mkFrun { f_run : text; f_instr : instr; f_rate : option Q; f_period : Z * Z; f_comment : comment;
                               f_errors : option text; f_mags : list instr; f_dips : list dipole }.

Definition magnetics : list text := [txt "hx"; txt "hy"; txt "hz"].
Definition electrics : list text := [txt "ex"; txt "ey"].
(** [str.capitalize] *)
Definition capitalize (s : text) : text := match s with [] => [] | c :: r => to_upper c :: lower r end.
(** run.py 649-685 [get_channel]: [None] without an exception when there is no such channel *)
Definition get_channel (r : run) (c : text) : option channel := dget text_dec c (r_chans r).

Section Fnotes.
(** [read], [show]: the reading and writing of times by [Comment].  [other key value f]: [f.update_attribute(key, value)] for the
    keys not spelled out in [set_attr] (base/metadata.py 146-186).  [merge_chan], [merge_run]: [update] of a channel or of a run
    that is there already (base/metadata.py 1390-1470). *)
Variables (read : text -> option Z) (show : Z -> text) (other : text -> text -> frun -> result frun)
          (merge_chan : channel -> channel -> channel) (merge_run : run -> run -> run).

(** * Writing *)
(** base/metadata.py 146-186 [update_attribute] on the field notes of a run, for the keys the getter writes and for [run] *)
Definition set_attr (key v : text) (f : frun) : result frun :=
  if text_eqb key (txt "comments.author") then
    bindR (set_author read (Some v) (f_comment f)) (fun m =>
      Ok (mkFrun (f_run f) (f_instr f) (f_rate f) (f_period f) m (f_errors f) (f_mags f) (f_dips f)))
  else if text_eqb key (txt "comments.value") then
    bindR (set_value read (Some v) (f_comment f)) (fun m =>
      Ok (mkFrun (f_run f) (f_instr f) (f_rate f) (f_period f) m (f_errors f) (f_mags f) (f_dips f)))
  else if text_eqb key (txt "errors") then
    Ok (mkFrun (f_run f) (f_instr f) (f_rate f) (f_period f) (f_comment f) (Some v) (f_mags f) (f_dips f))
  else if text_eqb key (txt "run") then
    Ok (mkFrun v (f_instr f) (f_rate f) (f_period f) (f_comment f) (f_errors f) (f_mags f) (f_dips f))
  else other key v f.

(** 1417-1424: the parts of the comment with a colon *)
Fixpoint take_parts (parts : list text) (f : frun) : result frun :=
  match parts with
  | [] => Ok f
  | p :: rest =>
      match split1 ":" p with
      | (k, Some v) =>
          match set_attr (strip k) (strip v) f with
          | Ok f' => take_parts rest f'
          | Err _ => Err AttributeError
          end
      | (_, None) => take_parts rest f
      end
  end.
(** 1409-1424 *)
Definition take_comment (m : comment) (f : frun) : result frun :=
  match value m with
  | Some (c :: s) => take_parts (split_on ";" (c :: s)) f
  | _ => Ok f
  end.

(** 1437-1441 *)
Definition long_period (i : instr) : bool :=
  (match i_name i with Some n => existsb (text_eqb n) [txt "NIMS"; txt "LEMI"] | None => false end
   && match i_type i with Some t => text_eqb t (txt "fluxgate") | None => false end)%bool.
(** 1426-1446 *)
Fixpoint write_mags (comps : list text) (r : run) : list instr :=
  match comps with
  | [] => []
  | c :: rest =>
      match get_channel r c with
      | Some (mkChannel (KMag s _) _ _ _) =>
          mkInstr (i_id s) (Some c) (i_manu s) (i_type s) :: (if long_period s then [] else write_mags rest r)
      | _ => write_mags rest r
      end
  end.

(** 1457-1468: an electrode.  [number] is a [str] and [comments] a [Comment]: [None] is refused by pydantic. *)
Definition write_pot (location : text) (number type : option text) : result fpot :=
  match number, type with
  | Some n, Some t => bindR (from_text read t) (fun m => Ok (mkFpot location n m))
  | _, _ => Err ValueError
  end.
(** 1448-1473; the second electrode is given the type of the first (1467) *)
Fixpoint write_dips (comps : list text) (r : run) : result (list dipole) :=
  match comps with
  | [] => Ok []
  | c :: rest =>
      match get_channel r c with
      | Some (mkChannel (KEle len plus minus) _ trans _) =>
          let x := text_eqb c (txt "ex") in
          bindR (write_pot (txt (if x then "N" else "E")) (p_id plus) (p_type plus)) (fun p =>
          bindR (write_pot (txt (if x then "S" else "W")) (p_id minus) (p_type plus)) (fun m =>
          bindR (write_dips rest r) (fun l =>
            Ok (mkDipole (Some (capitalize c)) trans (Some len) (p_manu plus) (Some (txt "wire")) [p; m] :: l))))
      | _ => write_dips rest r
      end
  end.

(** 1398-1475: the field notes of a run *)
Definition write_run (r : run) : result frun :=
  let l := r_logger r in
  bindR (take_comment (r_comment r)
           (mkFrun (r_id r) (mkInstr (i_id l) (i_type l) (i_manu l) (Some [])) (Some (r_rate r)) (r_period r)
              (mkComment None default_time None) None [] [])) (fun f =>
  bindR (write_dips electrics r) (fun d =>
    Ok (mkFrun (f_run f) (f_instr f) (f_rate f) (f_period f) (f_comment f) (f_errors f)
          (f_mags f ++ write_mags magnetics r) (f_dips f ++ d)))).

(** 1489-1492, 1521-1524 *)
Definition orientation (c : channel) : Q := match c_translated c with Some q => q | None => c_azimuth c end.
(** 1477-1500: hx and hy are input channels, hz an output channel *)
Definition place_mag (r : run) (io : list (text * chan) * list (text * chan)) (c : text) : list (text * chan) * list (text * chan) :=
  match get_channel r c with
  | Some (mkChannel (KMag s (x, y, z)) a t p) =>
      let m := Mag (capitalize c) (orientation (mkChannel (KMag s (x, y, z)) a t p)) x y z in
      if existsb (text_eqb c) [txt "hx"; txt "hy"] then (dset text_dec c m (fst io), snd io)
      else (fst io, dset text_dec c m (snd io))
  | _ => io
  end.
(** 1502-1541 *)
Definition at_origin (x y x2 y2 : Q) : bool := (Qeq_bool x 0 && Qeq_bool y 0 && Qeq_bool x2 0 && Qeq_bool y2 0)%bool.
Definition place_ele (r : run) (io : list (text * chan) * list (text * chan)) (c : text) : list (text * chan) * list (text * chan) :=
  match get_channel r c with
  | Some (mkChannel (KEle len plus minus) a t p) =>
      let '(x, y, z) := p_at minus in
      let '(x2, y2, z2) := p_at2 plus in
      let o := orientation (mkChannel (KEle len plus minus) a t p) in
      let e :=
        if at_origin x y x2 y2 then
          if text_eqb c (txt "ex") then Ele (capitalize c) o x y z len y2 z2
          else Ele (capitalize c) o x y z x2 len z2
        else Ele (capitalize c) o x y z x2 y2 z2 in
      (fst io, dset text_dec c e (snd io))
  | _ => io
  end.
Definition place_run (io : list (text * chan) * list (text * chan)) (r : run) : list (text * chan) * list (text * chan) :=
  fold_left (place_ele r) electrics (fold_left (place_mag r) magnetics io).

(** 1394-1544 *)
Definition write (s : list run) : result (list frun * layout) :=
  bindR (mapR write_run s) (fun fs =>
    let io := fold_left place_run s ([], []) in
    Ok (fs, mkLayout (map snd (fst io)) (map snd (snd io)))).

(** * Reading *)
(** [s not in [None, ""]] *)
Definition given (o : option text) : list text := match o with Some (c :: s) => [c :: s] | _ => [] end.
(** 1049-1056 *)
Definition comment_pieces (f : frun) : list text :=
  map (app (txt "comments.author:")) (given (author (f_comment f))) ++
  map (app (txt "comments.value:")) (given (value (f_comment f))) ++
  map (app (txt "errors:")) (given (f_errors f)).

(** timeseries/magnetic.py 20 and electric.py 20: the pattern of the name of a channel, already in lower case *)
Definition word (c : ascii) : bool := (is_alpha c || is_digit c || Ascii.eqb c "_")%bool.
Definition named (first : list ascii) (s : text) : bool :=
  match s with c :: r => existsb (Ascii.eqb c) first && forallb word r | [] => false end.

(** run.py 768-780 *)
Definition add_channel (chans : list (text * channel)) (c : text) (x : channel) : list (text * channel) :=
  match dget text_dec c chans with
  | Some y => dset text_dec c (merge_chan y x) chans
  | None => dset text_dec c x chans
  end.
Definition new_mag (i : instr) (p : Z * Z) : channel := mkChannel (KMag i origin) 0%Q None p.

(** 1059-1072: one magnetometer stands for three channels *)
Definition read_one_mag (i : instr) (p : Z * Z) (chans : list (text * channel)) : list (text * channel) :=
  fold_left (fun cs c => add_channel cs c (new_mag (mkInstr (i_id i) (i_name i) (i_manu i) (i_type i)) p)) magnetics chans.
(** 1074-1088 *)
Fixpoint read_mags (l : list instr) (p : Z * Z) (chans : list (text * channel)) : result (list (text * channel)) :=
  match l with
  | [] => Ok chans
  | i :: rest =>
      match i_name i with
      | None => read_mags rest p chans
      | Some n =>
          if named ["h"; "b"; "r"]%char (lower n) then
            read_mags rest p (add_channel chans (lower n) (new_mag (mkInstr (i_id i) (i_name i) (i_manu i) (i_type i)) p))
          else Err ValueError
      end
  end.

Definition new_pot : pot := mkPot (Some []) (Some []) (Some []) origin origin.
(** 1098-1110 *)
Definition read_pot (m : option text) (pn : pot * pot) (q : fpot) : pot * pot :=
  let p := mkPot (Some (q_number q)) (Some (as_string show (q_comment q))) m in
  let l := lower (q_location q) in
  if existsb (text_eqb l) [txt "n"; txt "e"] then (p (p_at (fst pn)) (p_at2 (fst pn)), snd pn)
  else if existsb (text_eqb l) [txt "s"; txt "w"] then (fst pn, p (p_at (snd pn)) (p_at2 (snd pn)))
  else pn.
(** 1090-1113; [dipole_length] is a number *)
Fixpoint read_dips (l : list dipole) (p : Z * Z) (chans : list (text * channel)) : result (list (text * channel)) :=
  match l with
  | [] => Ok chans
  | d :: rest =>
      match d_name d with
      | None => read_dips rest p chans
      | Some n =>
          if named ["e"]%char (lower n) then
            match d_length d with
            | None => Err ValueError
            | Some len =>
                let pn := fold_left (read_pot (d_manu d)) (d_pots d) (new_pot, new_pot) in
                read_dips rest p (add_channel chans (lower n) (mkChannel (KEle len (fst pn) (snd pn)) 0%Q (d_azimuth d) p))
            end
          else Err ValueError
      end
  end.

(** 1128-1142: the position of a channel of the site layout *)
Definition put_position (n : text) (h : chan) (k : kind) : result kind :=
  if existsb (text_eqb n) magnetics then
    match k, h with
    | KMag s _, Mag _ _ x y z => Ok (KMag s (x, y, z))
    | KMag s _, Ele _ _ x y z _ _ _ => Ok (KMag s (x, y, z))
    | _, _ => Err AttributeError
    end
  else if existsb (text_eqb n) electrics then
    match k, h with
    | KEle len p m, Ele _ _ x y z x2 y2 z2 =>
        Ok (KEle len (mkPot (p_id p) (p_type p) (p_manu p) (p_at p) (x2, y2, z2))
                     (mkPot (p_id m) (p_type m) (p_manu m) (x, y, z) (p_at2 m)))
    | _, _ => Err AttributeError
    end
  else Ok k.
Definition azimuth_of (h : chan) : Q := match h with Mag _ o _ _ _ => o | Ele _ o _ _ _ _ _ _ => o end.
(** 1115-1147.  [get_channel] gives [None] for a channel the run does not have: the branch 1120-1126 for an [AttributeError] is
    never taken, and [c.component] on [None] raises one. *)
Fixpoint read_places (hs : list chan) (p : Z * Z) (chans : list (text * channel)) : result (list (text * channel)) :=
  match hs with
  | [] => Ok chans
  | h :: rest =>
      let n := lower (name_of h) in
      match dget text_dec n chans with
      | None => Err AttributeError
      | Some c =>
          bindR (put_position n h (c_kind c)) (fun k =>
            read_places rest p (dset text_dec n (mkChannel k (azimuth_of h) (Some (azimuth_of h)) p) chans))
      end
  end.

(** 1042-1147 *)
Definition read_run (lay : layout) (f : frun) (rate : Q) : result run :=
  bindR (from_text read (join (txt "; ") (comment_pieces f))) (fun m =>
  bindR (match f_mags f with
         | [i] => Ok (read_one_mag i (f_period f) [])
         | l => read_mags l (f_period f) []
         end) (fun cs =>
  bindR (read_dips (f_dips f) (f_period f) cs) (fun cs' =>
  bindR (read_places (l_in lay ++ l_out lay) (f_period f) cs') (fun cs'' =>
    Ok (mkRun (f_run f) (mkInstr (i_id (f_instr f)) None (i_manu (f_instr f)) (i_name (f_instr f))) rate (f_period f) m cs''))))).

(** station.py 463-486 *)
Fixpoint add_run (l : list run) (r : run) : list run :=
  match l with
  | [] => [r]
  | x :: rest => if text_eqb (r_id x) (r_id r) then merge_run x r :: rest else x :: add_run rest r
  end.

(** 1039-1041, 1148 *)
Fixpoint read_runs (lay : layout) (fs : list frun) (acc : list run) : result (list run) :=
  match fs with
  | [] => Ok acc
  | f :: rest =>
      match f_rate f with
      | None => read_runs lay rest acc
      | Some q => if Qeq_bool q 0 then read_runs lay rest acc
                  else bindR (read_run lay f q) (fun r => read_runs lay rest (add_run acc r))
      end
  end.

(** 1150-1166: without field notes, a run of its own; [no_tipper] is [(self.data.t == 0).all()] *)
Definition default_run (site : text) (no_tipper : bool) (period : Z * Z) (lay : layout) : result run :=
  let p0 := (default_time, default_time) in
  let e := mkChannel (KEle 0%Q new_pot new_pot) 0%Q None p0 in
  let h := mkChannel (KMag (mkInstr (Some []) None (Some []) (Some [])) origin) 0%Q None p0 in
  let chans := map (fun c => (c, e)) electrics ++ map (fun c => (c, h)) (if no_tipper then [txt "hx"; txt "hy"] else magnetics) in
  bindR (read_places (l_in lay ++ l_out lay) period chans) (fun cs =>
    Ok (mkRun (site ++ txt "a") (mkInstr (Some []) None (Some []) (Some [])) 0%Q p0 (mkComment None default_time None) cs)).

Definition read_station (site : text) (no_tipper : bool) (period : Z * Z) (o : list frun * layout) : result (list run) :=
  match fst o with
  | [] => bindR (default_run site no_tipper period (snd o)) (fun r => Ok [r])
  | fs => read_runs (snd o) fs []
  end.
End Fnotes.
