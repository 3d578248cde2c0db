(** What the key=value lines and the DEFINEMEAS section of EDI files are expected to say. *)
From Coq Require Import Qabs.
From Verif Require Import PyBase PyText PyNum PyFloat EdiMetaModel.
Local Open Scope list_scope.

(** White space, and a word: not empty, without white space and without "=". *)
Definition blank (s : text) : Prop := forall c, In c s -> is_space c = true.
Definition eword (s : text) : Prop := s <> [] /\ forall c, In c s -> is_space c = false /\ c <> "="%char.
Definition starts_blank (s : text) : Prop := s = [] \/ exists c r, s = c :: r /\ is_space c = true.
(** A line of pairs key = value with any white space around "=" and some between the pairs. *)
Inductive line_of : list (text * text) -> text -> Prop :=
| line_end s : blank s -> line_of [] s
| line_pair b1 k b2 b3 v rest kvs : blank b1 -> eword k -> blank b2 -> blank b3 -> eword v -> line_of kvs rest -> starts_blank rest ->
    line_of ((k, v) :: kvs) (b1 ++ k ++ b2 ++ "="%char :: b3 ++ v ++ rest).
(** The text does not contain [p]. *)
Definition without (p s : text) : Prop := forall a b, s <> a ++ p ++ b.
(** A line, with or without a comment after "//". *)
Inductive commented (line : text) : text -> Prop :=
| no_comment : without (txt "//") line -> commented line line
| a_comment c : without (txt "//") (line ++ txt "/") -> commented line (line ++ txt "//" ++ c).
(** "key=value" *)
Definition pair_text (kv : text * text) : text := fst kv ++ "="%char :: snd kv.

(** A line of words separated by white space or "=". *)
Definition gap_char (c : ascii) : Prop := is_space c = true \/ c = "="%char.
Inductive words_of : list text -> text -> Prop :=
| words_end s : (forall c, In c s -> gap_char c) -> words_of [] s
| words_word g w rest ws : (forall c, In c g -> gap_char c) -> eword w -> words_of ws rest ->
    (rest = [] \/ exists c r, rest = c :: r /\ gap_char c) -> words_of (w :: ws) (g ++ w ++ rest).

(** Measurements: [q'] is [q] rounded to two decimals. *)
Definition hundredths (q q' : Q) : Prop := (exists n : Z, q' == n # 100)%Q /\ (Qabs (q' - q) <= 1 # 200)%Q.
(** What becomes of a measurement in the file: id, channel type and acquisition channel are kept, the rest is rounded; a dipole without
    azimuth gets the one of its electrodes. *)
Definition same_h (h h' : hmeas) : Prop :=
  (h_id h' == h_id h)%Q /\ h_chtype h' = h_chtype h /\ hundredths (h_x h) (h_x h') /\ hundredths (h_y h) (h_y h') /\
  hundredths (h_z h) (h_z h') /\ hundredths (h_azm h) (h_azm h') /\ hundredths (h_dip h) (h_dip h') /\ h_acqchan h' = h_acqchan h.
Definition same_e (azimuth : Q -> Q -> Q -> Q -> Q) (e e' : emeas) : Prop :=
  (e_id e' == e_id e)%Q /\ e_chtype e' = e_chtype e /\ hundredths (e_x e) (e_x e') /\ hundredths (e_y e) (e_y e') /\
  hundredths (e_z e) (e_z e') /\ hundredths (e_x2 e) (e_x2 e') /\ hundredths (e_y2 e) (e_y2 e') /\ hundredths (e_z2 e) (e_z2 e') /\
  (exists a, hundredths (e_azm e) a /\ (~ (a == 0)%Q -> e_azm e' = a) /\
             ((a == 0)%Q -> e_azm e' = azimuth (e_x e') (e_y e') (e_x2 e') (e_y2 e'))) /\
  e_acqchan e' = e_acqchan e.
Definition same_meas (azimuth : Q -> Q -> Q -> Q -> Q) (m m' : meas) : Prop :=
  match m, m' with
  | MH h, MH h' => same_h h h'
  | ME e, ME e' => same_e azimuth e e'
  | _, _ => False
  end.

(** The lines of a text, each with its newline. *)
Definition nl : ascii := "010"%char.
Fixpoint readlines_from (cur s : text) : list text :=
  match s with
  | [] => match cur with [] => [] | _ => [rev cur] end
  | c :: r => if Ascii.eqb c nl then rev (c :: cur) :: readlines_from [] r else readlines_from (c :: cur) r
  end.
Definition readlines (s : text) : list text := readlines_from [] s.

(** Measurements that can be written: the id is a decimal number, the acquisition channel is a word without the marks of the format. *)
Definition mark (c : ascii) : Prop := In c [">"; "!"; "'"; "034"; "["; "]"]%char.
Definition good_acqchan (s : text) : Prop := eword s /\ (forall c, In c s -> ~ mark c) /\ without (txt "//") s.
Definition is_decimal (q : Q) : Prop := exists (m e : Z), (q == inject_Z m * Qpower (10 # 1) e)%Q.
(** A channel type: h or b, e, or rr, followed by letters, digits and "_"; what is read depends on the letters h and e in it. *)
Definition letters (s : text) : Prop := s <> [] /\ forall c, In c s -> (is_alpha c || is_digit c || Ascii.eqb c "_")%bool = true.
Definition h_type (s : text) : Prop :=
  exists p r, s = p ++ r /\ In p [txt "h"; txt "H"; txt "b"; txt "B"; txt "rr"; txt "RR"] /\ letters r.
Definition e_type (s : text) : Prop := exists p r, s = p ++ r /\ In p [txt "e"; txt "E"; txt "rr"; txt "RR"] /\ letters r.
Definition good_meas (m : meas) : Prop :=
  match m with
  | MH h => is_decimal (h_id h) /\ h_type (h_chtype h) /\ (In "h"%char (h_chtype h) \/ In "H"%char (h_chtype h)) /\ good_acqchan (h_acqchan h)
  | ME e => is_decimal (e_id e) /\ e_type (e_chtype e) /\ ~ In "h"%char (e_chtype e) /\ ~ In "H"%char (e_chtype e) /\
            (In "e"%char (e_chtype e) \/ In "E"%char (e_chtype e)) /\ good_acqchan (e_acqchan e)
  end.
Definition meas_chtype (m : meas) : text := match m with MH h => h_chtype h | ME e => e_chtype e end.

(** The lines of the section before the measurements: key, text and what is assigned. *)
Inductive attr_of : text -> text -> mattr -> Prop :=
| attr_chan n : attr_of (txt "maxchan") (show_int n) (AInt (txt "maxchan") n)
| attr_run n : attr_of (txt "maxrun") (show_int n) (AInt (txt "maxrun") n)
| attr_meas n : attr_of (txt "maxmeas") (show_int n) (AInt (txt "maxmeas") n)
| attr_long v : attr_of (txt "reflong") v (AText (txt "reflon") (strip v))
| attr_text k v : In k [txt "refloc"; txt "reflat"; txt "reflon"; txt "refelev"; txt "reftype"; txt "units"] -> attr_of k v (AText k (strip v)).
Definition good_value (v : text) : Prop := forall c, In c v -> c <> "="%char /\ c <> nl /\ ~ mark c.
Inductive attrs_of : list (text * option text) -> list mattr -> Prop :=
| attrs_end : attrs_of [] []
| attrs_none k ks l : attrs_of ks l -> attrs_of ((k, None) :: ks) l
| attrs_some k v a ks l : attr_of k v a -> good_value v -> attrs_of ks l -> attrs_of ((k, Some v) :: ks) (a :: l).

(** Writing gives a measurement without id the number [n], and one whose acquisition channel is "0" some other text. *)
Definition may_number (m m1 : meas) : Prop :=
  let same_id i i1 := (~ (i == 0)%Q -> i1 = i) /\ ((i == 0)%Q -> exists n : Z, (0 < n)%Z /\ i1 = inject_Z n) in
  let same_acq a a1 := a <> txt "0" -> a1 = a in
  match m, m1 with
  | MH h, MH h1 => same_id (h_id h) (h_id h1) /\ same_acq (h_acqchan h) (h_acqchan h1) /\
      h1 = mkH (h_id h1) (h_chtype h) (h_x h) (h_y h) (h_z h) (h_azm h) (h_dip h) (h_acqchan h1)
  | ME e, ME e1 => same_id (e_id e) (e_id e1) /\ same_acq (e_acqchan e) (e_acqchan e1) /\
      e1 = mkE (e_id e1) (e_chtype e) (e_x e) (e_y e) (e_z e) (e_x2 e) (e_y2 e) (e_z2 e) (e_azm e) (e_acqchan e1)
  | _, _ => False
  end.
(** Lines before and after the section: the ones before do not start it, the ones after are blank until a line with ">=" that does not. *)
Definition starts_section (line : text) : Prop := contains (txt ">=") line = true /\ contains (txt "definemeas") (lower line) = true.
Inductive after_section : list text -> Prop :=
| after_nothing : after_section []
| after_blank l ls : blank l -> after_section ls -> after_section (l :: ls)
| after_other l ls : contains (txt ">=") l = true -> ~ starts_section l -> after_section (l :: ls).
