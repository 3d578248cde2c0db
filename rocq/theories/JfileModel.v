(** Model of J-files: /repo/mt_metadata/transfer_functions/io/jfiles/jfile.py 129-155 (_validate_j_file), 157-327 (read) and
    /repo/mt_metadata/transfer_functions/io/jfiles/metadata/header.py 99-159 (_read_header_line), 207-229 (read_metadata). *)
From Verif Require Import PyBase PyText PyNum IsoModel PyFloat PySci PyRepr.
Local Open Scope list_scope.

(** A float with its special values. *)
Inductive xnum : Type := XFin (q : Q) | XInf (neg : bool) | XNan.
(** [float(s)]: the words "nan", "inf" and "infinity" with a sign. *)
Definition read_x (s : text) : option xnum :=
  match read_float s with
  | Some (Fin q) => Some (XFin q)
  | Some NonFinite => if contains (txt "nan") (lower s) then Some XNan else Some (XInf (has_char "-"%char s))
  | None => None
  end.
(** [str(x)] *)
Definition show_x (x : xnum) : text :=
  match x with XFin q => show_float q | XInf false => txt "inf" | XInf true => txt "-inf" | XNan => txt "nan" end.

(** jfile.py 243-257: a masked number or a word that is no number is written as zero. *)
Definition masked (x : xnum) : bool := match x with XFin q => Qeq_bool q (-999 # 1) | XInf _ => false | XNan => true end.
Definition clean_word (w : text) : text :=
  match read_x w with
  | Some x => if masked x then txt "0.0" else show_x x
  | None => txt "0.0"
  end.
(** Components and their places. *)
Inductive comp : Type := Zxx | Zxy | Zyx | Zyy | Tzx | Tzy.
Definition comp_dec (a b : comp) : {a = b} + {a <> b}.
Proof. decide equality. Defined.
Definition comp_name (c : comp) : text :=
  match c with Zxx => txt "zxx" | Zxy => txt "zxy" | Zyx => txt "zyx" | Zyy => txt "zyy" | Tzx => txt "tzx" | Tzy => txt "tzy" end.
Definition z_comps : list comp := [Zxx; Zxy; Zyx; Zyy].
Definition t_comps : list comp := [Tzx; Tzy].
Definition comp_of (w : text) : option comp := List.find (fun c => text_eqb (comp_name c) w) (z_comps ++ t_comps).
(** z_dict and t_dict: for each component a dictionary from the text of the period to the three texts. *)
Definition jdict : Type := comp -> list (text * list text).
Definition jset (c : comp) (k : text) (v : list text) (d : jdict) : jdict := fun c' => if comp_dec c' c then dset text_dec k v (d c') else d c'.
(** jfile.py 220-264.  The state is the current key ([d_key], if it is the name of a component) and the dictionaries. *)
Inductive line_kind : Type := LHeader (w : text) | LSkip | LStop | LRow (ws : list text).
Definition kind_of (line : text) : line_kind :=
  let ws := split_ws (strip line) in
  let low := lower line in
  match ws with
  | w :: _ =>
      if (prefix_of (txt "z") (lower w) || prefix_of (txt "t") (lower w))%bool then LHeader (lower w)
      else if (Nat.eqb (List.length ws) 1 && negb (has_char "r"%char low))%bool then LSkip
      else if has_char "r"%char low then LStop else LRow ws
  | [] => if has_char "r"%char low then LStop else LRow []
  end.
Fixpoint read_lines (key : option comp) (d : jdict) (lines : list text) : result jdict :=
  match lines with
  | [] => Ok d
  | line :: r =>
      match kind_of line with
      | LHeader w => read_lines (comp_of w) d r
      | LSkip => read_lines key d r
      | LStop => Ok d
      | LRow ws =>
          match key with
          | None => read_lines key d r
          | Some c => match map clean_word ws with
                      | [] => Err IndexError
                      | p :: vs => read_lines key (jset c p (firstn 3 vs) d) r
                      end
          end
      end
  end.
(** jfile.py 269-282: the texts of all periods.  Without values of "tzx" those of "tzy" are left out. *)
Definition find_tipper (d : jdict) : bool := nonempty (d Tzx).
Definition period_keys (d : jdict) : list text :=
  flat_map (fun c => map fst (d c)) (z_comps ++ (if find_tipper d then t_comps else [])).
(** Python's order of texts. *)
Fixpoint text_leb (a b : text) : bool :=
  match a, b with
  | [], _ => true
  | _ :: _, [] => false
  | x :: a', y :: b' => if N.ltb (code x) (code y) then true else if N.ltb (code y) (code x) then false else text_leb a' b'
  end.
Fixpoint insert_text (x : text) (l : list text) : list text :=
  match l with [] => [x] | y :: r => if text_leb x y then x :: l else y :: insert_text x r end.
Definition sort_texts (l : list text) : list text := fold_right insert_text [] l.
(** jfile.py 284-285: [sorted(set(...))] as floats, without zeros. *)
Definition x_nonzero (x : xnum) : bool := match x with XFin q => negb (Qeq_bool q 0) | _ => true end.
Definition all_periods (d : jdict) : result (list xnum) :=
  bindR (mapR (fun s => match read_x s with Some x => Ok x | None => Err ValueError end) (sort_texts (nodup text_dec (period_keys d))))
        (fun l => Ok (filter x_nonzero l)).
(** [re + 1j * im]: an infinite imaginary part makes the real part nan. *)
Definition complex (re im : xnum) : xnum * xnum := (match im with XFin _ => re | _ => XNan end, im).
Definition x_zero : xnum := XFin 0.
(** jfile.py 295-320: the value and the error of a component at a period; zero if there is none. *)
Definition entry (d : jdict) (c : comp) (p : xnum) : result ((xnum * xnum) * xnum) :=
  match dget text_dec (show_x p) (d c) with
  | None => Ok ((x_zero, x_zero), x_zero)
  | Some (a :: b :: e :: _) =>
      match read_x a, read_x b, read_x e with
      | Some x, Some y, Some z => Ok (complex x y, z)
      | _, _, _ => Err ValueError
      end
  | Some _ => Err IndexError
  end.
(** jfile.py 324-327. *)
Definition fix_value (v : xnum * xnum) : xnum * xnum :=
  match v with (XInf false, XFin q) => if Qeq_bool q 0 then (x_zero, x_zero) else v | _ => v end.
Definition fix_error (e : xnum) : xnum := match e with XInf false => XFin (1000000 # 1) | _ => e end.
Record jdata : Type := mkJdata { j_periods : list xnum; j_value : nat -> comp -> (xnum * xnum); j_error : nat -> comp -> xnum }.
Definition entries (d : jdict) (cs : list comp) (p : xnum) : result (list (comp * ((xnum * xnum) * xnum))) :=
  mapR (fun c => bindR (entry d c p) (fun v => Ok (c, v))) cs.
(** jfile.py 202-327.  [lines] are the lines without those of ">" and "#"; the first is the name of the station. *)
Definition read_data (lines : list text) : result jdata :=
  match lines with
  | [] => Err IndexError
  | _ :: r =>
      bindR (read_lines None (fun _ => []) r) (fun d =>
      bindR (all_periods d) (fun ps =>
      bindR (mapR (entries d (z_comps ++ (if find_tipper d then t_comps else []))) ps) (fun rows =>
      let cell k c := match dget comp_dec c (nth k rows []) with Some v => v | None => ((x_zero, x_zero), x_zero) end in
      Ok (mkJdata ps (fun k c => fix_value (fst (cell k c))) (fun k c => fix_error (snd (cell k c)))))))
  end.
Definition data_lines (lines : list text) : list text := filter (fun l => negb (has_char ">"%char l) && negb (has_char "#"%char l))%bool lines.
Definition read_jfile (lines : list text) : result jdata := read_data (data_lines lines).

(** jfile.py 143-153: the first line with the word is rewritten as "name = value". *)
Fixpoint validate_var (v : text) (lines : list text) : result (list text) :=
  match lines with
  | [] => Ok []
  | line :: r =>
      if contains v (lower line) then
        match split_on "="%char line with
        | name :: w :: _ =>
            let value := match read_x (strip w) with Some x => show_x x | None => txt "0.0" end in
            Ok ((name ++ txt " = " ++ value ++ ["010"%char]) :: r)
        | _ => Err IndexError
        end
      else bindR (validate_var v r) (fun r' => Ok (line :: r'))
  end.
Definition validate_lines (lines : list text) : result (list text) :=
  bindR (validate_var (txt "lat") lines) (fun l => bindR (validate_var (txt "lon") l) (validate_var (txt "elev"))).
(** header.py 222-229: key and value of a station line. *)
Definition station_line (line : text) : text * xnum :=
  match split_on "="%char (strip line) with
  | m :: _ => (lower (strip (tl m)), match read_x (strip m) with Some x => x | None => x_zero end)
  | [] => ([], x_zero)
  end.
(** The assignments of [read_metadata], in order. *)
Definition station_values (lines : list text) : list (text * xnum) := map station_line (filter (has_char ">"%char) lines).

(** header.py 114-131: blanks become commas but after "=" (and after the first character, [e_find] being zero). *)
Fixpoint join_blanks (e_find ii : nat) (s : text) : text :=
  match s with
  | [] => []
  | c :: r =>
      if Ascii.eqb c "=" then c :: join_blanks ii (S ii) r
      else if Ascii.eqb c " " then
        if Nat.eqb (Nat.max e_find ii - Nat.min e_find ii) 1 then join_blanks e_find (S ii) r else ","%char :: join_blanks e_find (S ii) r
      else c :: join_blanks e_find (S ii) r
  end.
(** A value is a float, a text or (appended to) a list. *)
Inductive hval : Type := HNum (x : xnum) | HText (s : text) | HList (l : list hval).
Definition h_of (w : text) : hval := match read_x w with Some x => HNum x | None => HText w end.
(** header.py 133-159. *)
Fixpoint read_parts (key : text) (d : list (text * hval)) (parts : list text) : result (list (text * hval)) :=
  match parts with
  | [] => Ok d
  | ll :: r =>
      match split_on "="%char ll with
      | [_] => read_parts key d r
      | [k; v] => read_parts k (dset text_dec k (h_of v) d) r
      | _ => match dget text_dec key d with
             | None => Err KeyError
             | Some old => let l := match old with HList l => l | _ => [old] end in
                           read_parts key (dset text_dec key (HList (l ++ [h_of ll])) d) r
             end
      end
  end.
Definition read_header_line (line : text) : result (list (text * hval)) :=
  read_parts (txt "null") [] (split_on ","%char (join_blanks 0 0 (join (txt " ") (split_ws (strip (tl line)))))).
