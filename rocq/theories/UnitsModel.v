(** Model of /repo/mt_metadata/common/units.py.  Symbols are UTF-8 byte strings. *)
From Verif Require Import PyBase PyText.

Definition mu : text := [ascii_of_N 206; ascii_of_N 188].
Definition omega : text := [ascii_of_N 206; ascii_of_N 169].

(** units.py 25-47 [prefixes]. *)
Definition prefixes : list (text * text) :=
  [(txt "", txt ""); (txt "yotta", txt "Y"); (txt "zetta", txt "Z"); (txt "exa", txt "E");
   (txt "peta", txt "P"); (txt "tera", txt "T"); (txt "giga", txt "G"); (txt "mega", txt "M");
   (txt "kilo", txt "k"); (txt "hecto", txt "h"); (txt "deca", txt "da"); (txt "deci", txt "d");
   (txt "centi", txt "c"); (txt "milli", txt "m"); (txt "micro", mu); (txt "nano", txt "n");
   (txt "pico", txt "p"); (txt "femto", txt "f"); (txt "atto", txt "a"); (txt "zepto", txt "z");
   (txt "yocto", txt "y")].

(** units.py 50-131 [base_units] and [derived_units]: name and symbol. *)
Definition si_units : list (text * text) :=
  [(txt "meter", txt "m"); (txt "kilogram", txt "kg"); (txt "second", txt "s"); (txt "ampere", txt "A");
   (txt "kelvin", txt "K"); (txt "mole", txt "mol"); (txt "candela", txt "cd"); (txt "radian", txt "rad");
   (txt "hertz", txt "Hz"); (txt "newton", txt "N"); (txt "joule", txt "J"); (txt "watt", txt "W");
   (txt "pascal", txt "Pa"); (txt "coulomb", txt "C"); (txt "volt", txt "V"); (txt "ohm", omega);
   (txt "siemens", txt "S"); (txt "weber", txt "Wb"); (txt "tesla", txt "T"); (txt "henry", txt "H")].

(** A row of [UNITS_DF]; description and plot label are not modelled. *)
Record unit_row : Type := mkUnit { u_name : text; u_symbol : text }.

(** [str.isupper()] of a symbol: the letter omega is upper case. *)
Definition symbol_isupper (s : text) : bool := text_eqb s omega || (nonempty s && forallb is_upper s).
(** [str.capitalize()] of a lower-case name. *)
Definition capitalize (s : text) : text := match s with [] => [] | c :: r => to_upper c :: lower r end.

(** units.py 134-180 [all_units] / [UNITS_DF]. *)
Definition all_units : list unit_row :=
  [mkUnit (txt "unknown") (txt "unknown"); mkUnit (txt "digital counts") (txt "count");
   mkUnit (txt "digital counts") (txt "counts"); mkUnit (txt "samples") (txt "samples");
   mkUnit (txt "celsius") (txt "C")] ++
  flat_map (fun p => map (fun u =>
     let name := if symbol_isupper (snd u) then capitalize (fst u) else fst u in
     mkUnit (fst p ++ name) (snd p ++ snd u)) si_units) prefixes.

Definition unknown_unit : unit_row := mkUnit (txt "unknown") (txt "unknown").

(** units.py 395-447 [get_unit_from_df]: first row whose name (ignoring case) or symbol
    matches; then, for one character, symbols ignoring case. *)
Fixpoint first_row (f : unit_row -> bool) (rows : list unit_row) : option unit_row :=
  match rows with [] => None | r :: rest => if f r then Some r else first_row f rest end.
Definition get_unit_from_df (allow_none : bool) (value : text) : result unit_row :=
  let exact r := text_eqb (lower (u_name r)) (lower value) || text_eqb (u_symbol r) value in
  let loose r := text_eqb (lower (u_symbol r)) (lower value) in
  let found := match first_row exact all_units with
               | Some r => Some r
               | None => if length value =? 1 then first_row loose all_units else None
               end in
  match found with
  | Some r => Ok r
  | None => if allow_none then Ok unknown_unit else Err KeyError
  end.

(** Separators of units.py 282. *)
Inductive usep : Type := Slash | Per | Space.
Definition sep_text (s : usep) : text :=
  match s with Slash => txt "/" | Per => txt " per " | Space => txt " " end.

(** units.py 266-290 [find_separator]: the separator found first; at the same position the one
    listed first (stable sort). *)
Definition better (a b : option (nat * usep)) : option (nat * usep) :=
  match a, b with
  | None, _ => b
  | _, None => a
  | Some (i, _), Some (j, _) => if j <? i then b else a
  end.
Definition at_sep (s : usep) (u : text) : option (nat * usep) :=
  option_map (fun i => (i, s)) (find (sep_text s) u).
Definition find_separator (u : text) : option (nat * usep) :=
  better (better (at_sep Slash u) (at_sep Per u)) (at_sep Space u).

(** [s.split(None, 1)[0]]: the first run of non-space characters. *)
Fixpoint first_word (s : text) : text :=
  match s with [] => [] | c :: r => if is_space c then [] else c :: first_word r end.

(** units.py 312-325: the loop of [parse_unit_string]; each name with the separator after it. *)
Fixpoint parse_loop (fuel : nat) (u : text) : result (list (text * option usep)) :=
  match fuel with
  | O => Err OutOfFuel
  | S f =>
      match find_separator u with
      | Some (i, s) =>
          let before := strip (firstn i u) in
          let after := strip (skipn (i + length (sep_text s)) u) in
          bindR (parse_loop f after) (fun rest =>
          Ok (if nonempty before then (before, Some s) :: rest else rest))
      | None =>
          match first_word (lstrip u) with
          | [] => Ok []
          | w => Ok [(strip w, None)]
          end
      end
  end.

(** units.py 326-336: shift the separators by one. *)
Definition shift_seps (l : list (text * option usep)) : list (text * option usep) :=
  match l with
  | [] => []
  | (n, _) :: _ =>
      (n, None) :: combine (map fst (tl l)) (map snd l)
  end.

(** units.py 293-336 [parse_unit_string] on a string. *)
Definition remove_brackets (u : text) : text := replace_char "]" [] (replace_char "[" [] u).
Definition parse_unit_string (u : text) : result (list (text * option usep)) :=
  let u := remove_brackets u in
  bindR (parse_loop (S (length u)) u) (fun l =>
  match l with [] => Err ValueError | [e] => Ok [e] | _ => Ok (shift_seps l) end).

(** units.py 219-251 [Unit.combine] (name and symbol). *)
Definition combine_units (a b : unit_row) (s : option usep) : unit_row :=
  match s with
  | Some Slash | Some Per => mkUnit (u_name a ++ txt " per " ++ u_name b) (u_symbol a ++ txt "/" ++ u_symbol b)
  | _ => mkUnit (u_name a ++ txt " " ++ u_name b) (u_symbol a ++ txt " " ++ u_symbol b)
  end.

Fixpoint combine_all (allow_none : bool) (acc : unit_row) (l : list (text * option usep)) : result unit_row :=
  match l with
  | [] => Ok acc
  | (n, s) :: r => bindR (get_unit_from_df allow_none n) (fun u => combine_all allow_none (combine_units acc u s) r)
  end.

(** units.py 339-392 [get_unit_object] for a string. *)
Definition get_unit_object (allow_none : bool) (u : text) : result unit_row :=
  if existsb (text_eqb (lower u)) [txt "digital counts"; txt "counts"; txt "digital count"]
  then get_unit_from_df allow_none (txt "digital counts")
  else if text_eqb u [] then Ok unknown_unit
  else bindR (parse_unit_string u) (fun parts =>
       match parts with
       | [] => Err ValueError
       | (n, _) :: rest => bindR (get_unit_from_df allow_none n) (fun u0 => combine_all allow_none u0 rest)
       end).

(** timeseries/filters/filter_base.py 214-226 [validate_units]: the stored value is the name of the
    unit object; [allow_none] is False for filters. *)
Definition validate_unit (allow_none : bool) (u : text) : result text :=
  bindR (get_unit_object allow_none u) (fun r => Ok (u_name r)).

(** timeseries/channel.py 293-302 [validate_units]: the empty string is kept and a ValueError is
    re-raised as a KeyError. *)
Definition validate_channel_unit (u : text) : result text :=
  if text_eqb u [] then Ok []
  else match validate_unit true u with
       | Err ValueError => Err KeyError
       | r => r
       end.
