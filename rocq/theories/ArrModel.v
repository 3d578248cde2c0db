(** Model of what a value given for an array becomes: mt_metadata/base/helpers.py 953-1182 (has_numbers, is_numeric_string,
    extract_numbers, object_to_array), used for poles, zeros, frequencies, amplitudes, phases
    (timeseries/filters/pole_zero_filter.py 83, frequency_response_table_filter.py 116-124, channel_response.py 140).

    Simplified: texts are ASCII; floats are rationals; bytes and numpy arrays, which are reinterpreted or cast by
    numpy, are left out. *)
From Verif Require Import PyBase PyText PyNum PyFloat IsoModel.
Local Open Scope nat_scope.
Local Open Scope list_scope.

(** An element: a float or a complex number. *)
Inductive elem : Type := Real (x : pynum) | Cplx (re im : pynum).
Inductive dtype : Type := FloatType | ComplexType.
Inductive input : Type := INone | IList (l : list elem) | IText (s : text) | INumber (x : pynum) | IOther.

(** 980 *)
Definition has_numbers (s : text) : bool := existsb is_digit s.
(** 1015-1023 *)
Definition is_numeric_string (s : text) : bool := match read_float s with Some _ => nonempty (strip s) | None => false end.

(** 1056: the regular expression [-+]?(?:\d*\.?\d+(?:[eE][-+]?\d+)?) at the start of a text: the length of the match.
    If the digits after a point are missing, the match ends before the point; a sign alone is no match. *)
Definition is_sign (c : ascii) : bool := Ascii.eqb c "-" || Ascii.eqb c "+".
Definition is_e (c : ascii) : bool := Ascii.eqb c "e" || Ascii.eqb c "E".
Definition sign_part (s : text) : nat * text :=
  match s with c :: r => if is_sign c then (1, r) else (0, s) | [] => (0, []) end.
Definition body_part (s : text) : option (nat * text) :=
  let '(d1, r1) := take_digits s in
  let short := if nonempty d1 then Some (length d1, r1) else None in
  match r1 with
  | c :: r2 => if Ascii.eqb c "." then
                 let '(d2, r3) := take_digits r2 in
                 if nonempty d2 then Some (length d1 + 1 + length d2, r3) else short
               else short
  | [] => short
  end.
Definition exponent_part (s : text) : nat :=
  match s with
  | c :: r => if is_e c then
                let '(k, r1) := sign_part r in
                let '(d, _) := take_digits r1 in
                if nonempty d then 1 + k + length d else 0
              else 0
  | [] => 0
  end.
Definition number_at (s : text) : option nat :=
  let '(k, r) := sign_part s in
  match body_part r with
  | Some (n, r1) => Some (k + n + exponent_part r1)
  | None => None
  end.
(** [re.findall]: [skip] characters belong to the last match. *)
Fixpoint find_from (skip : nat) (s : text) : list text :=
  match s with
  | [] => []
  | _ :: r => match skip with
              | S k => find_from k r
              | O => match number_at s with
                     | Some n => firstn n s :: find_from (n - 1) r
                     | None => find_from 0 r
                     end
              end
  end.
(** 1058-1066 *)
Fixpoint floats (l : list text) : list pynum :=
  match l with
  | [] => []
  | w :: r => match read_float w with Some x => x :: floats r | None => floats r end
  end.
Definition extract_numbers (s : text) : list pynum := floats (find_from 0 s).

(** 1119-1182.  A text is either a single number or read by [extract_numbers], so that the branches for separators and
    for complex numbers (1152-1158) only see a single real number. *)
Definition is_real (e : elem) : bool := match e with Real _ => true | Cplx _ _ => false end.
Definition object_to_array (v : input) (t : dtype) : result (list elem) :=
  match v with
  | INone => Ok []
  | IList l => match t with ComplexType => Ok l | FloatType => if forallb is_real l then Ok l else Err TypeError end
  | IText s =>
      if existsb (text_eqb s) [[]; txt "none"; txt "None"] then Ok []
      else if negb (has_numbers s) && negb (is_numeric_string s) then Err TypeError
      else if has_numbers s && negb (is_numeric_string s) then Ok (map Real (extract_numbers s))
      else match read_float s with Some x => Ok [Real x] | None => Err TypeError end
  | INumber x => Ok [Real x]
  | IOther => Err TypeError
  end.
