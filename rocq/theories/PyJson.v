(** Python's json module, as far as it is used here: dumps with an indent, loads.

    CPython Lib/json/encoder.py (py_encode_basestring, py_encode_basestring_ascii, _make_iterencode) and decoder.py/scanner.py (py_scanstring,
    JSONObject, JSONArray, py_make_scanner, JSONDecoder.decode).  Simplified: a float is the text of it (dumps writes float.__repr__, and
    loads reads a text as the float it is nearest to, so a text that is a repr stands for its float and back); the characters of a text are
    the first 256; the scanner takes the longest run of number characters and asks whether it is a number, where Python takes the longest
    number and then finds the rest of the run in its way: both refuse the same texts. *)
From Verif Require Import PyBase PyText PyNum PyFloat IsoModel PyFacts.
From Coq Require Import NArith.
Local Open Scope nat_scope.

Inductive json : Type :=
| JNull | JBool (b : bool) | JInt (z : Z) | JFloat (repr : text) | JStr (s : text) | JArr (l : list json) | JObj (l : list (text * json)).

Definition quote : ascii := """"%char.
Definition backslash : ascii := "\"%char.
Definition nl_char : ascii := "010"%char.

(** ** dumps *)
Definition hex_digit (n : N) : ascii := ascii_of_N (if N.ltb n 10 then 48 + n else 87 + n).
Definition escape (ascii_only : bool) (c : ascii) : text :=
  let n := N_of_ascii c in
  if Ascii.eqb c quote then [backslash; quote]
  else if Ascii.eqb c backslash then [backslash; backslash]
  else if N.eqb n 10 then [backslash; "n"%char]
  else if N.eqb n 13 then [backslash; "r"%char]
  else if N.eqb n 9 then [backslash; "t"%char]
  else if N.eqb n 12 then [backslash; "f"%char]
  else if N.eqb n 8 then [backslash; "b"%char]
  else if (N.ltb n 32 || (ascii_only && N.ltb 126 n))%bool then [backslash; "u"%char; "0"%char; "0"%char; hex_digit (N.div n 16); hex_digit (N.modulo n 16)]
  else [c].
Definition show_string (ascii_only : bool) (s : text) : text := (quote :: flat_map (escape ascii_only) s ++ [quote])%list.

Section Dumps.
Variable ascii_only : bool.
Variable indent : text.
Definition newline (level : nat) : text := nl_char :: concat (repeat indent level).
Definition block (level : nat) (op cl : ascii) (items : list text) : text :=
  match items with
  | [] => [op; cl]
  | _ => (op :: newline (S level) ++ join (","%char :: newline (S level)) items ++ newline level ++ [cl])%list
  end.
Fixpoint dumps_at (level : nat) (j : json) : text :=
  match j with
  | JNull => txt "null"
  | JBool true => txt "true"
  | JBool false => txt "false"
  | JInt z => show_int z
  | JFloat r => r
  | JStr s => show_string ascii_only s
  | JArr l => block level "[" "]" (map (dumps_at (S level)) l)
  | JObj l => block level "{" "}" (map (fun kv => (show_string ascii_only (fst kv) ++ txt ": " ++ dumps_at (S level) (snd kv))%list) l)
  end.
Definition dumps (j : json) : text := dumps_at 0 j.
End Dumps.

(** ** loads *)
Definition ws (c : ascii) : bool := existsb (Ascii.eqb c) [" "; "009"; "010"; "013"]%char.
Fixpoint skip (s : text) : text := match s with c :: r => if ws c then skip r else s | [] => [] end.
Definition hex_value (c : ascii) : option N :=
  let n := N_of_ascii c in
  if (N.leb 48 n && N.leb n 57)%bool then Some (n - 48)%N
  else if (N.leb 97 n && N.leb n 102)%bool then Some (n - 87)%N
  else if (N.leb 65 n && N.leb n 70)%bool then Some (n - 55)%N else None.
Definition simple_escape (e : ascii) : option ascii :=
  dget ascii_dec e [(quote, quote); (backslash, backslash); ("/"%char, "/"%char); ("b"%char, "008"%char); ("f"%char, "012"%char); ("n"%char, "010"%char); ("r"%char, "013"%char); ("t"%char, "009"%char)].
Definition unicode (a b c d : ascii) : option ascii :=
  match hex_value a, hex_value b, hex_value c, hex_value d with
  | Some 0%N, Some 0%N, Some x, Some y => Some (ascii_of_N (16 * x + y))
  | _, _, _, _ => None
  end.
Definition cons_to (c : ascii) (r : result (text * text)) : result (text * text) :=
  match r with Ok (s, t) => Ok (c :: s, t) | Err e => Err e end.
Fixpoint read_string (s : text) : result (text * text) :=
  match s with
  | [] => Err ValueError
  | c :: r =>
      if Ascii.eqb c quote then Ok ([], r)
      else if Ascii.eqb c backslash then
        match r with
        | [] => Err ValueError
        | e :: r1 =>
            if Ascii.eqb e "u" then
              match r1 with
              | a :: b :: h :: d :: r2 => match unicode a b h d with Some x => cons_to x (read_string r2) | None => Err ValueError end
              | _ => Err ValueError
              end
            else match simple_escape e with Some x => cons_to x (read_string r1) | None => Err ValueError end
        end
      else if N.ltb (N_of_ascii c) 32 then Err ValueError
      else cons_to c (read_string r)
  end.
Definition number_char (c : ascii) : bool := (is_digit c || existsb (Ascii.eqb c) ["+"; "-"; "."; "e"; "E"]%char)%bool.
Fixpoint span (p : ascii -> bool) (s : text) : text * text :=
  match s with c :: r => if p c then let '(a, b) := span p r in (c :: a, b) else ([], s) | [] => ([], []) end.
(** NUMBER_RE: -?(0|[1-9]\d* )(\.\d+)?([eE][-+]?\d+)? *)
Definition exponent_ok (s : text) : bool :=
  match s with
  | [] => true
  | e :: r => (existsb (Ascii.eqb e) ["e"; "E"]%char && let d := match r with c :: r' => if existsb (Ascii.eqb c) ["+"; "-"]%char then r' else r | [] => r end in
               negb (match d with [] => true | _ => false end) && forallb is_digit d)%bool
  end.
Definition fraction_ok (s : text) : bool :=
  match s with
  | c :: r => if Ascii.eqb c "." then let '(d, e) := span is_digit r in (negb (match d with [] => true | _ => false end) && exponent_ok e)%bool else exponent_ok s
  | [] => true
  end.
Definition read_number (tok : text) : option json :=
  let '(neg, body) := match tok with c :: r => if Ascii.eqb c "-" then (true, r) else (false, tok) | [] => (false, tok) end in
  let '(d, rest) := span is_digit body in
  match d with
  | [] => None
  | c :: d' =>
      if (Ascii.eqb c "0" && negb (match d' with [] => true | _ => false end))%bool then None
      else match rest with
           | [] => Some (JInt (if neg then - number_of d else number_of d)%Z)
           | _ => if fraction_ok rest then Some (JFloat tok) else None
           end
  end.
Fixpoint strip_prefix (p s : text) : option text :=
  match p, s with
  | [], _ => Some s
  | a :: p', b :: s' => if Ascii.eqb a b then strip_prefix p' s' else None
  | _, [] => None
  end.
Definition literals : list (text * json) :=
  [(txt "null", JNull); (txt "true", JBool true); (txt "false", JBool false); (txt "NaN", JFloat (txt "NaN")); (txt "Infinity", JFloat (txt "Infinity")); (txt "-Infinity", JFloat (txt "-Infinity"))].
Fixpoint read_literal (l : list (text * json)) (s : text) : option (json * text) :=
  match l with
  | [] => None
  | (p, j) :: r => match strip_prefix p s with Some rest => Some (j, rest) | None => read_literal r s end
  end.
Definition read_plain (s : text) : result (json * text) :=
  match read_literal literals s with
  | Some x => Ok x
  | None => let '(tok, rest) := span number_char s in match read_number tok with Some j => Ok (j, rest) | None => Err ValueError end
  end.
Fixpoint read_value (fuel : nat) (s : text) : result (json * text) :=
  match fuel with
  | O => Err OutOfFuel
  | S f =>
      match s with
      | [] => Err ValueError
      | c :: r =>
          if Ascii.eqb c quote then match read_string r with Ok (x, t) => Ok (JStr x, t) | Err e => Err e end
          else if Ascii.eqb c "{" then
            match skip r with
            | q :: r' => if Ascii.eqb q "}" then Ok (JObj [], r') else if Ascii.eqb q quote then read_members f [] r' else Err ValueError
            | [] => Err ValueError
            end
          else if Ascii.eqb c "[" then
            match skip r with
            | q :: r' => if Ascii.eqb q "]" then Ok (JArr [], r') else read_elements f [] (q :: r')
            | [] => Err ValueError
            end
          else read_plain s
      end
  end
(** After the quotation mark of a key; a key seen before takes the new value. *)
with read_members (fuel : nat) (acc : list (text * json)) (s : text) : result (json * text) :=
  match fuel with
  | O => Err OutOfFuel
  | S f =>
      match read_string s with
      | Err e => Err e
      | Ok (k, r) =>
          match skip r with
          | c :: r1 =>
              if Ascii.eqb c ":" then
                match read_value f (skip r1) with
                | Err e => Err e
                | Ok (v, r2) =>
                    match skip r2 with
                    | d :: r3 =>
                        if Ascii.eqb d "}" then Ok (JObj (dset text_dec k v acc), r3)
                        else if Ascii.eqb d "," then
                          match skip r3 with
                          | q :: r4 => if Ascii.eqb q quote then read_members f (dset text_dec k v acc) r4 else Err ValueError
                          | [] => Err ValueError
                          end
                        else Err ValueError
                    | [] => Err ValueError
                    end
                end
              else Err ValueError
          | [] => Err ValueError
          end
      end
  end
with read_elements (fuel : nat) (acc : list json) (s : text) : result (json * text) :=
  match fuel with
  | O => Err OutOfFuel
  | S f =>
      match read_value f s with
      | Err e => Err e
      | Ok (v, r) =>
          match skip r with
          | d :: r1 =>
              if Ascii.eqb d "]" then Ok (JArr (acc ++ [v])%list, r1)
              else if Ascii.eqb d "," then read_elements f (acc ++ [v])%list (skip r1)
              else Err ValueError
          | [] => Err ValueError
          end
      end
  end.
Definition loads (s : text) : result json :=
  match read_value (S (List.length s)) (skip s) with
  | Ok (j, r) => match skip r with [] => Ok j | _ => Err ValueError end
  | Err e => Err e
  end.
