(** Python [str] methods on lists of ASCII characters.

    These definitions model the Python language, not a file of the repository.  Simplification:
    a Python string is a sequence of Unicode code points, here of 8-bit characters, and the
    case and white-space tests are those of ASCII. *)
From Verif Require Import PyBase.

Definition text : Type := list ascii.
Definition txt (s : string) : text := list_ascii_of_string s.
Definition text_dec (a b : text) : {a = b} + {a <> b} := list_eq_dec ascii_dec a b.
Definition text_eqb (a b : text) : bool := if text_dec a b then true else false.

Definition code (c : ascii) : N := N_of_ascii c.
Definition in_range (lo hi : N) (c : ascii) : bool := ((lo <=? code c) && (code c <=? hi))%N.
Definition is_upper (c : ascii) : bool := in_range 65 90 c.
Definition is_lower (c : ascii) : bool := in_range 97 122 c.
Definition is_alpha (c : ascii) : bool := is_upper c || is_lower c.
Definition is_digit (c : ascii) : bool := in_range 48 57 c.
(** space, \t \n \v \f \r and the separators 0x1c-0x1f, which [str.strip] removes. *)
Definition is_space (c : ascii) : bool := (code c =? 32)%N || in_range 9 13 c || in_range 28 31 c.
Definition to_lower (c : ascii) : ascii := if is_upper c then ascii_of_N (code c + 32) else c.
Definition to_upper (c : ascii) : ascii := if is_lower c then ascii_of_N (code c - 32) else c.

(** [s.lower()], [s.upper()] *)
Definition lower (s : text) : text := map to_lower s.
Definition upper (s : text) : text := map to_upper s.

(** [s.title()]: first letter of each run of letters upper case, the others lower case. *)
Fixpoint title_from (prev_alpha : bool) (s : text) : text :=
  match s with
  | [] => []
  | c :: r => (if prev_alpha then to_lower c else to_upper c) :: title_from (is_alpha c) r
  end.
Definition title (s : text) : text := title_from false s.

(** [s.lstrip()], [s.rstrip()], [s.strip()] *)
Fixpoint lstrip (s : text) : text :=
  match s with
  | [] => []
  | c :: r => if is_space c then lstrip r else s
  end.
Definition rstrip (s : text) : text := rev (lstrip (rev s)).
Definition strip (s : text) : text := rstrip (lstrip s).

(** [c in s] for a single character. *)
Definition has_char (c : ascii) (s : text) : bool := existsb (Ascii.eqb c) s.

(** [s.split(c)] for a one-character separator. *)
Fixpoint split_on (c : ascii) (s : text) : list text :=
  match s with
  | [] => [[]]
  | x :: r =>
      if Ascii.eqb x c then [] :: split_on c r
      else match split_on c r with
           | [] => [[x]]
           | w :: ws => (x :: w) :: ws
           end
  end.

(** [s.split(c, 1)]: the part before the first separator and the rest, if any. *)
Fixpoint split1 (c : ascii) (s : text) : text * option text :=
  match s with
  | [] => ([], None)
  | x :: r =>
      if Ascii.eqb x c then ([], Some r)
      else let (a, b) := split1 c r in (x :: a, b)
  end.

(** [sep.join(l)] *)
Fixpoint join (sep : text) (l : list text) : text :=
  match l with
  | [] => []
  | [x] => x
  | x :: r => x ++ sep ++ join sep r
  end.

(** [s.split()]: the maximal runs of non-space characters. *)
Fixpoint split_ws_from (cur : text) (s : text) : list text :=
  match s with
  | [] => match cur with [] => [] | _ => [rev cur] end
  | x :: r =>
      if is_space x
      then match cur with [] => split_ws_from [] r | _ => rev cur :: split_ws_from [] r end
      else split_ws_from (x :: cur) r
  end.
Definition split_ws (s : text) : list text := split_ws_from [] s.

(** [s.replace(a, b)] for one-character [a] and any [b]. *)
Definition replace_char (a : ascii) (b : text) (s : text) : text :=
  flat_map (fun c => if Ascii.eqb c a then b else [c]) s.

(** [s.startswith(p)] *)
Fixpoint prefix_of (p s : text) : bool :=
  match p, s with
  | [], _ => true
  | x :: p', y :: s' => Ascii.eqb x y && prefix_of p' s'
  | _ :: _, [] => false
  end.

(** [s.find(p)]; [None] for -1. *)
Fixpoint find (p s : text) : option nat :=
  if prefix_of p s then Some 0
  else match s with
       | [] => None
       | _ :: r => option_map S (find p r)
       end.

(** [p in s] *)
Definition contains (p s : text) : bool := match find p s with Some _ => true | None => false end.

(** [s.replace(p, q)] for non-empty [p]: leftmost, non-overlapping.  [skip] counts the
    characters of a match still to be consumed. *)
Fixpoint replace_from (p q : text) (skip : nat) (s : text) : text :=
  match s with
  | [] => []
  | c :: r =>
      match skip with
      | S k => replace_from p q k r
      | O => if prefix_of p s then q ++ replace_from p q (length p - 1) r
             else c :: replace_from p q 0 r
      end
  end.
Definition replace (p q s : text) : text := replace_from p q 0 s.

(** Truth value of a string. *)
Definition nonempty {A : Type} (l : list A) : bool := match l with [] => false | _ => true end.
