(** Model of the ratings of data quality: /repo/mt_metadata/common/rating.py 42-76 ([Rating.value], [Rating.validate_value]).

    A value that is set is None, a text, an integer, a finite float (the number it stands for), nan or an infinite float; True and False are the integers 1 and 0.  Other objects
    are not modelled.  [int] of a text with underscores between digits is refused here, Python takes it. *)
From Verif Require Import PyBase PyText PyNum PyFloat ZmmModel LocationModel.
Local Open Scope list_scope.
Local Open Scope Z_scope.

Inductive given : Type := GNone | GStr (t : text) | GInt (z : Z) | GFloat (q : Q) | GNan | GInf.

(** [NULL_VALUES] without None: /repo/mt_metadata/__init__.py 93-104 *)
Definition null_texts : list text :=
  [[]; txt "null"; txt "None"; txt "NONE"; txt "NULL"; txt "Null"; txt "none"; txt "1980-01-01T00:00:00"; txt "1980-01-01T00:00:00+00:00"].
(** [value in NULL_VALUES] (rating.py 63, 72): no number is equal to one of them. *)
Definition is_null (v : given) : bool := match v with GNone => true | GStr t => existsb (text_eqb t) null_texts | _ => false end.
(** [int(value)] (rating.py 67): a float is cut off towards zero. *)
Definition to_int (v : given) : result Z :=
  match v with
  | GNone => Err TypeError
  | GStr t => match read_int t with Some z => Ok z | None => Err ValueError end
  | GInt z => Ok z
  | GFloat q => Ok (py_int q)
  | GNan => Err ValueError
  | GInf => Err OverflowError
  end.
(** [Rating.validate_value] (rating.py 58-76).  A ValueError is caught and, the value being none of the null values, raised again: pydantic makes a ValidationError of it.  Any other
    error is not caught by either. *)
Definition validate_value (v : given) : result (option Z) :=
  if is_null v then Ok None
  else match to_int v with
       | Ok z => if (z <? 0) || (z >? 5) then Err ValueError else Ok (Some z)
       | Err e => Err e
       end.
(** Setting the value of a rating ([validate_assignment]; the bounds of the field, rating.py 47-48, have been looked at already): what is raised and the rating afterwards. *)
Definition set_value (r : option Z) (v : given) : option exn * option Z :=
  match validate_value v with Ok x => (None, x) | Err e => (Some e, r) end.
(** A new rating has None (rating.py 45); settings that raise are caught by the caller. *)
Definition after (r : option Z) (vs : list given) : option Z := fold_left (fun r v => snd (set_value r v)) vs r.
