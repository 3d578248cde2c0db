(** Model of the validators that make lists of names of what they are given: channels of a Run (/repo/mt_metadata/timeseries/run.py
    268-298), runs and channels of a Station (timeseries/station.py 236-259), countries and states of a Survey (timeseries/survey.py
    366-377), the fields of a FundingSource (common/funding_source.py 110-140), channels of a StatisticalEstimate
    (transfer_functions/tf/statistical_estimate.py 113-123), channels and levels of an FC
    (processing/fourier_coefficients/fc.py 124-144), the fields of a Zonge Ch (transfer_functions/io/zonge/metadata/ch.py 126-153), and
    the indices of a BirrpBlock (transfer_functions/io/jfiles/metadata/birrp_block.py 83-112).

    A value of the field then goes through [list[str]] (coerce_numbers_to_str, base/metadata.py 220).  An email or a URL that is already
    an object (funding_source.py 128) and the formats of emails and URLs are not modelled. *)
From Verif Require Import PyBase PyText RrefModel.
Local Open Scope list_scope.

Inductive kind : Type := RunChannels | StationNames | Areas | Funding | Estimates | FcNames | ZongeCh.

(** An entry: a text, a number with its text, anything else with its text. *)
Inductive item : Type := IText (s : text) | INum (s : text) | IElse (s : text).
Definition shown (i : item) : text := match i with IText s | INum s | IElse s => s end.
(** What can be given.  [GArray]: a numpy array of one dimension with at least one element; its elements are texts or numbers. *)
Inductive given : Type := GNone | GText (s : text) | GList (l : list item) | GTuple (l : list item) | GArray (x : item) (l : list item) | GOther.
Inductive out : Type := ONone | OText (s : text) | OList (l : list text).

(** [list[str]] *)
Definition coerce (i : item) : result text := match i with IText s | INum s => Ok s | IElse _ => Err ValueError end.
Definition as_names (l : list item) : result out := bindR (mapR coerce l) (fun r => Ok (OList r)).

(** mt_metadata/__init__.py 93-104 [NULL_VALUES], the texts *)
Definition null_values : list text :=
  [[]; txt "null"; txt "None"; txt "NONE"; txt "NULL"; txt "Null"; txt "none"; txt "1980-01-01T00:00:00"; txt "1980-01-01T00:00:00+00:00"].
(** run.py 281 *)
Definition run_nulls : list text := [txt "None"; txt "none"; txt "NONE"; txt "null"].
Definition is_in (s : text) (l : list text) : bool := if in_dec text_dec s l then true else false.
(** [value in [None, ...]] of an array: [==] is element by element, and the truth of more than one element raises ValueError *)
Definition array_in (x : item) (l : list item) (words : list text) : result bool :=
  match l with
  | [] => Ok (match x with IText s => is_in s words | _ => false end)
  | _ => Err ValueError
  end.
(** [[v.strip() for v in value.split(",")]] *)
Definition cut (s : text) : list text := map strip (split_on "," s).

(** run.py 275-298; station.py 238-259, where the null values give None, which is no list *)
Definition list_of_strings (words : list text) (nothing : result out) (v : given) : result out :=
  match v with
  | GNone => nothing
  | GText s => if is_in s words then nothing else Ok (OList (cut s))
  | GArray x l => bindR (array_in x l words) (fun b => if (b : bool) then nothing else Ok (OList (map shown (x :: l))))
  | GList l | GTuple l => Ok (OList (map shown l))
  | GOther => Err TypeError
  end.
Definition nonempty (s : text) : bool := match s with [] => false | _ => true end.
Section Kinds.
Variable show : given -> text.   (* [str] of what is neither a text nor a list, ch.py 153 *)
Definition validate (k : kind) (v : given) : result out :=
  match k with
  | RunChannels => list_of_strings run_nulls (Ok (OList [])) v
  | StationNames => list_of_strings null_values (Err ValueError) v
  | Areas =>
      match v with
      | GText s => Ok (OList (cut s))
      | GList l | GTuple l => as_names l
      | GNone => Ok ONone
      | GArray _ (_ :: _) => Err ValueError
      | _ => Err TypeError
      end
  | Funding =>
      match v with
      | GList l | GTuple l => as_names l
      | GText s => Ok (OList (cut s))
      | GNone => Ok ONone
      | _ => Err TypeError
      end
  | Estimates =>
      match v with
      | GText s => Ok (OList (cut s))
      | GList l => as_names l
      | _ => Err TypeError
      end
  | FcNames =>
      match v with
      | GNone => Ok (OList [])
      | GArray x l => as_names (x :: l)
      | GText s => if is_in s null_values then Ok (OList []) else Ok (OList (split_on "," s))
      | GList l | GTuple l => as_names l
      | GOther => Err TypeError
      end
  | ZongeCh =>
      match v with
      | GNone => Ok ONone
      | GList l => as_names l
      | GText s =>
          if has_char "," s then
            match filter nonempty (cut s) with
            | [] => Ok ONone
            | [x] => Ok (OText x)
            | l => Ok (OList l)
            end
          else Ok (OText s)
      | _ => Ok (OText (show v))
      end
  end.
End Kinds.

(** birrp_block.py 85-112, of a text and of a list; [isdigit] and [int] of ASCII digits *)
Definition all_digits (s : text) : bool := (nonempty s && forallb is_digit s)%bool.
Definition int_of (s : text) : N := fold_left (fun n c => (10 * n + (code c - 48))%N) s 0%N.
Definition indices_of_text (s : text) : list N :=
  map (fun p => int_of (strip p)) (filter (fun p => all_digits (strip p)) (split_on "," (strip_brackets s))).
