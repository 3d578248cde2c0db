(** Metadata to and from JSON.

    mt_metadata/base/metadata.py: to_json (1215-1245), from_json (1248-1275); mt_metadata/base/helpers.py: NumpyEncoder (890-933). *)
From Verif Require Import PyBase PyText PyFacts PyJson.
Local Open Scope nat_scope.

(** A value in the dictionary of a metadata object.  Simplified: an array is what its tolist gives; a numpy float64 is a Python float. *)
Inductive pyval : Type :=
| VNone | VBool (b : bool) | VInt (z : Z) | VFloat (repr : text) | VStr (s : text)
| VList (l : list pyval) | VDict (l : list (text * pyval))
| VNpInt (z : Z)                       (* np.int64, np.uint8, ... *)
| VNpFloat (repr : text)               (* np.float16, np.float32: what float() makes of it *)
| VNpBool (b : bool)                   (* np.bool_ *)
| VComplex                             (* complex, np.complex128 *)
| VArray (l : list json)               (* np.ndarray of a real type *)
| VComplexArray (re im : list json)    (* np.ndarray of complex *)
| VH5 (s : text)                       (* a reference of h5py: what str() makes of it *)
| VUrl (s : text)                      (* a value with unicode_string() *)
| VPath (s : text).                    (* pathlib.Path *)

(** json.JSONEncoder.default with NumpyEncoder.default before it *)
Fixpoint encode (v : pyval) : result json :=
  match v with
  | VNone => Ok JNull
  | VBool b => Ok (JBool b)
  | VInt z => Ok (JInt z)
  | VFloat r => Ok (JFloat r)
  | VStr s => Ok (JStr s)
  | VList l => bindR ((fix go l := match l with [] => Ok [] | x :: r => bindR (encode x) (fun y => bindR (go r) (fun ys => Ok (y :: ys))) end) l) (fun l' => Ok (JArr l'))
  | VDict l => bindR ((fix go l := match l with [] => Ok [] | (k, x) :: r => bindR (encode x) (fun y => bindR (go r) (fun ys => Ok ((k, y) :: ys))) end) l) (fun l' => Ok (JObj l'))
  | VNpInt z => Ok (JInt z)
  | VNpFloat r => Ok (JFloat r)
  | VArray l => Ok (JArr l)
  | VComplexArray re im => Ok (JObj [(txt "real", JArr re); (txt "imag", JArr im)])
  | VH5 s => Ok (JStr s)
  | VUrl s => Ok (JStr s)
  | VPath s => Ok (JStr s)
  | VNpBool _ | VComplex => Err TypeError
  end.
(** to_json, on what to_dict returns; json.dumps with an indent escapes what is not ASCII *)
Definition to_json (indent : text) (d : pyval) : result text := bindR (encode d) (fun j => Ok (dumps true indent j)).

(** Files: there is none of this name, the name cannot be asked for (OSError, as for a name that is too long) or the file cannot be opened
    (OSError), or its text. *)
Inductive file := NoFile | Refused | File (t : text).
Inductive source := Str (s : text) | Path (p : text).
Section From.
Variable obj : Type.
Variable files : text -> file.
Variable from_dict : json -> result obj.
Definition from_json (src : source) : result obj :=
  match src with
  | Str s =>
      match files s with
      | File t => bindR (loads t) (fun _ => bindR (loads s) from_dict)    (* what the file holds is read, and then overwritten by json.loads of the name *)
      | NoFile | Refused => bindR (loads s) from_dict
      end
  | Path p =>
      match files p with
      | File t => bindR (loads t) from_dict
      | NoFile => Err UnboundLocalError
      | Refused => Err ValueError    (* OSError *)
      end
  end.
End From.
