(** Model of the tables of metadata standards: /repo/mt_metadata/utils/summarize.py 46-59 [SUMMARIZE_DTYPE], 328-366 [summary_to_array], 369-384 [summary_to_dataframe] and 387-419 [summarize_standards].

    The dictionary of standards (summarize.py 298-325) is given.  numpy cuts a text at the width of its column and drops NUL characters at its end; texts with NUL are left out. *)
From Verif Require Import PyBase PyText.
Local Open Scope string_scope.
Local Open Scope list_scope.

(** What a standard says under a key: the items of a list as "{0}".format prints them, any other object as str prints it. *)
Inductive value : Type := VNone | VBool (b : bool) | VText (t : text) | VItems (l : list text) | VOther (t : text).
(** The kind of a column, a text of some width or a truth value, and what is in a cell of it. *)
Inductive kind : Type := KText (width : nat) | KBool.
Inductive cell : Type := CText (t : text) | CBool (b : bool).
Definition dtype : Type := list (text * kind).
Definition standard : Type := list (text * value).
Definition row : Type := list (text * cell).

(** summarize.py 46-59 *)
Definition SUMMARIZE_DTYPE : dtype :=
  [(txt "attribute", KText 72); (txt "type", KText 15); (txt "required", KBool); (txt "style", KText 72); (txt "units", KText 32); (txt "description", KText 300);
   (txt "options", KText 150); (txt "alias", KText 72); (txt "example", KText 72); (txt "default", KText 72)].

(** summarize.py 354-361 *)
Definition cleaned (v : value) : value :=
  match v with
  | VItems [] => VText []
  | VItems l => VText (join (txt ",") l)
  | VNone => VText []
  | _ => v
  end.
(** numpy, setting an item.  What it makes of something other than a truth value in a column of truth values is not modelled: TypeError stands for it. *)
Definition to_cell (k : kind) (v : value) : result cell :=
  match k, v with
  | KText n, VText t | KText n, VOther t => Ok (CText (firstn n t))
  | KText n, VBool b => Ok (CText (firstn n (txt (if b then "True" else "False"))))
  | KBool, VBool b => Ok (CBool b)
  | _, _ => Err TypeError
  end.
(** numpy: one row of np.zeros. *)
Definition zeros (dt : dtype) : row := map (fun c => (fst c, match snd c with KText _ => CText [] | KBool => CBool false end)) dt.
(** numpy: entries[i][name] = v; a name that is no column raises ValueError. *)
Definition put (dt : dtype) (name : text) (v : value) (r : row) : result row :=
  match dget text_dec name dt with
  | None => Err ValueError
  | Some k => bindR (to_cell k v) (fun c => Ok (dset text_dec name c r))
  end.
(** summarize.py 344-347 *)
Definition version_row (dt : dtype) (version : text) : result row :=
  bindR (put dt (txt "attribute") (VText (txt "mt_metadata.standards.version")) (zeros dt)) (fun r =>
  bindR (put dt (txt "description") (VText (txt "Metadata standards version " ++ version)) r) (fun r =>
  bindR (put dt (txt "type") (VText (txt "string")) r) (fun r =>
  put dt (txt "style") (VText (txt "free form")) r))).
(** summarize.py 351-363: the columns behind the first. *)
Fixpoint fill (dt : dtype) (names : list text) (s : standard) (r : row) : result row :=
  match names with
  | [] => Ok r
  | n :: ns => match dget text_dec n s with
               | None => Err KeyError
               | Some v => bindR (put dt n (cleaned v) r) (fill dt ns s)
               end
  end.
(** summarize.py 350-363 *)
Definition one_row (dt : dtype) (kv : text * standard) : result row :=
  bindR (put dt (txt "attribute") (VText (fst kv)) (zeros dt)) (fill dt (tl (map fst dt)) (snd kv)).
(** summarize.py 328-366 *)
Definition summary_to_array (version : text) (dt : dtype) (d : list (text * standard)) : result (list row) :=
  bindR (version_row dt version) (fun r => bindR (mapR (one_row dt) d) (fun rs => Ok (r :: rs))).

(** What is returned, an array or a data frame of the rows. *)
Inductive table : Type := Array (rows : list row) | Frame (rows : list row).
(** summarize.py 369-384 *)
Definition summary_to_dataframe (version : text) (d : list (text * standard)) : result (list row) := summary_to_array version SUMMARIZE_DTYPE d.
(** summarize.py 387-419: the result, and the csv file written.  [summary_df] has no value if neither of the branches is taken. *)
Definition summarize_standards (version : text) (d : list (text * standard)) (csv_fn : option text) (output_type : text) (dt : dtype) : option (text * list row) * result table :=
  if text_eqb output_type (txt "array") then (None, bindR (summary_to_array version dt d) (fun rs => Ok (Array rs)))
  else match csv_fn with
       | None => if text_eqb output_type (txt "dataframe") then (None, bindR (summary_to_dataframe version d) (fun rs => Ok (Frame rs))) else (None, Err UnboundLocalError)
       | Some [] => (None, Err UnboundLocalError)
       | Some fn => match summary_to_dataframe version d with
                    | Ok rs => (Some (fn, rs), Ok (Frame rs))
                    | Err e => (None, Err e)
                    end
       end.
