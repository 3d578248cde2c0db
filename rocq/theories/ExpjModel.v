(** Model of an experiment as JSON: /repo/mt_metadata/timeseries/experiment.py 311-341 [to_json] and 343-368 [from_json], over the dictionaries of
    ExpdModel.v and the json module of PyJson.v.

    A number of the dictionary is its text; True and False are the numbers "true" and "false".  Values that NumpyEncoder changes or refuses are C108. *)
From Verif Require Import PyBase PyText PyJson PyFloat XmlModel ExpxModel ExpdModel JsonModel.
Local Open Scope list_scope.

Definition json_of_num (s : text) : json :=
  if text_eqb s (txt "true") then JBool true else if text_eqb s (txt "false") then JBool false
  else match read_number s with Some j => j | None => JFloat s end.
Fixpoint json_of (v : xval) : json :=
  match v with
  | XNone => JNull
  | XText s => JStr s
  | XNum s => json_of_num s
  | XList l => JArr (map json_of l)
  | XDict d => JObj (map (fun kv => (fst kv, json_of (snd kv))) d)
  end.
Fixpoint of_json (j : json) : xval :=
  match j with
  | JNull => XNone
  | JBool b => XNum (if b then txt "true" else txt "false")
  | JInt z => XNum (show_int z)
  | JFloat r => XNum r
  | JStr s => XText s
  | JArr l => XList (map of_json l)
  | JObj d => XDict (map (fun kv => (fst kv, of_json (snd kv))) d)
  end.

(** Files by name, as in JsonModel.v *)
Notation disk := (text -> file).
Definition put_file (p t : text) (fs : disk) : disk := fun q => if text_dec p q then File t else fs q.

(** 311-341 [to_json].  With a name the file is opened for writing, which empties it, and then written piece by piece: [stop] says after how many characters
    the writing ends with an exception, if it does.  [opens] says which files can be opened for writing; an OSError is a ValueError here, as in JsonModel.v. *)
Definition to_json (opens : text -> bool) (stop : option (nat * exn)) (indent : text) (fn : option text) (vs : list survey) (fs : disk) : disk * result (option text) :=
  let full := dumps true indent (json_of (to_dict vs)) in
  match fn with
  | None => (fs, Ok (Some full))
  | Some p =>
      if opens p then
        match stop with
        | None => (put_file p full fs, Ok None)
        | Some (n, e) => (put_file p (firstn n full) fs, Err e)
        end
      else (fs, Err ValueError)
  end.

(** 343-368 [from_json], into an experiment without surveys.  [Neither]: what is no text and no path. *)
Inductive input : Type := AText (s : text) | APath (p : text) | Neither.
Definition load (t : text) : result (list survey_read) := bindR (loads t) (fun j => from_dict (of_json j)).
Definition from_json (i : input) (fs : disk) : result (list survey_read) :=
  match i with
  | AText s =>
      match fs s with
      | File t => bindR (loads t) (fun _ => load s)     (* 353-356, and then 359 all the same *)
      | NoFile | Refused => load s
      end
  | APath p =>
      match fs p with
      | File t => load t
      | NoFile => Err UnboundLocalError                 (* 361: json_dict has no value *)
      | Refused => Err ValueError
      end
  | Neither => Err ValueError                           (* 365-367: the message ends in a lone %, so formatting it fails before the TypeError is made *)
  end.
