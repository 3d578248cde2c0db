(** Model of where and in which format [TF.write] writes, and which reader [TF.read] takes:
    mt_metadata/transfer_functions/core.py 79-88, 669-686, 1928-1960 and 2002-2010, with the checks of the file name in
    io/zfiles/zmm.py 63-73 and io/jfiles/jfile.py 99-121.

    Simplified: paths are those of pathlib on POSIX, in ASCII, without the special meaning of exactly two leading
    slashes.  What the writers put into the file and what the readers find in it is modelled elsewhere. *)
From Verif Require Import PyBase PyText.
Local Open Scope list_scope.

(** ** pathlib *)
Record path : Type := mkPath { p_abs : bool; p_parts : list text }.
(** [Path(s)]: empty parts and dots are dropped. *)
Definition kept (w : text) : bool := negb (text_eqb w []) && negb (text_eqb w (txt ".")).
Definition parse (s : text) : path :=
  mkPath (match s with c :: _ => Ascii.eqb c "/" | [] => false end) (filter kept (split_on "/" s)).
Definition name (p : path) : text := last (p_parts p) [].
Definition parent (p : path) : path := mkPath (p_abs p) (removelast (p_parts p)).
Definition joinpath (d p : path) : path := if p_abs p then p else mkPath (p_abs d) (p_parts d ++ p_parts p).
(** [PurePath.suffix] of a name: from its last dot, unless that is its first or last character. *)
Definition suffix (n : text) : text :=
  match split1 "." (rev n) with
  | (e, Some s) => match e, s with _ :: _, _ :: _ => "."%char :: rev e | _, _ => [] end
  | (_, None) => []
  end.
Definition with_name (p : path) (n : text) : result path :=
  match p_parts p with
  | [] => Err ValueError
  | _ => if has_char "/" n || text_eqb n [] || text_eqb n (txt ".") then Err ValueError
         else Ok (mkPath (p_abs p) (removelast (p_parts p) ++ [n]))
  end.

(** ** Formats, core.py 79-88 *)
Inductive format : Type := EDI | EMTF | JFILE | ZFILE | AVG.
Definition formats : list (text * format) :=
  [(txt "edi", EDI); (txt "xml", EMTF); (txt "emtfxml", EMTF); (txt "j", JFILE); (txt "zmm", ZFILE); (txt "zrr", ZFILE); (txt "zss", ZFILE); (txt "avg", AVG)].
Definition is_zname (p : path) : bool :=
  existsb (text_eqb (lower (suffix (name p)))) [txt ".zmm"; txt ".zrr"; txt ".zss"].
(** [fn.suffix.lower()[1:]] *)
Definition type_of (p : path) : text := tl (lower (suffix (name p))).
(** [f"{file_type}"] *)
Definition shown (t : option text) : text := match t with Some t => t | None => txt "None" end.

(** The writers: core.py 2270 for J files, zmm.py 67-73 for Z files; the others take any path. *)
Definition put (f : format) (p : path) : result (path * format) :=
  match f with
  | JFILE => Err NotImplementedError
  | ZFILE => if is_zname p then Ok (p, ZFILE) else Err ValueError
  | _ => Ok (p, f)
  end.
(** core.py 1928-1960 [TF.write]: the directory of the object afterwards, and the file with its format or the error. *)
Definition write (dir : path) (station : text) (fn save_dir base : option text) (ftype : option text) : path * result (path * format) :=
  let '(dir, base, ftype) :=
    match fn with
    | Some s => let p := parse s in (parent p, Some (name p), Some (type_of p))
    | None => (dir, base, ftype)
    end in
  let dir := match save_dir with Some s => parse s | None => dir end in
  let file :=
    match base with
    | Some b => let p := parse b in
                match suffix (name p) with
                | [] => with_name p (name p ++ txt "." ++ shown ftype)
                | _ => Ok p
                end
    | None => Ok (parse (station ++ txt "." ++ shown ftype))
    end in
  (dir,
   match file with
   | Err e => Err e
   | Ok p =>
       let t := match ftype with Some t => t | None => type_of p end in
       match dget text_dec t formats with
       | None => Err TFError
       | Some f => put f (joinpath dir p)
       end
   end).

(** core.py 669-686, 2002-2010 [TF.read] up to the reader; jfile.py 116-121, zmm.py 67-73.  [fn0] is the file of the object. *)
Definition take (f : format) (p : path) : result format :=
  match f with
  | JFILE => if text_eqb (suffix (name p)) (txt ".j") then Ok JFILE else Err ValueError
  | ZFILE => if is_zname p then Ok ZFILE else Err ValueError
  | _ => Ok f
  end.
Definition read (fn0 fn : option path) (ftype : option text) : result format :=
  match (match fn with Some p => Some p | None => fn0 end) with
  | None => Err AttributeError
  | Some p =>
      match dget text_dec (match ftype with Some t => t | None => type_of p end) formats with
      | None => Err KeyError
      | Some f => take f p
      end
  end.
