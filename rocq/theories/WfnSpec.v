(** Specification for C128: which file [TF.write] writes. *)
From Verif Require Import PyBase PyText WfnModel.
Local Open Scope list_scope.

(** The names of the formats. *)
Inductive names_format : text -> format -> Prop :=
| n_edi : names_format (txt "edi") EDI
| n_xml : names_format (txt "xml") EMTF
| n_emtfxml : names_format (txt "emtfxml") EMTF
| n_j : names_format (txt "j") JFILE
| n_zmm : names_format (txt "zmm") ZFILE
| n_zrr : names_format (txt "zrr") ZFILE
| n_zss : names_format (txt "zss") ZFILE
| n_avg : names_format (txt "avg") AVG.

(** A name between slashes, and a path written with such names. *)
Definition plain (w : text) : Prop := w <> [] /\ w <> txt "." /\ ~ In "/"%char w.
Definition spelled (absolute : bool) (parts : list text) : text := (if absolute then txt "/" else []) ++ join (txt "/") parts.
(** A name with an extension: something, a dot, and something without dots. *)
Definition has_ext (n stem ext : text) : Prop := n = stem ++ txt "." ++ ext /\ stem <> [] /\ ext <> [] /\ ~ In "."%char ext.
Definition bare (n : text) : Prop := forall stem ext, ~ has_ext n stem ext.
(** The file named by [parts] seen from a directory. *)
Definition from_dir (d : path) (absolute : bool) (parts : list text) : path :=
  if absolute then mkPath true parts else mkPath (p_abs d) (p_parts d ++ parts).
(** The directory to write to, given the one of the object and the argument [save_dir]. *)
Inductive directory (d : path) : option text -> path -> Prop :=
| dir_own : directory d None d
| dir_given a l : Forall plain l -> directory d (Some (spelled a l)) (mkPath a l).
Definition word_char (c : ascii) : bool := is_alpha c || is_digit c || Ascii.eqb c "_".
