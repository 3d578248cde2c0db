(** Model of the remote references, the runs and the processing parameters of a station in an EMTF XML object
    (mt_metadata/transfer_functions/io/emtfxml/emtfxml.py 944-1027 and 1262-1371), with the remote site
    (io/emtfxml/metadata/site.py 17-268).

    Of the remote site the attributes with a text, the list of runs and one coordinate are kept; its times, orientation and remarks are
    not.  The field notes of the remote site and the other attributes of the processing information are abstract.  Warnings in the
    log are not modelled. *)
From Verif Require Import PyBase PyText LayModel.
Local Open Scope nat_scope.
Local Open Scope list_scope.

(** site.py; a latitude is kept as the text that [str] gives; [s_runs] is [None] or a list *)
Record site : Type := mkSite { s_acquired_by : text; s_country : text; s_id : text; s_latitude : text; s_name : text;
                               s_project : text; s_runs : option (list text); s_survey : text }.
(** tf/transfer_function.py: the runs, the remote references and the parameters *)
Record tf : Type := mkTf { t_runs : list text; t_remotes : list text; t_params : list text }.

Definition alnum (c : ascii) : bool := (is_alpha c || is_digit c)%bool.
(** site.py 24: the pattern of [project] *)
Definition project_char (c : ascii) : bool := (alnum c || Ascii.eqb c "-" || Ascii.eqb c "_")%bool.

(** [value.strip("[]")] *)
Definition is_bracket (c : ascii) : bool := (Ascii.eqb c "[" || Ascii.eqb c "]")%bool.
Fixpoint strip_left (s : text) : text := match s with [] => [] | c :: r => if is_bracket c then strip_left r else s end.
Definition strip_brackets (s : text) : text := rev (strip_left (rev (strip_left s))).
(** site.py 246-268 [validate_run_list] of a text *)
Definition read_runs (s : text) : list text :=
  let v := if (has_char "[" s && has_char "]" s)%bool then strip_brackets s else s in
  if has_char "," v then split_on "," v
  else if has_char " " v then split_on " " v
  else match v with [] => [] | _ => [v] end.
(** [str] of a list of texts without quotes and backslashes *)
Definition quoted (s : text) : text := txt "'" ++ s ++ txt "'".
Definition show_runs (l : list text) : text := txt "[" ++ join (txt ", ") (map quoted l) ++ txt "]".

Section Rref.
Variables (notes extra : Type)
          (put_note : text -> text -> notes -> notes)           (* 1285-1350: a key and a value of the field notes of the remote site *)
          (note_pairs : notes -> list (text * text))            (* 981-1027: what the getter writes of them *)
          (put_extra : text -> text -> extra -> extra)          (* update_attribute of the processing information, other keys *)
          (is_number : text -> option text).                    (* the text of a latitude that a text is read as *)

(** processing_info.py: the parts used here; [i_tag] is written and never used when read *)
Record info : Type := mkInfo { i_tag : option text; i_site : site; i_notes : notes; i_extra : extra }.
(** The object: the processing information and the runs of the site itself *)
Record emtf : Type := mkEmtf { e_info : info; e_runs : option (list text) }.

(** [processing_info.update_attribute(key, value)] for the remote site; [None] when the key is another one, and a value that is
    refused changes nothing (1351-1357) *)
Definition put_site (key v : text) (s : site) : option site :=
  if text_eqb key (txt "remote_info.site.acquired_by") then
    Some (mkSite v (s_country s) (s_id s) (s_latitude s) (s_name s) (s_project s) (s_runs s) (s_survey s))
  else if text_eqb key (txt "remote_info.site.country") then
    Some (mkSite (s_acquired_by s) v (s_id s) (s_latitude s) (s_name s) (s_project s) (s_runs s) (s_survey s))
  else if text_eqb key (txt "remote_info.site.id") then
    Some (if forallb alnum v then mkSite (s_acquired_by s) (s_country s) v (s_latitude s) (s_name s) (s_project s) (s_runs s) (s_survey s) else s)
  else if text_eqb key (txt "remote_info.site.location.latitude") then
    Some (match is_number v with
          | Some w => mkSite (s_acquired_by s) (s_country s) (s_id s) w (s_name s) (s_project s) (s_runs s) (s_survey s)
          | None => s
          end)
  else if text_eqb key (txt "remote_info.site.name") then
    Some (mkSite (s_acquired_by s) (s_country s) (s_id s) (s_latitude s) v (s_project s) (s_runs s) (s_survey s))
  else if text_eqb key (txt "remote_info.site.project") then
    Some (if forallb project_char v then mkSite (s_acquired_by s) (s_country s) (s_id s) (s_latitude s) (s_name s) v (s_runs s) (s_survey s) else s)
  else if text_eqb key (txt "remote_info.site.run_list") then
    Some (mkSite (s_acquired_by s) (s_country s) (s_id s) (s_latitude s) (s_name s) (s_project s) (Some (read_runs v)) (s_survey s))
  else if text_eqb key (txt "remote_info.site.survey") then
    Some (mkSite (s_acquired_by s) (s_country s) (s_id s) (s_latitude s) (s_name s) (s_project s) (s_runs s) v)
  else None.

(** 1273-1281: a key and a value *)
Definition key_value (p : text) : option (text * text) :=
  match split1 "=" p with
  | (k, Some v) => Some (strip k, strip v)
  | (_, None) => match split1 ":" p with (k, Some v) => Some (strip k, strip v) | (_, None) => None end
  end.
(** 1271-1357: one parameter *)
Definition take_param (i : info) (p : text) : info :=
  match key_value p with
  | None => i
  | Some (k, v) =>
      if contains (txt "remote_info.field_notes") k then
        mkInfo (i_tag i) (i_site i) (put_note (replace (txt "remote_info.field_notes.") [] k) v (i_notes i)) (i_extra i)
      else match put_site k v (i_site i) with
           | Some s => mkInfo (i_tag i) s (i_notes i) (i_extra i)
           | None => mkInfo (i_tag i) (i_site i) (i_notes i) (put_extra k v (i_extra i))
           end
  end.

(** 1262-1371, the setter *)
Definition set_station (t : tf) (e : emtf) : emtf :=
  let i := e_info e in
  let i1 := mkInfo (Some (join (txt "_") (t_runs t ++ t_remotes t))) (i_site i) (i_notes i) (i_extra i) in
  mkEmtf (fold_left take_param (t_params t) i1) (Some (t_runs t)).

(** 966-980: the attributes of the remote site in the order of their names; a coordinate is skipped when it is zero (971-973), and when
    it is not, nothing is written either, since 974 is the other branch of the test *)
Definition pair (k v : text) : list (text * text) := if is_null v then [] else [(k, v)].
Definition site_pairs (s : site) : list (text * text) :=
  pair (txt "acquired_by") (s_acquired_by s) ++ pair (txt "country") (s_country s) ++ pair (txt "id") (s_id s) ++ pair (txt "name") (s_name s) ++
  pair (txt "project") (s_project s) ++ match s_runs s with Some l => [(txt "run_list", show_runs l)] | None => [] end ++
  pair (txt "survey") (s_survey s).
Definition render (group : text) (kv : text * text) : text := group ++ fst kv ++ txt " = " ++ snd kv.

(** 944-1027, the getter: the id of the remote site is a text and never [None] (site.py 58-66, 211-219), so the tag is not looked at
    (950-961).  [runs_processed] must be a list. *)
Definition get_station (e : emtf) : result tf :=
  let i := e_info e in
  match e_runs e with
  | None => Err ValueError
  | Some runs =>
      Ok (mkTf runs [s_id (i_site i)]
            (map (render (txt "remote_info.site.")) (site_pairs (i_site i)) ++
             map (render (txt "remote_info.field_notes.")) (note_pairs (i_notes i))))
  end.
End Rref.
