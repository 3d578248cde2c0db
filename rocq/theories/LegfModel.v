(** Model of how a channel takes its filters out of a dictionary, old formats included:
    /repo/mt_metadata/timeseries/channel.py 320-393, 592-645, 685-806 and 842-864.

    Of the dictionary, after it is flattened, the model has the entries about filters; the others are set one by one (C06) and do not touch the
    filters.  Filters, adding and sorting are those of ChanFiltModel.v. *)
From Verif Require Import PyBase PyText PySort ChanFiltModel.
Local Open Scope list_scope.

(** ** Flags *)
(** A single value that is given as [applied] *)
Inductive scalar : Type := SBool (b : bool) | SText (s : text) | SInt (z : Z) | SNone.
(** A value of type bool as pydantic takes it (filtered.py 34-45, not strict) *)
Definition true_words : list text := [txt "1"; txt "true"; txt "t"; txt "yes"; txt "y"; txt "on"].
Definition false_words : list text := [txt "0"; txt "false"; txt "f"; txt "no"; txt "n"; txt "off"].
Definition mem (s : text) (l : list text) : bool := existsb (text_eqb s) l.
Definition to_bool (v : scalar) : result bool :=
  match v with
  | SBool b => Ok b
  | SInt 1 => Ok true
  | SInt 0 => Ok false
  | SInt _ => Err ValueError
  | SText s => if mem (lower s) true_words then Ok true else if mem (lower s) false_words then Ok false else Err ValueError
  | SNone => Err ValueError
  end.
(** channel.py 842-864 [_applied_values_map(False)], for texts *)
Definition word_value (s : text) : option bool :=
  if mem s [txt "none"; txt "None"; txt "NONE"; txt "null"] then Some false
  else if mem s [txt "1"; txt "True"; txt "true"] then Some true
  else if mem s [txt "0"; txt "False"; txt "false"] then Some false
  else None.
(** What may be given as [filter.applied]; arrays, lists and tuples are lists *)
Inductive flags_given : Type := FText (s : text) | FList (l : list scalar) | FOther.
Definition no_brackets (s : text) : text := filter (fun c => negb (orb (Ascii.eqb c "[") (Ascii.eqb c "]"))) s.
(** channel.py 592-626; MTSchemaError is TFError here *)
Definition read_flags (g : flags_given) : result (list scalar) :=
  match g with
  | FText s =>
      match word_value s with
      | Some b => Ok [SBool b]
      | None =>
          let s := if has_char "[" s then no_brackets s else s in
          if has_char "," s then Ok (map (fun w => SText (lower (strip w))) (split_on "," s)) else Ok (map (fun w => SText (lower w)) (split_ws s))
      end
  | FList l => Ok l
  | FOther => Err TFError
  end.
(** channel.py 628-645 *)
Inductive names_given : Type := NText (s : text) | NList (l : list text) | NOther.
Definition read_names (g : names_given) : result (list text) :=
  match g with
  | NText s => Ok (map (fun w => lower (strip w)) (split_on "," s))
  | NList l => Ok (map (fun w => lower (strip w)) l)
  | NOther => Err TFError
  end.

(** ** One old format: channel.py 745-775 *)
Fixpoint add_all (l : list applied) (nfs : list (text * scalar)) : result (list applied) :=
  match nfs with
  | [] => Ok l
  | (n, v) :: r =>
      bindR (if has_name n l then Ok l else bindR (to_bool v) (fun b => add_name l n b None)) (fun l' => add_all l' r)
  end.
Definition old_format (l : list applied) (fl : option flags_given) (ns : option names_given) : result (list applied) :=
  match fl, ns with
  | Some f, Some n =>
      bindR (read_flags f) (fun vs =>
      bindR (read_names n) (fun names =>
      match vs, names with
      | [], _ => Ok l
      | _, [] => Ok l
      | _, _ => if Nat.eqb (List.length vs) (List.length names) then add_all l (combine names vs) else Err TFError
      end))
  | _, _ => Ok l
  end.

(** ** The list of filters *)
(** A dictionary of an applied filter with its name; without a flag it is applied (filtered.py 37) *)
Record fdict : Type := mkF { d_name : text; d_flag : option scalar; d_stage : option Z }.
Inductive item : Type := IDict (d : fdict) | IObject (f : applied) | IOther.
Definition of_dict (d : fdict) : result applied :=
  bindR (match d_flag d with Some v => to_bool v | None => Ok true end) (fun b => make_applied (d_name d) b (d_stage d)).
(** channel.py 790-806 *)
Fixpoint add_items (l : list applied) (is : list item) : result (list applied) :=
  match is with
  | [] => Ok l
  | IDict d :: r => bindR (of_dict d) (fun f => add_items (add_object l f) r)
  | IObject f :: r => add_items (add_object l f) r
  | IOther :: r => add_items l r
  end.
(** channel.py 320-393 for a text that begins and ends with brackets, with the items that the text is read as (JSON or a Python
    literal); [None] if it cannot be read, or has no brackets: then there are no filters.  Dictionaries only are taken.  A blank text is
    passed on as it is, which is no list (channel.py 391): pydantic raises. *)
Fixpoint parsed_filters (is : list item) : result (list applied) :=
  match is with
  | [] => Ok []
  | IDict d :: r => bindR (of_dict d) (fun f => bindR (parsed_filters r) (fun fs => Ok (f :: fs)))
  | _ :: r => parsed_filters r
  end.
Inductive filters_given : Type := LItems (l : list item) | LText (parsed : option (list item)) | LBlank.
Definition new_format (l : list applied) (g : option filters_given) : result (list applied) :=
  match g with
  | None => Ok l
  | Some (LItems is) => add_items l is
  | Some (LText None) => Ok []
  | Some LBlank => Err ValueError
  | Some (LText (Some is)) => bindR (parsed_filters is) (fun fs => Ok (sort_filters fs))
  end.

(** channel.py 685-806: the entries filter.applied, filter.name, filtered.applied, filtered.name and filters *)
Record entries : Type := mkE {
  e_filter_applied : option flags_given; e_filter_name : option names_given;
  e_filtered_applied : option flags_given; e_filtered_name : option names_given;
  e_filters : option filters_given }.
Definition from_dict (l : list applied) (e : entries) : result (list applied) :=
  bindR (old_format l (e_filter_applied e) (e_filter_name e)) (fun l1 =>
  bindR (old_format l1 (e_filtered_applied e) (e_filtered_name e)) (fun l2 =>
  new_format l2 (e_filters e))).
(** What a channel writes of its filters: a list of dictionaries *)
Definition written (l : list applied) : entries :=
  mkE None None None None (Some (LItems (map (fun f => IDict (mkF (a_name f) (Some (SBool (a_applied f))) (a_stage f))) l))).
