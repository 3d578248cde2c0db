(** Model of the list of applied filters of a channel: mt_metadata/timeseries/channel.py
    395-540 and mt_metadata/timeseries/filtered.py. *)
From Verif Require Import PyBase PyText PySort FilterModel.

(** filtered.py 19-68 [AppliedFilter]; comments are left out, and the name is a string. *)
Record applied : Type := mkA { a_name : text; a_applied : bool; a_stage : option Z }.

(** filtered.py 80-92 [validate_name] *)
Definition is_blank (s : text) : bool := forallb is_space s.
Definition validate_name (s : text) : result text :=
  if is_blank s then Err ValueError
  else Ok (lower (flat_map (fun c => if Ascii.eqb c "/"%char then txt " per " else [c]) s)).

(** [AppliedFilter(name=..., applied=..., stage=...)] *)
Definition make_applied (n : text) (a : bool) (st : option Z) : result applied :=
  bindR (validate_name n) (fun n' => Ok (mkA n' a st)).

(** The sort key of channel.py 404 and 540: [f.stage if f.stage is not None else 0] *)
Definition stage_key (f : applied) : Z := match a_stage f with Some z => z | None => 0%Z end.

(** channel.py 395-417 [validate_filters], run by every assignment to [filters];
    channel.py 529-540 [_sort_filters]. *)
Definition sort_filters (l : list applied) : list applied := sort_key stage_key l.

Definition has_name (n : text) (l : list applied) : bool := existsb (fun f => text_eqb (a_name f) n) l.
Definition next_stage (l : list applied) : Z := (Z.of_nat (length l) + 1)%Z.

(** channel.py 419-453 [add_filter(applied_filter=f)]: appended, not sorted *)
Definition add_object (l : list applied) (f : applied) : list applied :=
  if has_name (a_name f) l then l
  else l ++ [mkA (a_name f) (a_applied f)
                 (match a_stage f with None => Some (next_stage l) | Some z => Some z end)].

(** channel.py 454-478 [add_filter(name=n, applied=a, stage=st)] *)
Definition add_name (l : list applied) (n : text) (a : bool) (st : option Z) : result (list applied) :=
  if has_name n l then Ok l
  else bindR (make_applied n a (match st with None => Some (next_stage l) | Some z => Some z end))
             (fun f => Ok (sort_filters (l ++ [f]))).

(** channel.py 491-510 [remove_filter]; the loop's [f.stage = len(new_list) + 1] *)
Fixpoint drop_name (n : text) (reset : bool) (count : nat) (l : list applied) : list applied :=
  match l with
  | [] => []
  | f :: r => if text_eqb (a_name f) n then drop_name n reset count r
              else (if reset then mkA (a_name f) (a_applied f) (Some (Z.of_nat count + 1)%Z) else f)
                   :: drop_name n reset (S count) r
  end.
Definition remove_filter (l : list applied) (n : text) (reset : bool) : list applied :=
  sort_filters (drop_name n reset 0 l).

(** channel.py 512-527 [get_filter] *)
Definition get_filter (l : list applied) (n : text) : option applied :=
  List.find (fun f => text_eqb (a_name f) n) l.

(** channel.py 480-489 [filter_names] *)
Definition filter_names (l : list applied) : list text := map a_name l.

(** Histories.  [Assign] is [channel.filters = l]. *)
Inductive op : Type :=
| AddObject (n : text) (a : bool) (st : option Z)
| AddName (n : text) (a : bool) (st : option Z)
| Remove (n : text) (reset : bool)
| Assign (l : list applied).
(** A raising call leaves the list as it was; for [AddObject] the object is built by the
    caller with [AppliedFilter(...)], whose constructor may raise. *)
Definition step (l : list applied) (o : op) : list applied :=
  match o with
  | AddObject n a st => match make_applied n a st with Ok f => add_object l f | Err _ => l end
  | AddName n a st => match add_name l n a st with Ok l' => l' | Err _ => l end
  | Remove n reset => remove_filter l n reset
  | Assign l' => sort_filters l'
  end.
Definition run (l : list applied) (ops : list op) : list applied := fold_left step ops l.

(** channel.py 563-580 [channel_response]: the filters found in the dictionary, in order;
    [filters_dict] is given as a lookup. *)
Definition channel_response (l : list applied) (lookup : text -> option flt) : result chan :=
  construct (flat_map (fun f => match lookup (a_name f) with Some g => [IFilter g] | None => [] end) l)
            [] [].
