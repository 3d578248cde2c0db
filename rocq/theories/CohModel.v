(** Model of mt_metadata/features/coherence.py, Coherence.validate_station_ids (206-265).  The messages are not modelled. *)
From Verif Require Import PyBase PyText.
Local Open Scope list_scope.

(** The channels and stations of the feature. *)
Record pair : Type := mkPair { channel_1 : text; station_1 : option text; channel_2 : text; station_2 : option text }.
Definition truthy (s : option text) : bool := match s with Some (_ :: _) => true | _ => false end.
(** 225-227 *)
Definition active (loc : text) (remote : option text) : list text := loc :: (if truthy remote then match remote with Some r => [r] | None => [] end else []).
(** 229-240 *)
Definition forget (loc : text) (remote : option text) (s : option text) : option text :=
  if truthy s then match s with
                   | Some x => if existsb (text_eqb x) (active loc remote) then s else None
                   | None => None
                   end
  else s.
(** 242-252 *)
Definition deduce (loc : text) (remote : option text) (c : text) (s : option text) : option text :=
  if truthy s then s else if prefix_of (txt "r") (lower c) then remote else Some loc.
Definition validate_station_ids (loc : text) (remote : option text) (f : pair) : pair :=
  mkPair (channel_1 f) (deduce loc remote (channel_1 f) (forget loc remote (station_1 f)))
         (channel_2 f) (deduce loc remote (channel_2 f) (forget loc remote (station_2 f))).
