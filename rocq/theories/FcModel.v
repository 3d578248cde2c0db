(** Model of Fourier coefficient metadata: [Decimation]
    (/repo/mt_metadata/processing/fourier_coefficients/decimation.py) with its channels, and [FC]
    (/repo/mt_metadata/processing/fourier_coefficients/fc.py) with its levels.

    A [ListDict] is an ordered string-keyed dictionary (ListDictModel.v models the class itself).  A time is
    the integer number of nanoseconds since 1970 (as in ContainerModel.v). *)
From Verif Require Import PyBase.
From Verif Require Import ContainerModel.
Open Scope string_scope.
Open Scope Z_scope.

(** decimation.py 396-415 [is_valid_for_time_series_length]; window.py 155-158 [num_samples_advance]. *)
Definition num_samples_advance (num_samples overlap : Z) : Z := num_samples - overlap.
Definition is_valid_length (num_samples overlap min_windows n_samples_ts : Z) : bool :=
  let required := num_samples + (min_windows - 1) * num_samples_advance num_samples overlap in
  if n_samples_ts <? required then false else true.

(** decimation.py 372-394 and fc.py 305-327 [update_time_period], given the children's periods.  The list
    of ends is also guarded by the start (lines 381 and 314). *)
Definition fc_update_period (own : period) (children : list period) : period :=
  let set := filter (fun p => negb (is_default (p_start p))) children in
  let starts := map p_start set in
  let ends := map p_end set in
  let s := match starts with
           | [] => p_start own
           | x :: r => let m := zmin x r in
                       if is_default (p_start own) then m
                       else if negb (p_start own <? m) then m else p_start own
           end in
  let e := match ends with
           | [] => p_end own
           | x :: r => let m := zmax x r in
                       if is_default (p_end own) then m
                       else if p_end own <? m then m else p_end own
           end in
  mkPeriod s e.

(** fc_channel.py 14-111 [FCChannel]; [fch_info] stands for the attributes not named here. *)
Record fchan : Type := mkFchan { fch_comp : string; fch_period : period; fch_info : string }.
(** [FCChannel(component=name)]. *)
Definition blank_chan (name : string) : fchan := mkFchan name default_period "".
(** [FCChannel.update] (base/metadata.py 574-610). *)
Definition fchan_update (old new : fchan) : fchan :=
  mkFchan (fch_comp old) (overwrite_period (fch_period old) (fch_period new))
    (overwrite_info (fch_info old) (fch_info new)).

(** decimation.py 18-101. *)
Record fcdec : Type := mkFcdec
  { fd_estimated : list string; fd_channels : dict fchan; fd_period : period }.
Definition with_fd_channels (d : fcdec) (c : dict fchan) : fcdec := mkFcdec (fd_estimated d) c (fd_period d).

(** decimation.py 291-304 [has_channel]. *)
Definition fd_has (d : fcdec) (c : string) : bool := smem c (fd_estimated d).
(** decimation.py 313-325 [get_channel]. *)
Definition fd_get (d : fcdec) (c : string) : result (option fchan) :=
  if fd_has d c then match sget c (fd_channels d) with Some ch => Ok (Some ch) | None => Err KeyError end
  else Ok None.
Definition fd_update_period (d : fcdec) : fcdec :=
  mkFcdec (fd_estimated d) (fd_channels d)
    (fc_update_period (fd_period d) (map fch_period (dvals (fd_channels d)))).

(** decimation.py 327-349 [add_channel]. *)
Definition fd_add (d : fcdec) (ch : fchan) : result fcdec :=
  if fd_has d (fch_comp ch)
  then match sget (fch_comp ch) (fd_channels d) with
       | Some old => Ok (fd_update_period (with_fd_channels d (sset (fch_comp ch) (fchan_update old ch) (fd_channels d))))
       | None => Err KeyError
       end
  else Ok (fd_update_period (with_fd_channels d (sset (fch_comp ch) ch (fd_channels d)))).

(** Python's [list.remove]: the first occurrence. *)
Fixpoint remove_first (x : string) (l : list string) : list string :=
  match l with [] => [] | y :: r => if string_dec x y then r else y :: remove_first x r end.
(** decimation.py 351-366 [remove_channel]; [ListDict.remove] raises KeyError for an unknown key. *)
Definition fd_remove (d : fcdec) (c : string) : result fcdec :=
  if fd_has d c
  then if dmem string_dec c (fd_channels d)
       then Ok (fd_update_period (mkFcdec (remove_first c (fd_estimated d)) (sdel c (fd_channels d)) (fd_period d)))
       else Err KeyError
  else Ok (fd_update_period d).

Definition sdiff (a b : list string) : list string := filter (fun x => negb (smem x b)) a.
Section SetOrder.
  (** The order in which Python iterates over a set of strings. *)
  Variable set_order : list string -> list string.
  (** decimation.py 181-218 [validate_channels_consistency]; it runs after every attribute assignment
      (base/metadata.py, [validate_assignment=True]). *)
  Definition fd_sync (d : fcdec) : fcdec :=
    let existing := dkeys (fd_channels d) in
    let missing := set_order (nodup string_dec (sdiff (fd_estimated d) existing)) in
    let extra := set_order (nodup string_dec (sdiff existing (fd_estimated d))) in
    mkFcdec (fd_estimated d ++ extra)%list
      (fold_left (fun acc n => sset n (blank_chan n) acc) missing (fd_channels d)) (fd_period d).
  (** Assignment to [channels_estimated]. *)
  Definition fd_assign_estimated (d : fcdec) (names : list string) : fcdec :=
    fd_sync (mkFcdec names (fd_channels d) (fd_period d)).
End SetOrder.

(* ---------------------------------------------------------------- FC *)

(** fc.py 25-122 [FC]; [L] is the type of its levels ([Decimation]), [lid] their id, [lper] their time
    period, [lupd] their [update] and [lblank] the level [Decimation(id=name)]. *)
Section FC.
  Context {L : Type}.
  Variable lid : L -> string.
  Variable lper : L -> period.
  Variable lupd : L -> L -> L.
  Variable lblank : string -> L.

  Record fc : Type := mkFC { c_names : list string; c_levels : dict L; c_period : period }.

  (** fc.py 220-233 [has_decimation_level]. *)
  Definition fc_has (f : fc) (k : string) : bool := smem k (c_names f).
  (** fc.py 243-255 [get_decimation_level]. *)
  Definition fc_get (f : fc) (k : string) : result (option L) :=
    if fc_has f k then match sget k (c_levels f) with Some l => Ok (Some l) | None => Err KeyError end
    else Ok None.
  Definition fc_period_update (f : fc) : fc :=
    mkFC (c_names f) (c_levels f) (fc_update_period (c_period f) (map lper (dvals (c_levels f)))).
  (** fc.py 257-280 [add_decimation_level]. *)
  Definition fc_add (f : fc) (l : L) : result fc :=
    let k := lid l in
    if fc_has f k
    then match sget k (c_levels f) with
         | Some old => Ok (fc_period_update (mkFC (c_names f) (sset k (lupd old l) (c_levels f)) (c_period f)))
         | None => Err KeyError
         end
    else Ok (fc_period_update (mkFC (c_names f ++ [k])%list (sset k l (c_levels f)) (c_period f))).
  (** fc.py 282-299 [remove_decimation_level]. *)
  Definition fc_remove (f : fc) (k : string) : result fc :=
    if fc_has f k
    then if dmem string_dec k (c_levels f)
         then Ok (fc_period_update (mkFC (remove_first k (c_names f)) (sdel k (c_levels f)) (c_period f)))
         else Err KeyError
    else Ok (fc_period_update f).
  (** fc.py 198-218 [synchronize_levels]; it runs after every attribute assignment. *)
  Definition fc_add_blank (d : dict L) (n : string) : dict L :=
    if smem n (dkeys d) then d else sset n (lblank n) d.
  Definition fc_sync (f : fc) : fc :=
    let levels := fold_left fc_add_blank (c_names f) (c_levels f) in
    mkFC (fold_left (fun acc n => if smem n acc then acc else (acc ++ [n])%list) (dkeys levels) (c_names f)) levels (c_period f).
  (** fc.py 301-303 [n_decimation_levels]. *)
  Definition fc_count (f : fc) : nat := length (c_levels f).

  (** The operations a user may run one after another on a new [FC]. *)
  Inductive fc_op : Type :=
  | OpAdd (l : L) | OpRemove (k : string) | OpAssign (names : list string) | OpTouch.
  (** [OpAssign] assigns [decimation_levels], [OpTouch] any other attribute; an exception leaves the
      object as it was. *)
  Definition fc_step (f : fc) (o : fc_op) : fc :=
    match o with
    | OpAdd l => match fc_add f l with Ok f' => f' | Err _ => f end
    | OpRemove k => match fc_remove f k with Ok f' => f' | Err _ => f end
    | OpAssign names => fc_sync (mkFC names (c_levels f) (c_period f))
    | OpTouch => fc_sync f
    end.
  Definition new_fc : fc := mkFC [] [] default_period.
  Definition fc_run (ops : list fc_op) : fc := fold_left fc_step ops new_fc.
End FC.
Arguments fc : clear implicits.
Arguments mkFC {L}. Arguments c_names {L}. Arguments c_levels {L}. Arguments c_period {L}.
