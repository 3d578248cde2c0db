(** Model of the station metadata of a J file: /repo/mt_metadata/transfer_functions/io/jfiles/jfile.py 335-384 [station_metadata], [survey_metadata].

    Runs, channels and the validators of stations are those of ContainerModel.v.  The array of a file that was not read is [None], otherwise the list of its entries
    (real and imaginary part).  The parameters are the items of [birrp_parameters.to_dict(single=True)], the values as they are printed.  The processed date (the
    time of the file), data type and software are not modelled. *)
From Verif Require Import PyBase PyText PyNum ContainerModel.
From Coq Require Import QArith Qabs.
Local Open Scope list_scope.
Local Open Scope string_scope.

Record header : Type := mkHeader { h_station : string; h_lat : Q; h_lon : Q; h_elev : Q; h_deltat : Q; h_params : list (string * string) }.
Definition array : Type := option (list (Q * Q)).
(** [np.all(a == 0)]; [None == 0] is False. *)
Definition all_zero (a : array) : bool :=
  match a with None => false | Some l => forallb (fun c => Qeq_bool (fst c) 0 && Qeq_bool (snd c) 0) l end.

(** A channel with its [channel_id]. *)
Record meta : Type := mkMeta
  { m_id : string; m_lat : Q; m_lon : Q; m_elev : Q; m_station : station; m_rate : Q; m_ids : list (string * nat); m_tf_id : string; m_processed : list string; m_params : list string }.

(** 339-342 *)
Definition sample_rate (d : Q) : result Q :=
  if negb (Qle_bool 0 d) then Ok (Qabs d) else if Qeq_bool d 0 then Err ZeroDivisionError else Ok (1 / d)%Q.
(** 344-350: the channels of the impedance, [enumerate(..., 1)] *)
Fixpoint add_numbered (r : run) (ids : list (string * nat)) (n : nat) (l : list string) : result (run * list (string * nat)) :=
  match l with
  | [] => Ok (r, ids)
  | c :: rest =>
      let k := if starts_in ["e"%char] c then Electric else Magnetic in
      bindR (make k c) (fun ch => add_numbered (add_channel r ch true) (sset c n ids) (S n) rest)
  end.
Definition channels (z t : array) (r : run) : result (run * list (string * nat)) :=
  bindR (if all_zero z then Ok (r, []) else add_numbered r [] 1 ["ex"; "ey"; "hx"; "hy"]) (fun '(r1, ids) =>
  if all_zero t then Ok (r1, ids)
  else bindR (make Magnetic "hz") (fun ch => Ok (add_channel r1 ch true, sset "hz" 5%nat ids))).
(** The ids of stations: "^[a-zA-Z0-9_]*$", station.py 122 *)
Definition valid_id (s : string) : bool := forallb is_word (list_ascii_of_string s).
(** 336-376; the two assignments to attributes of the station (357, 358) run its validators. *)
Definition station_metadata (h : header) (z t : array) : result meta :=
  bindR (sample_rate (h_deltat h)) (fun rate =>
  bindR (channels z t (new_run "001")) (fun '(r, ids) =>
  let s := with_runs new_station (sset (r_id r) r (s_runs new_station)) in
  if valid_id (h_station h) then
    bindR (validate_station fuel s) (fun s1 =>
    bindR (validate_station fuel s1) (fun s2 =>
    Ok (mkMeta (h_station h) (h_lat h) (h_lon h) (h_elev h) s2 rate ids (h_station h) (s_run_list s2)
               (map (fun kv => fst kv ++ " = " ++ snd kv) (h_params h)))))
  else Err ValueError)).
