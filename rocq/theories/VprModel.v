(** Model of making a processing configuration fit a dataset: /repo/mt_metadata/processing/aurora/processing.py 350-375 [Processing.validate_processing], on the stations of DatasetModel.v.

    Of a decimation level there is the engine of its estimator only (estimator.py 13-16), of the dataset its table.  Nothing else is changed. *)
From Verif Require Import PyBase PyNum DatasetModel.
Local Open Scope string_scope.
Local Open Scope list_scope.

(** estimator.py 13-16 [EngineEnum]. *)
Inductive engine : Type := RME_RR | RME | Other.
Record config : Type := mkConfig { engines : list engine; the_stations : stations }.

(** processing.py 365-368: one decimation level. *)
Definition switch (e : engine) : engine := match e with RME_RR => RME | _ => e end.
(** processing.py 363-368 *)
Definition without_remote (c : config) : list engine := match z_remote (the_stations c) with [] => map switch (engines c) | _ => engines c end.
(** processing.py 363-375.  If the table cannot be read the engines have been switched already; what the stations are then is not modelled. *)
Definition validate_processing (rows : list row) (c : config) : list engine * result config :=
  let es := without_remote c in
  (es, if String.eqb (s_id (z_local (the_stations c))) ""
       then bindR (stations_from_dataframe rows (the_stations c)) (fun z => Ok (mkConfig es z))
       else Ok (mkConfig es (the_stations c))).
