(** Model of the table of bands of a decimation level: /repo/mt_metadata/processing/aurora/decimation_level.py 268-283 [bands_dataframe], 299-312 [band_edges],
    314-329 [frequency_bands_obj], 604-644 [_df_from_bands], and of setting the edges of FrequencyBands,
    /repo/mt_metadata/processing/aurora/frequency_bands.py 25-39, 55-79.

    Frequencies are rationals.  That pandas may share the memory of an array it is given is not modelled. *)
From Verif Require Import PyBase PyText PyNum BandModel.
Local Open Scope list_scope.

(** common/band.py 39-128: the level and the indices are None until they are set. *)
Record lband : Type := mkLband { l_dec : option Z; l_lo : option nat; l_hi : option nat; l_band : band }.
(** A row of the table: decimation_level, lower_bound_index, upper_bound_index, frequency_min, frequency_max *)
Record row : Type := mkRow { r_dec : Z; r_lo : option nat; r_hi : option nat; r_fmin : Q; r_fmax : Q }.
(** 634-639: None + 1 is a TypeError *)
Definition row_of (b : lband) : result row :=
  match l_dec b with
  | None => Err TypeError
  | Some d => Ok (mkRow (d + 1) (l_lo b) (l_hi b) (f_min (l_band b)) (f_max (l_band b)))
  end.
(** 604-644.  [sort] is sort_values(by="lower_bound_index"), of which only the order is known (see BdfSpec.v). *)
Definition bands_dataframe (sort : list row -> list row) (bands : list lband) : result (list row) := bindR (mapR row_of bands) (fun rows => Ok (sort rows)).
Definition band_edges (sort : list row -> list row) (bands : list lband) : result edges :=
  bindR (bands_dataframe sort bands) (fun df => Ok (map (fun r => (r_fmin r, r_fmax r)) df)).

(** What band_edges of FrequencyBands may be set to: an array with its shape and, if it has two dimensions, its rows; a data frame with its columns; anything else. *)
Inductive edges_value : Type := EArray (shape : list nat) (rows : list (list Q)) | EFrame (cols : list (text * list Q)) | EOther.
(** frequency_bands.py 55-79 *)
Definition edges_of (v : edges_value) : result edges :=
  match v with
  | EArray [_; 2%nat] rows => Ok (map (fun r => (nth 0 r 0%Q, nth 1 r 0%Q)) rows)
  | EArray _ _ => Err ValueError
  | EFrame cols =>
      match dget text_dec (txt "lower_bound") cols, dget text_dec (txt "upper_bound") cols with
      | Some lo, Some hi => Ok (combine lo hi)
      | _, _ => Err ValueError
      end
  | EOther => Err TypeError
  end.
Definition set_edges (old : edges) (v : edges_value) : edges * option exn := match edges_of v with Ok e => (e, None) | Err x => (old, Some x) end.
(** decimation_level.py 314-329: the edges as an array of two columns *)
Definition frequency_bands_obj (sort : list row -> list row) (bands : list lband) : result edges :=
  bindR (band_edges sort bands) (fun e => edges_of (EArray [length e; 2%nat] (map (fun x => [fst x; snd x]) e))).
