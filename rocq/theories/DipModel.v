(** Model of the dipoles and their electrodes in the field notes of an EMTF XML file:
    /repo/mt_metadata/transfer_functions/io/emtfxml/metadata/dipole.py 97-150, electrode.py 81-95, and how run.py 205-219 reads them.

    Simplified: numbers are rational; texts hold no character that XML escapes (for these see LayModel.v); "/" and "." do not occur in the
    keys that are read.  None and the empty text are the same attribute in a file (helpers.py 176-206). *)
From Verif Require Import PyBase PyText PyNum PyFloat ValidatorsModel ContainerModel CommentModel XmlModel EmtfModel LayModel.
Local Open Scope nat_scope.
Local Open Scope list_scope.

(** common/enumerations.py 104-109 *)
Inductive side : Type := North | South | East | West | NoSide.
Definition side_text (s : side) : text :=
  match s with North => txt "N" | South => txt "S" | East => txt "E" | West => txt "W" | NoSide => [] end.
(** Any spelling of a value (enumerations.py 15-40, EnumModel.v). *)
Definition side_of (s : text) : result side :=
  match List.find (fun d => text_eqb (lower (side_text d)) (lower s)) [North; South; East; West; NoSide] with Some d => Ok d | None => Err ValueError end.

(** electrode.py 17-72 *)
Record electrode : Type := mkElectrode { e_side : side; e_number : text; e_value : text; e_comments : comment }.
(** dipole.py 17-95 *)
Record dipole : Type := mkDipole { p_manu : option text; p_length : option Q; p_azimuth : option Q; p_name : option text; p_type : option text;
                                   p_electrodes : list electrode }.
Definition no_comment : comment := mkComment None default_time None.
Definition new_electrode : electrode := mkElectrode NoSide (txt "0") [] no_comment.
Definition new_dipole : dipole := mkDipole None None None None None [].

Section Dipole.
(** [show]: the text of a time, [to_time]: the reader of times of a comment (CommentModel.v). *)
Variables (to_time : text -> option Z) (show : Z -> text).

(** * Writing *)
(** electrode.py 81-95 *)
Definition electrode_xml (e : electrode) : xml :=
  Elem (txt "Electrode") [(txt "location", upper (side_text (e_side e))); (txt "number", e_number e)] (Some (as_string show (e_comments e))) [].
Definition or_empty (o : option text) : text := match o with Some s => s | None => [] end.
(** dipole.py 118-150; emtfxml.py 405 then gives the tags capitals (helpers.py 53-72). *)
Definition dipole_xml (p : dipole) : xml :=
  Elem (txt "Dipole") [(txt "name", or_empty (p_name p)); (txt "type", or_empty (p_type p))] None
    (Elem (txt "Manufacturer") [] (p_manu p) [] ::
     match p_length p with Some q => [Elem (txt "Length") [(txt "units", txt "meters")] (Some (show_fixed 3 q)) []] | None => [] end ++
     match p_azimuth p with Some q => [Elem (txt "Azimuth") [(txt "units", txt "degrees")] (Some (show_fixed 3 q)) []] | None => [] end ++
     map electrode_xml (p_electrodes p)).

(** * Reading *)
Definition text_or_none (v : xval) : result (option text) := match v with XNone => Ok None | XText s => Ok (Some s) | _ => Err ValueError end.
Definition text_only (v : xval) : result text := match v with XText s => Ok s | _ => Err ValueError end.
Definition number_or_none (v : xval) : result (option Q) := match v with XNone => Ok None | _ => bindR (number_of_val v) (fun q => Ok (Some q)) end.
(** base/metadata.py 1212-1216, 146-187 on an electrode; [electrode.py 74-79] for its comments. *)
Definition set_electrode (e : electrode) (k : text) (v : xval) : result electrode :=
  match v with
  | XDict d => match d with [] => Ok e | _ => Err AttributeError end
  | _ =>
      if text_eqb k (txt "location") then bindR (text_only v) (fun s => bindR (side_of s) (fun d => Ok (mkElectrode d (e_number e) (e_value e) (e_comments e))))
      else if text_eqb k (txt "number") then bindR (text_only v) (fun s => Ok (mkElectrode (e_side e) s (e_value e) (e_comments e)))
      else if text_eqb k (txt "value") then bindR (text_only v) (fun s => Ok (mkElectrode (e_side e) (e_number e) s (e_comments e)))
      else if text_eqb k (txt "comments") then
        match v with
        | XText s => bindR (from_text to_time s) (fun m => Ok (mkElectrode (e_side e) (e_number e) (e_value e) m))
        | _ => Err ValueError
        end
      else Ok e
  end.
Fixpoint set_electrode_all (e : electrode) (d : list (text * xval)) : result electrode :=
  match d with [] => Ok e | (k, v) :: r => bindR (set_electrode e k v) (fun e' => set_electrode_all e' r) end.
(** dipole.py 97-116 [validate_electrode]; base/metadata.py 1192-1202: a dictionary of one dictionary is opened. *)
Definition electrode_of (v : xval) : result electrode :=
  match v with
  | XDict [(_, XDict d)] => set_electrode_all new_electrode d
  | XDict d => set_electrode_all new_electrode d
  | _ => Err TypeError
  end.
Fixpoint electrodes_of (l : list xval) : result (list electrode) :=
  match l with [] => Ok [] | v :: r => bindR (electrode_of v) (fun e => bindR (electrodes_of r) (fun es => Ok (e :: es))) end.
(** base/metadata.py 1212-1216 on a dipole.  A dictionary is flattened (helpers.py 545-568) and its values are given to the attribute of that
    name (146-187): a list has no attributes that can be set. *)
Definition set_dipole (p : dipole) (k : text) (v : xval) : result dipole :=
  match v with
  | XDict d => match d with [] => Ok p | _ => Err AttributeError end
  | _ =>
      if text_eqb k (txt "manufacturer") then bindR (text_or_none v) (fun s => Ok (mkDipole s (p_length p) (p_azimuth p) (p_name p) (p_type p) (p_electrodes p)))
      else if text_eqb k (txt "length") then bindR (number_or_none v) (fun q => Ok (mkDipole (p_manu p) q (p_azimuth p) (p_name p) (p_type p) (p_electrodes p)))
      else if text_eqb k (txt "azimuth") then bindR (number_or_none v) (fun q => Ok (mkDipole (p_manu p) (p_length p) q (p_name p) (p_type p) (p_electrodes p)))
      else if text_eqb k (txt "name") then bindR (text_or_none v) (fun s => Ok (mkDipole (p_manu p) (p_length p) (p_azimuth p) s (p_type p) (p_electrodes p)))
      else if text_eqb k (txt "type") then bindR (text_or_none v) (fun s => Ok (mkDipole (p_manu p) (p_length p) (p_azimuth p) (p_name p) s (p_electrodes p)))
      else if text_eqb k (txt "electrode") then
        bindR (electrodes_of (match v with XList l => l | _ => [v] end)) (fun es => Ok (mkDipole (p_manu p) (p_length p) (p_azimuth p) (p_name p) (p_type p) es))
      else Ok p
  end.
Fixpoint set_dipole_all (p : dipole) (d : list (text * xval)) : result dipole :=
  match d with [] => Ok p | (k, v) :: r => bindR (set_dipole p k v) (fun p' => set_dipole_all p' r) end.
(** run.py 205-219: [Dipole().from_dict({"dipole": v})] *)
Definition dipole_of (v : xval) : result dipole := match v with XDict d => set_dipole_all new_dipole d | _ => Ok new_dipole end.
(** An element of a file (base/helpers.py 810-873, emtfxml/metadata/helpers.py 146-173). *)
Definition dipole_of_element (e : xml) : result dipole := bindR (read e) (fun x => bindR (conv x) dipole_of).
End Dipole.
