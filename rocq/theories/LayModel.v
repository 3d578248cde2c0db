(** Model of the site layout, the lists of estimates and data types, and the texts of an EMTF XML file:
    mt_metadata/transfer_functions/io/emtfxml/metadata/site_layout.py, magnetic.py, electric.py, estimate.py,
    statistical_estimates.py, data_type.py, data_types.py, helpers.py (27-72, 176-206) and
    mt_metadata/transfer_functions/io/emtfxml/emtfxml.py 307-525.

    Simplified: numbers are rational; of an estimate and a data type only the name is kept when they are read, and the
    values are not validated; the units of a data type are a parameter.  Texts are ASCII. *)
From Verif Require Import PyBase PyText PyNum PyFloat XmlModel EmtfModel.
Local Open Scope nat_scope.

(** ** Texts *)
(** xml.dom.minidom [_write_data], used by base/helpers.py 876-884 (element_to_string). *)
Definition escape_char (c : ascii) : text :=
  if Ascii.eqb c "&" then txt "&amp;" else if Ascii.eqb c "<" then txt "&lt;"
  else if Ascii.eqb c """" then txt "&quot;" else if Ascii.eqb c ">" then txt "&gt;" else [c].
Definition escape (s : text) : text := flat_map escape_char s.
(** emtfxml.py 325: [xml_string.replace("&", "and")]; after it there is no entity left for the parser. *)
Definition without_ampersands (s : text) : text := replace_char "&" (txt "and") s.
(** helpers.py 862-870 (element_to_dict): the text of an element, without white space around it. *)
Definition read_text (s : text) : text := strip (without_ampersands s).
Definition text_through_file (s : text) : text := read_text (escape s).

(** ** Nulls, helpers.py 176-206 [_remove_null_values], mt_metadata/__init__.py 93-104.  An element without text and one with
    an empty text are the same in a file. *)
Definition null_values : list text :=
  [[]; txt "null"; txt "None"; txt "NONE"; txt "NULL"; txt "Null"; txt "none"; txt "1980-01-01T00:00:00"; txt "1980-01-01T00:00:00+00:00"].
Definition is_null (s : text) : bool := existsb (text_eqb s) null_values.
Definition null_text (s : text) : text := if is_null s then [] else s.
Fixpoint remove_null (e : xml) : xml :=
  match e with
  | Elem tag a t cs => Elem tag (map (fun kv => (fst kv, null_text (snd kv))) a)
                         (match t with Some s => if is_null s then None else Some s | None => None end) (map remove_null cs)
  end.

(** ** Channels *)
(** magnetic.py 15-82, electric.py 15-125 *)
Inductive chan : Type :=
| Mag (name : text) (orientation x y z : Q)
| Ele (name : text) (orientation x y z x2 y2 z2 : Q).
Definition name_of (c : chan) : text := match c with Mag n _ _ _ _ => n | Ele n _ _ _ _ _ _ _ => n end.
Definition numbers (c : chan) : list (text * Q) :=
  match c with
  | Mag _ o x y z => [(txt "orientation", o); (txt "x", x); (txt "y", y); (txt "z", z)]
  | Ele _ o x y z x2 y2 z2 =>
      [(txt "orientation", o); (txt "x", x); (txt "y", y); (txt "z", z); (txt "x2", x2); (txt "y2", y2); (txt "z2", z2)]
  end.
Definition chan_tag (c : chan) : text := match c with Mag _ _ _ _ _ => txt "Magnetic" | Ele _ _ _ _ _ _ _ _ => txt "Electric" end.
(** magnetic.py 85-113, electric.py 127-161 *)
Definition chan_xml (c : chan) : xml :=
  Elem (chan_tag c) ((txt "name", name_of c) :: map (fun kv => (fst kv, show_fixed 3 (snd kv))) (numbers c)) None [].
Record layout : Type := mkLayout { l_in : list chan; l_out : list chan }.
(** site_layout.py 146-178 *)
Definition layout_xml (l : layout) : xml :=
  Elem (txt "SiteLayout") [] None
    [Elem (txt "InputChannels") [(txt "ref", txt "site"); (txt "units", txt "m")] None (map chan_xml (l_in l));
     Elem (txt "OutputChannels") [(txt "ref", txt "site"); (txt "units", txt "m")] None (map chan_xml (l_out l))].

(** A value of a field (base/metadata.py 146-170 [update_attribute], pydantic): a name, or a number.  Keys that are no field are
    extra attributes; numbers that are not finite are not modelled. *)
Definition number_of_val (v : xval) : result Q :=
  match v with
  | XText s | XNum s => match read_float s with Some (Fin q) => Ok q | _ => Err ValueError end
  | _ => Err ValueError
  end.
Definition name_of_val (v : xval) : result text := match v with XText s | XNum s => Ok s | _ => Err ValueError end.
Definition set_chan (c : chan) (k : text) (v : xval) : result chan :=
  let num := fun f => bindR (number_of_val v) (fun q => Ok (f q)) in
  match c with
  | Mag n o x y z =>
      if text_eqb k (txt "name") then bindR (name_of_val v) (fun s => Ok (Mag s o x y z))
      else if text_eqb k (txt "orientation") then num (fun q => Mag n q x y z)
      else if text_eqb k (txt "x") then num (fun q => Mag n o q y z)
      else if text_eqb k (txt "y") then num (fun q => Mag n o x q z)
      else if text_eqb k (txt "z") then num (fun q => Mag n o x y q)
      else Ok c
  | Ele n o x y z x2 y2 z2 =>
      if text_eqb k (txt "name") then bindR (name_of_val v) (fun s => Ok (Ele s o x y z x2 y2 z2))
      else if text_eqb k (txt "orientation") then num (fun q => Ele n q x y z x2 y2 z2)
      else if text_eqb k (txt "x") then num (fun q => Ele n o q y z x2 y2 z2)
      else if text_eqb k (txt "y") then num (fun q => Ele n o x q z x2 y2 z2)
      else if text_eqb k (txt "z") then num (fun q => Ele n o x y q x2 y2 z2)
      else if text_eqb k (txt "x2") then num (fun q => Ele n o x y z q y2 z2)
      else if text_eqb k (txt "y2") then num (fun q => Ele n o x y z x2 q z2)
      else if text_eqb k (txt "z2") then num (fun q => Ele n o x y z x2 y2 q)
      else Ok c
  end.
Definition new_mag (n : text) : chan := Mag n 0 0 0 0.
Definition new_ele (n : text) : chan := Ele n 0 0 0 0 0 0 0.
(** base/metadata.py 1162-1218 (from_dict) of the dictionary {"magnetic": v} or {"electric": v} *)
Fixpoint set_fields (c : chan) (d : list (text * xval)) : result chan :=
  match d with [] => Ok c | (k, v) :: r => bindR (set_chan c k v) (fun c' => set_fields c' r) end.
Definition chan_of (c : chan) (v : xval) : result chan := match v with XDict d => set_fields c d | _ => Ok c end.
Fixpoint chans_of (c : chan) (l : list xval) : result (list chan) :=
  match l with [] => Ok [] | v :: r => bindR (chan_of c v) (fun a => bindR (chans_of c r) (fun b => Ok (a :: b))) end.
(** site_layout.py 123-142: the values under "magnetic" or "electric"; None for [continue]. *)
Definition values_under (k : text) (section : result xval) : option (list xval) :=
  match bindR section (at_key k) with
  | Ok XNone => None
  | Ok (XList l) => Some l
  | Ok v => Some [v]
  | Err _ => Some []
  end.
(** site_layout.py 110-144 [read_dict] for one of the two keys; [old] is what was there. *)
Definition read_section (root : xval) (ch : text) (old : list chan) : result (list chan) :=
  let section := bindR (at_key (txt "site_layout") root) (at_key ch) in
  match values_under (txt "magnetic") section with
  | None => Ok old
  | Some ms =>
      match values_under (txt "electric") section with
      | None => Ok old
      | Some es => bindR (chans_of (new_mag []) ms) (fun a => bindR (chans_of (new_ele []) es) (fun b => Ok (a ++ b)%list))
      end
  end.
Definition read_layout (old : layout) (root : xval) : result layout :=
  bindR (read_section root (txt "input_channels") (l_in old)) (fun i =>
  bindR (read_section root (txt "output_channels") (l_out old)) (fun o => Ok (mkLayout i o))).
(** emtfxml.py 331-341: the layout of a file whose root has the element of the layout. *)
Definition layout_of_file (old : layout) (root : xml) : result layout := bindR (read root) (fun x => bindR (conv x) (read_layout old)).

(** ** The data of the file: None, or all the values of an array. *)
Definition arr : Type := option (list (cell * cell)).
Definition is_zero (c : cell) : bool := match c with Some q => Qeq_bool q 0 | None => false end.
Definition all_zeros (l : list (cell * cell)) : bool := forallb (fun c => is_zero (fst c) && is_zero (snd c))%bool l.
(** emtfxml.py 484, 488: [(a != 0).any()]; [None != 0] is True, which has no [any]. *)
Definition any_nonzero (a : arr) : result bool := match a with Some l => Ok (negb (all_zeros l)) | None => Err AttributeError end.

(** emtfxml.py 482-495: the channels the data have. *)
Definition needed (z t : bool) : list text * list text :=
  ((if (z || t)%bool then [txt "hx"; txt "hy"] else []),
   ((if z then [txt "ex"; txt "ey"] else []) ++ (if t then [txt "hz"] else []))%list).
Definition low_name (c : chan) : text := lower (name_of c).
(** site_layout.py 93-102 *)
Definition chan_named (s : text) : result chan :=
  if prefix_of (txt "e") (lower s) then Ok (new_ele s)
  else if (prefix_of (txt "b") (lower s) || prefix_of (txt "h") (lower s))%bool then Ok (new_mag s)
  else Err ValueError.
(** emtfxml.py 501-509 *)
Definition chans_for (chans : list chan) (n : text) : result (list chan) :=
  match filter (fun c => text_eqb (low_name c) (lower n)) chans with
  | [] => bindR (chan_named n) (fun c => Ok [c])
  | l => Ok l
  end.
Fixpoint update_chans (chans : list chan) (names : list text) : result (list chan) :=
  match names with [] => Ok [] | n :: r => bindR (chans_for chans n) (fun a => bindR (update_chans chans r) (fun b => Ok (a ++ b)%list)) end.
(** emtfxml.py 497-525: [sorted] lists are the same when the lists are permutations. *)
Fixpoint remove_one (x : text) (l : list text) : option (list text) :=
  match l with
  | [] => None
  | y :: r => if text_eqb x y then Some r else match remove_one x r with Some r' => Some (y :: r') | None => None end
  end.
Fixpoint same_names (a b : list text) : bool :=
  match a with
  | [] => match b with [] => true | _ => false end
  | x :: r => match remove_one x b with Some b' => same_names r b' | None => false end
  end.
Definition update_section (chans : list chan) (names : list text) : result (list chan) :=
  if same_names names (map low_name chans) then Ok chans else update_chans chans names.
(** emtfxml.py 474-525 [_update_site_layout] *)
Definition update_layout (z t : arr) (l : layout) : result layout :=
  bindR (any_nonzero z) (fun bz => bindR (any_nonzero t) (fun bt =>
  let '(i, o) := needed bz bt in
  bindR (update_section (l_in l) i) (fun li => bindR (update_section (l_out l) o) (fun lo => Ok (mkLayout li lo))))).

(** ** Estimates and data types *)
Definition listed (a : arr) : bool := match a with Some l => negb (all_zeros l) | None => false end.
(** emtfxml.py 424-433: the tipper counts only if the array of the impedance is None. *)
Definition listed_either (z t : arr) : bool := match z with Some l => negb (all_zeros l) | None => listed t end.
Record arrays : Type := mkArrays { a_z : arr; a_z_var : arr; a_z_inv : arr; a_z_res : arr; a_t : arr; a_t_var : arr; a_t_inv : arr; a_t_res : arr }.
(** emtfxml.py 47-79, 418-455: name, type, description, url, intention, tag. *)
Definition entry : Type := list (text * text) * list (text * text).
Definition estimate (name type descr url intention tag : text) : entry :=
  ([(txt "name", upper name); (txt "type", type)],
   [(txt "Description", descr); (txt "ExternalUrl", url); (txt "Intention", intention); (txt "Tag", tag)]).
Definition variance : entry := estimate (txt "VAR") (txt "real") (txt "Variance") (txt "http://www.iris.edu/dms/products/emtf/variance.html") (txt "error estimate") (txt "variance").
Definition signal_power : entry := estimate (txt "INVSIGCOV") (txt "complex") (txt "Inverse Coherent Signal Power Matrix (S)")
  (txt "http://www.iris.edu/dms/products/emtf/inverse_signal_covariance.html") (txt "signal power estimate") (txt "inverse_signal_covariance").
Definition residual : entry := estimate (txt "RESIDCOV") (txt "complex") (txt "Residual Covariance (N)")
  (txt "http://www.iris.edu/dms/products/emtf/residual_covariance.html") (txt "error estimate") (txt "residual_covariance").
Definition get_estimates (d : arrays) : list entry :=
  ((if listed_either (a_z_var d) (a_t_var d) then [variance] else []) ++
   (if listed_either (a_z_inv d) (a_t_inv d) then [signal_power] else []) ++
   (if listed_either (a_z_res d) (a_t_res d) then [residual] else []))%list.
(** emtfxml.py 114-137, 457-472; data_type.py to_xml *)
Definition data_type (units name output input descr url tag : text) : entry :=
  ([(txt "name", name); (txt "type", txt "complex"); (txt "output", output); (txt "input", input); (txt "units", units)],
   [(txt "Description", descr); (txt "ExternalUrl", url); (txt "Intention", txt "primary data type"); (txt "Tag", tag)]).
Definition impedance_type (u : text) : entry := data_type u (txt "Z") (txt "E") (txt "H") (txt "MT impedance") (txt "http://www.iris.edu/dms/products/emtf/impedance.html") (txt "impedance").
Definition tipper_type (u : text) : entry := data_type u (txt "T") (txt "H") (txt "H") (txt "Vertical Field Transfer Functions (Tipper)") (txt "http://www.iris.edu/dms/products/emtf/tipper.html") (txt "tipper").
Definition get_types (uz ut : text) (d : arrays) : list entry :=
  ((if listed (a_z d) then [impedance_type uz] else []) ++ (if listed (a_t d) then [tipper_type ut] else []))%list.
(** estimate.py, data_type.py: the element of an entry; statistical_estimates.py, data_types.py: of the list. *)
Definition entry_xml (tag : text) (e : entry) : xml := Elem tag (fst e) None (map (fun kv => Elem (fst kv) [] (Some (snd kv)) []) (snd e)).
Definition list_xml (tag item : text) (l : list entry) : xml := Elem tag [] None (map (entry_xml item) l).
(** statistical_estimates.py 34-63, data_types.py 34-66: a missing key is ignored; what is not a dictionary raises. *)
Definition entry_name (v : xval) : result text :=
  match v with XDict d => match dget text_dec (txt "name") d with Some v => name_of_val v | None => Ok [] end | v => name_of_val v end.
Fixpoint entry_names (l : list xval) : result (list text) :=
  match l with [] => Ok [] | v :: r => bindR (entry_name v) (fun a => bindR (entry_names r) (fun b => Ok (a :: b))) end.
Definition read_list (key item : text) (root : xval) (old : list text) : result (list text) :=
  match bindR (at_key key root) (at_key item) with
  | Ok (XList l) => entry_names l
  | Ok v => entry_names [v]
  | Err KeyError => Ok old
  | Err e => Err e
  end.
Definition estimates_of_file (root : xml) : result (list text) :=
  bindR (read root) (fun x => bindR (conv x) (fun r => read_list (txt "statistical_estimates") (txt "estimate") r [])).
Definition types_of_file (root : xml) : result (list text) :=
  bindR (read root) (fun x => bindR (conv x) (fun r => read_list (txt "data_types") (txt "data_type") r [])).
(** The roots of files with these elements, emtfxml.py 360-412. *)
Definition root_with (e : xml) : xml := Elem (txt "EM_TF") [] None [remove_null e].
