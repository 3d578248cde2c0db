(** Model of /repo/mt_metadata/processing/aurora/channel_nomenclature.py and of the channel maps of
    /repo/mt_metadata/transfer_functions/__init__.py. *)
From Verif Require Import PyBase PyText EnumModel.

(** The five conventional channels, channel_nomenclature.py 63-126. *)
Inductive comp : Type := Ex | Ey | Hx | Hy | Hz.
Definition comp_eqb (a b : comp) : bool :=
  match a, b with Ex, Ex | Ey, Ey | Hx, Hx | Hy, Hy | Hz, Hz => true | _, _ => false end.

(** CHANNEL_MAPS, transfer_functions/__init__.py 62-71, in the order of the source. *)
Definition cmap (hx hy hz ex ey : text) : list (comp * text) :=
  [(Hx, hx); (Hy, hy); (Hz, hz); (Ex, ex); (Ey, ey)].
Definition channel_maps : list (text * list (comp * text)) :=
  [ (txt "default", cmap (txt "hx") (txt "hy") (txt "hz") (txt "ex") (txt "ey"));
    (txt "lemi12", cmap (txt "bx") (txt "by") (txt "bz") (txt "e1") (txt "e2"));
    (txt "lemi34", cmap (txt "bx") (txt "by") (txt "bz") (txt "e3") (txt "e4"));
    (txt "phoenix123", cmap (txt "h1") (txt "h2") (txt "h3") (txt "e1") (txt "e2"));
    (txt "musgraves", cmap (txt "bx") (txt "by") (txt "bz") (txt "ex") (txt "ey"));
    (txt "nims", cmap (txt "hx") (txt "hy") (txt "hz") (txt "ex") (txt "ey")) ].
Definition comp_dec (a b : comp) : {a = b} + {a <> b}.
Proof. decide equality. Defined.

(** The members of the enumerations of the attributes, channel_nomenclature.py 14-60. *)
Definition members (c : comp) : list text :=
  match c with
  | Ex => [txt "ex"; txt "e1"; txt "e2"; txt "e3"; txt "e4"]
  | Ey => [txt "ey"; txt "e1"; txt "e2"; txt "e3"; txt "e4"]
  | Hx => [txt "bx"; txt "hx"; txt "h1"; txt "h2"; txt "h3"]
  | Hy => [txt "by"; txt "hy"; txt "h1"; txt "h2"; txt "h3"]
  | Hz => [txt "bz"; txt "hz"; txt "h1"; txt "h2"; txt "h3"]
  end.
Definition keywords : list text :=
  [txt "default"; txt "lemi12"; txt "lemi34"; txt "musgraves"; txt "phoenix123"].

(** A ChannelNomenclature: the values of the five labels and of the keyword. *)
Record nomen : Type := mkNomen { n_ex : text; n_ey : text; n_hx : text; n_hy : text; n_hz : text; n_key : text }.
Definition label (n : nomen) (c : comp) : text :=
  match c with Ex => n_ex n | Ey => n_ey n | Hx => n_hx n | Hy => n_hy n | Hz => n_hz n end.
Definition set_label (c : comp) (v : text) (n : nomen) : nomen :=
  match c with
  | Ex => mkNomen v (n_ey n) (n_hx n) (n_hy n) (n_hz n) (n_key n)
  | Ey => mkNomen (n_ex n) v (n_hx n) (n_hy n) (n_hz n) (n_key n)
  | Hx => mkNomen (n_ex n) (n_ey n) v (n_hy n) (n_hz n) (n_key n)
  | Hy => mkNomen (n_ex n) (n_ey n) (n_hx n) v (n_hz n) (n_key n)
  | Hz => mkNomen (n_ex n) (n_ey n) (n_hx n) (n_hy n) v (n_key n)
  end.
Definition set_key (v : text) (n : nomen) : nomen :=
  mkNomen (n_ex n) (n_ey n) (n_hx n) (n_hy n) (n_hz n) v.

(** get_channel_map, channel_nomenclature.py 178-188. *)
Definition get_channel_map (n : nomen) : result (list (comp * text)) :=
  match dget text_dec (lower (n_key n)) channel_maps with
  | Some m => Ok m
  | None => Err NotImplementedError
  end.

(** Assigning a label: the attribute is validated against its enumeration, metadata.py 214-220
    (validate_assignment) and enumerations.py 14-48. *)
Definition assign_label (c : comp) (v : entry) (n : nomen) : result nomen :=
  bindR (validate_enum (members c) v) (fun t => Ok (set_label c t n)).

(** channel_map["ex"], and the assignment of the entry. *)
Definition take (m : list (comp * text)) (c : comp) (n : nomen) : result nomen :=
  match dget comp_dec c m with
  | Some t => assign_label c (EText t) n
  | None => Err KeyError
  end.

(** update, channel_nomenclature.py 190-199. *)
Definition update (n : nomen) : result nomen :=
  bindR (get_channel_map n) (fun m =>
    bindR (take m Ex n) (fun n => bindR (take m Ey n) (fun n =>
      bindR (take m Hx n) (fun n => bindR (take m Hy n) (fun n => take m Hz n))))).

(** check_keyword, channel_nomenclature.py 143-148, and the enumeration of the attribute. *)
Definition check_keyword (v : entry) : entry := match v with ENone => EText (txt "default") | _ => v end.
Definition validate_keyword (v : entry) : result text := validate_enum keywords (check_keyword v).

(** Assigning the keyword: __setattr__, channel_nomenclature.py 210-222. *)
Definition assign_keyword (v : entry) (n : nomen) : result nomen :=
  bindR (validate_keyword v) (fun k => update (set_key k n)).

(** ChannelNomenclature(...): the values given are validated (defaults where a value is left out), then
    model_post_init, channel_nomenclature.py 224-227. *)
Record given : Type := mkGiven { g_label : comp -> option entry; g_key : option entry }.
Definition default_label (c : comp) : text :=
  match c with Ex => txt "ex" | Ey => txt "ey" | Hx => txt "hx" | Hy => txt "hy" | Hz => txt "hz" end.
Definition construct_label (g : given) (c : comp) : result text :=
  match g_label g c with Some v => validate_enum (members c) v | None => Ok (default_label c) end.
Definition construct (g : given) : result nomen :=
  bindR (construct_label g Ex) (fun ex => bindR (construct_label g Ey) (fun ey =>
  bindR (construct_label g Hx) (fun hx => bindR (construct_label g Hy) (fun hy =>
  bindR (construct_label g Hz) (fun hz =>
  bindR (match g_key g with Some v => validate_keyword v | None => Ok (txt "default") end) (fun k =>
    update (mkNomen ex ey hx hy hz k))))))).

(** unpack and the lists of labels, channel_nomenclature.py 150-176, 201-208. *)
Definition unpack (n : nomen) : list text := [n_ex n; n_ey n; n_hx n; n_hy n; n_hz n].
Definition ex_ey (n : nomen) : list text := [n_ex n; n_ey n].
Definition hx_hy (n : nomen) : list text := [n_hx n; n_hy n].
Definition hx_hy_hz (n : nomen) : list text := [n_hx n; n_hy n; n_hz n].
Definition ex_ey_hz (n : nomen) : list text := [n_ex n; n_ey n; n_hz n].
Definition default_input_channels (n : nomen) : list text := hx_hy n.
Definition default_output_channels (n : nomen) : list text := ex_ey_hz n.
Definition default_reference_channels (n : nomen) : list text := hx_hy n.
Definition channels (n : nomen) : result (list text) :=
  bindR (get_channel_map n) (fun m => Ok (dvals m)).

(** A use of the object: assigning a label or the keyword. *)
Inductive op : Type := OLabel (c : comp) (v : entry) | OKey (v : entry).
Definition run_op (o : op) (n : nomen) : result nomen :=
  match o with OLabel c v => assign_label c v n | OKey v => assign_keyword v n end.
(** A call that raises leaves the object as it was: validation happens before the value is stored, and
    updating from a supported keyword does not raise ([update_ok] in NomenProofs). *)
Definition step (n : nomen) (o : op) : nomen := match run_op o n with Ok n' => n' | Err _ => n end.
Definition history (n : nomen) (l : list op) : nomen := fold_left step l n.

(** from_dict(to_dict()), metadata.py 1117-1128 (the entries are sorted by name) and 1204-1218 (the
    attributes are assigned one by one in that order): ex, ey, hx, hy, hz, keyword. *)
Definition restore (n blank : nomen) : nomen :=
  history blank [OLabel Ex (EText (n_ex n)); OLabel Ey (EText (n_ey n)); OLabel Hx (EText (n_hx n));
                 OLabel Hy (EText (n_hy n)); OLabel Hz (EText (n_hz n)); OKey (EText (n_key n))].

(** get_allowed_channel_names, transfer_functions/__init__.py 76-88; the order of the result is that of a
    set and is left open. *)
Definition allowed_names (set_order : list text -> list text) (standard : list comp) : result (list text) :=
  bindR (mapR (fun c => mapR (fun km => match dget comp_dec c (snd km) with Some t => Ok t | None => Err KeyError end)
                             channel_maps) standard)
        (fun ls => Ok (set_order (nodup text_dec (concat ls)))).
