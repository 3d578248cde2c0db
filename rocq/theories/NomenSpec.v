(** What the nomenclature theorems talk about, without the helpers of the model. *)
From Verif Require Import PyBase PyText EnumModel NomenModel.

(** The systems a user can name, with the labels of the north, east electric and of the north, east, down
    magnetic channel. *)
Definition systems : list (text * (text * text * text * text * text)) :=
  [ (txt "default", (txt "ex", txt "ey", txt "hx", txt "hy", txt "hz"));
    (txt "lemi12", (txt "e1", txt "e2", txt "bx", txt "by", txt "bz"));
    (txt "lemi34", (txt "e3", txt "e4", txt "bx", txt "by", txt "bz"));
    (txt "musgraves", (txt "ex", txt "ey", txt "bx", txt "by", txt "bz"));
    (txt "phoenix123", (txt "e1", txt "e2", txt "h1", txt "h2", txt "h3")) ].

(** The labels of an object are those of system [k]. *)
Definition has_labels (n : nomen) (k : text) : Prop :=
  exists ex ey hx hy hz, In (k, (ex, ey, hx, hy, hz)) systems /\
    n_ex n = ex /\ n_ey n = ey /\ n_hx n = hx /\ n_hy n = hy /\ n_hz n = hz.

(** A spelling of a name: the same letters, in any case. *)
Definition spelling (s k : text) : Prop := lower s = lower k.

(** Every component has its own label. *)
Definition unambiguous (n : nomen) : Prop := forall c c', label n c = label n c' -> c = c'.

(** The electric channels have labels that begin with e, the magnetic ones do not. *)
Definition electric (c : comp) : Prop := c = Ex \/ c = Ey.
Definition starts_with_e (t : text) : Prop := exists r, t = (("e"%char : ascii) :: r)%list.
