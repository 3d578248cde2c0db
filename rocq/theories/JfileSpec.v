(** Specification for C53, C78 and C79: what is listed in a J-file. *)
From Verif Require Import PyBase PyText PyNum PyFloat PyRepr JfileModel.
Local Open Scope list_scope.

(** The first word of a line begins with z or t. *)
Definition is_header (line : text) : Prop := exists w r c s, split_ws line = w :: r /\ lower w = c :: s /\ (c = "z"%char \/ c = "t"%char).
(** The line begins the block of a component: its first word is the name of the component. *)
Definition component_word (c : comp) : text :=
  match c with Zxx => txt "zxx" | Zxy => txt "zxy" | Zyx => txt "zyx" | Zyy => txt "zyy" | Tzx => txt "tzx" | Tzy => txt "tzy" end.
Definition begins (line : text) (c : comp) : Prop := exists w r, split_ws line = w :: r /\ lower w = component_word c.
(** A line with the letter r (such as those of apparent resistivities) ends the data. *)
Definition ends (line : text) : Prop := ~ is_header line /\ In "r"%char (lower line).
(** A line of numbers; a single word is the number of periods. *)
Definition is_row (line : text) (ws : list text) : Prop := ~ is_header line /\ ~ ends line /\ split_ws line = ws /\ List.length ws <> 1%nat.
(** The line with words [ws] is listed for component [c]; [post] are the lines after it. *)
Definition listed (lines : list text) (c : comp) (ws : list text) (post : list text) : Prop :=
  exists pre h mid row, lines = pre ++ h :: mid ++ row :: post /\ begins h c /\ is_row row ws /\
    Forall (fun l => ~ is_header l) mid /\ Forall (fun l => ~ ends l) (pre ++ mid).
(** The number a word stands for: masked numbers and other words count as zero. *)
Definition word_value (w : text) : xnum := match read_x w with Some x => if masked x then XFin 0 else x | None => XFin 0 end.
Definition same (x y : xnum) : Prop := match x, y with XFin p, XFin q => (p == q)%Q | _, _ => x = y end.
(** The last line listed for [c] at period [p]. *)
Definition listed_at (lines : list text) (c : comp) (p : xnum) (wp : text) (vs : list text) (post : list text) : Prop :=
  listed lines c (wp :: vs) post /\ same (word_value wp) p.
Definition last_at (lines : list text) (c : comp) (p : xnum) (vs : list text) : Prop :=
  exists wp post, listed_at lines c p wp vs post /\
    forall wp' vs' post', listed_at lines c p wp' vs' post' -> (List.length post <= List.length post')%nat.
Definition x_pos (x : xnum) (lo hi : Q) : Prop := match x with XFin q => (lo <= q < hi)%Q | _ => False end.
Definition x_lt (x y : xnum) : Prop := match x, y with XFin p, XFin q => (p < q)%Q | _, _ => False end.
(** Components that are read: those of the tipper only with values of "tzx". *)
Definition tipper_listed (lines : list text) : Prop := exists wp vs post, listed lines Tzx (wp :: vs) post.
Definition is_tipper (c : comp) : Prop := c = Tzx \/ c = Tzy.

(** Header lines (C79): pairs "key= value" or "key=value" and other words, between blanks. *)
Inductive hitem : Type := IPair (blank : bool) (k v : text) | IWord (w : text).
Definition item_words (i : hitem) : list text :=
  match i with
  | IPair true k v => [k ++ ["="%char]; v]
  | IPair false k v => [k ++ "="%char :: v]
  | IWord w => [w]
  end.
Definition plain (w : text) : Prop := w <> [] /\ ~ In "="%char w /\ ~ In ","%char w /\ ~ In " "%char w.
Definition item_ok (i : hitem) : Prop := match i with IPair _ k v => plain k /\ plain v | IWord w => plain w end.
(** The line, whose first character is "#", is written with these items. *)
Definition header_written (line : text) (items : list hitem) : Prop := split_ws (tl line) = flat_map item_words items.
(** The line does not begin with a word of one letter that is no key. *)
Definition no_single (items : list hitem) : Prop := match items with IWord [_] :: _ => False | _ => True end.
(** [v] is the last value given for [k]. *)
Definition last_pair (items : list hitem) (k v : text) : Prop :=
  exists a b blank, items = a ++ IPair blank k v :: b /\ forall blank' v', ~ In (IPair blank' k v') b.
(** The value: a number if it can be read as one. *)
Definition value_of (v : text) (h : hval) : Prop := (exists x, read_x v = Some x /\ h = HNum x) \/ (read_x v = None /\ h = HText v).
