(** Specification for C60. *)
From Verif Require Import PyBase PyText XmlModel.
Local Open Scope list_scope.

(** What a value is after it has been written to XML and read: numbers are texts; texts have no white space around them; nothing,
    empty texts, lists and dictionaries are None; a list of one value is that value. *)
Inductive back : xval -> xval -> Prop :=
| back_none : back XNone XNone
| back_empty : back (XText []) XNone
| back_text : forall s, s <> [] -> back (XText s) (XText (strip s))
| back_num : forall s, s <> [] -> back (XNum s) (XText (strip s))
| back_list0 : back (XList []) XNone
| back_list1 : forall x y, back x y -> back (XList [x]) y
| back_list : forall l l', Forall2 back l l' -> (2 <= List.length l)%nat -> back (XList l) (XList l')
| back_dict0 : back (XDict []) XNone
| back_dict : forall d d', d <> [] -> NoDup (map fst d) -> ~ In (txt "item") (map fst d) -> map fst d = map fst d' -> Forall2 back (map snd d) (map snd d') -> back (XDict d) (XDict d').
(** Values that come back unchanged. *)
Inductive plain : xval -> Prop :=
| plain_none : plain XNone
| plain_text : forall s, s <> [] -> strip s = s -> plain (XText s)
| plain_list : forall l, Forall plain l -> (2 <= List.length l)%nat -> plain (XList l)
| plain_dict : forall d, d <> [] -> NoDup (map fst d) -> ~ In (txt "item") (map fst d) -> Forall plain (map snd d) -> plain (XDict d).
(** The same element as it may be in a file: white space between elements, and units. *)
Inductive printed : xml -> xml -> Prop :=
| printed_leaf : forall tag t a, a = [] \/ (exists u c s, a = [(txt "units", u)] /\ t = Some (c :: s)) -> printed (Elem tag [] t []) (Elem tag a t [])
| printed_node : forall tag t cs cs', cs <> [] -> Forall2 printed cs cs' -> (forall s, t = Some s -> strip s = []) -> printed (Elem tag [] None cs) (Elem tag [] t cs').
(** No attributes anywhere. *)
Inductive no_attribs : xml -> Prop :=
| no_attribs_elem : forall tag t cs, Forall no_attribs cs -> no_attribs (Elem tag [] t cs).
(** The values of the children with a tag, in order. *)
Definition values_of (k : text) (cs : list xml) (vs : list xval) : list xval :=
  map snd (filter (fun cv => text_eqb (tag_of (fst cv)) k) (combine cs vs)).
(** Attributes that are read: none of them is called units or type. *)
Definition read_attribs (a : list (text * text)) : Prop :=
  NoDup (map fst a) /\ ~ In (txt "units") (map fst a) /\ ~ In (txt "type") (map fst a).
