(** What a TF object is to its user: five quantities over periods and pairs of channels. *)
From Coq Require Import QArith Reals.
From Verif Require Import PyBase PyText TfModel Cplx.
Local Open Scope nat_scope.

Inductive chan : Type := Ex | Ey | Hx | Hy | Hz.
Definition chan_dec (a b : chan) : {a = b} + {a <> b}.
Proof. decide equality. Defined.
Definition var_dec (a b : var) : {a = b} + {a <> b}.
Proof. decide equality. Defined.
(** The name the user gave the channel. *)
Definition name (ns : names) (c : chan) : text :=
  match c with Ex => n_ex ns | Ey => n_ey ns | Hx => n_hx ns | Hy => n_hy ns | Hz => n_hz ns end.

(** Every quantity is a matrix: its rows and columns. *)
Definition rows (a : atype) : list chan :=
  match a with
  | AImp | AImpErr | AImpModel => [Ex; Ey]
  | ATip | ATipErr | ATipModel => [Hz]
  | ATf | ATfErr | ATfModel => [Ex; Ey; Hz]
  | AIsp => [Hx; Hy]
  | ARes => [Ex; Ey; Hz]
  end.
Definition cols (a : atype) : list chan :=
  match a with ARes => [Ex; Ey; Hz] | _ => [Hx; Hy] end.
(** Impedance and tipper are parts of the transfer function, and so are their errors of its errors. *)
Definition part (a : atype) : var :=
  match a with
  | AImp | ATip | ATf => VTf
  | AImpErr | ATipErr | ATfErr => VErr
  | AImpModel | ATipModel | ATfModel => VModel
  | AIsp => VIsp
  | ARes => VRes
  end.
(** Errors are shown only together with what they are the errors of. *)
Definition base (a : atype) : atype :=
  match a with
  | AImpErr | AImpModel => AImp
  | ATipErr | ATipModel => ATip
  | ATfErr | ATfModel => ATf
  | a => a
  end.
Definition covariance (a : atype) : bool := match a with AIsp | ARes => true | _ => false end.

Fixpoint at_place {A} (dec : forall a b : A, {a = b} + {a <> b}) (x : A) (l : list A) : option nat :=
  match l with
  | [] => None
  | y :: r => if dec x y then Some 0 else match at_place dec x r with Some n => Some (S n) | None => None end
  end.

Section Numbers.
Variable num : nums.

Definition entry (t : tf num) (v : var) (p : nat) (o i : chan) : val num :=
  d_at num (t_data num t) v p (name (t_names num t) o) (name (t_names num t) i).
Definition periods (t : tf num) : list Q := d_periods num (t_data num t).
(** The five channels have five names, and these are the labels of the data. *)
Definition consistent (t : tf num) : Prop :=
  (forall c c', name (t_names num t) c = name (t_names num t) c' -> c = c') /\
  (forall c, In (name (t_names num t) c) (d_labels num (t_data num t))).
(** An array of errors holds real numbers. *)
Definition kept (v : var) (x : val num) : val num := match v with VErr | VModel => real num x | _ => x end.
(** The shape an array for [a] must have. *)
Definition fits (t : tf num) (a : atype) (shape : list nat) : Prop :=
  shape = [length (periods t); length (rows a); length (cols a)].
(** Where [a] keeps the entry of variable [v], output [o] and input [i]. *)
Definition place (a : atype) (v : var) (o i : chan) : option (nat * nat) :=
  if var_dec v (part a) then
    match at_place chan_dec o (rows a), at_place chan_dec i (cols a) with Some r, Some c => Some (r, c) | _, _ => None end
  else None.
(** A quantity is there if it has an entry that is not zero; in a tipper nan counts as zero. *)
Definition nothing (a : atype) (x : val num) : Prop :=
  is_zero num x = true \/ (a = ATip /\ is_nan num x = true).
Definition there (a : atype) (t : tf num) : Prop :=
  exists p o i, p < length (periods t) /\ In o (rows (base a)) /\ In i (cols (base a)) /\ ~ nothing (base a) (entry t (part (base a)) p o i).
(** Two quantities do not touch: no common entry, and no errors beside covariances. *)
Definition separate (a b : atype) : Prop :=
  (forall v o i, place a v o i <> None -> place b v o i = None) /\ ~ (part a = VErr /\ covariance b = true).

(** The result of a getter holds these values. *)
Definition shows (t : tf num) (a : atype) (l : labelled num) : Prop :=
  l_periods num l = periods t /\ l_outs num l = map (name (t_names num t)) (rows a) /\ l_ins num l = map (name (t_names num t)) (cols a) /\
  forall p o i, In o (rows a) -> In i (cols a) ->
    l_at num l p (name (t_names num t) o) (name (t_names num t) i) = entry t (part a) p o i.

End Numbers.

(** The complex numbers with nan: the numbers of core.py. *)
Definition cx_zero (x : option Cx) : bool :=
  match x with Some (a, b) => if Req_EM_T a 0%R then if Req_EM_T b 0%R then true else false else false | None => false end.
Definition cx_nums : nums :=
  mkNums (option Cx) (Some C0) cx_zero (fun x => match x with None => true | _ => false end)
    (option_map (fun x : Cx => RtoC (fst x)))
    (fun a b => match a, b with Some a, Some b => Some (RtoC (sqrt (Rabs (Cabs (Cmul a b))))) | _, _ => None end).
(** Whole numbers, for examples: [spread] is the product. *)
Definition z_nums : nums :=
  mkNums (option Z) (Some 0%Z) (fun x => match x with Some z => Z.eqb z 0 | None => false end) (fun x => match x with None => true | _ => false end)
    (fun x => x) (fun a b => match a, b with Some a, Some b => Some (a * b)%Z | _, _ => None end).

(** A program on a TF object: arrays and periods are set one after the other. *)
Inductive op (num : nums) : Type := OSet (a : atype) (v : given num) | OPeriods (l : list Q).
Arguments OSet {num} a v.
Arguments OPeriods {num} l.
Definition step {num} (o : op num) (t : tf num) : tf num * option exn :=
  match o with OSet a v => set num a v t | OPeriods l => set_period num l t end.
Fixpoint run {num} (os : list (op num)) (t : tf num) : tf num * option exn :=
  match os with
  | [] => (t, None)
  | o :: r => let '(t1, e) := step o t in match e with Some e => (t1, Some e) | None => run r t1 end
  end.
(** Neither a labelled array nor periods. *)
Definition plain {num} (o : op num) : Prop := match o with OSet _ (GData _ _ _ _ _) => False | OSet _ _ => True | OPeriods _ => False end.
Definition leaves {num} (a : atype) (o : op num) : Prop := match o with OSet b _ => separate a b | OPeriods _ => True end.
(** The other covariance. *)
Definition partner (a : atype) : atype := match a with AIsp => ARes | _ => AIsp end.
(** Both objects have the same names and periods. *)
Definition like {num} (t t' : tf num) : Prop := t_names num t' = t_names num t /\ periods num t' = periods num t.
Definition same_entries {num} (t t' : tf num) : Prop := forall v p o i, entry num t v p o i = entry num t' v p o i.
