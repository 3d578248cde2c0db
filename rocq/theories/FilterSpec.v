(** Specification vocabulary for filters and channel responses. *)
From Coq Require Import Reals.
From Verif Require Import PyBase PyText Cplx FilterModel.
Local Open Scope R_scope.

(** The output units of every filter are the input units of the one after it. *)
Definition unbroken (fs : list flt) : Prop :=
  forall i f g, nth_error fs i = Some f -> nth_error fs (S i) = Some g -> f_units_out f = f_units_in g.

(** A ChannelResponse is coherent: unbroken chain, and with at least one filter the overall
    units are those of the first and of the last filter. *)
Definition coherent (c : chan) : Prop :=
  unbroken (c_filters c) /\
  forall f g, nth_error (c_filters c) 0 = Some f ->
              nth_error (c_filters c) (length (c_filters c) - 1) = Some g ->
              c_in c = f_units_in f /\ c_out c = f_units_out g.

Definition delay_filter (f : flt) : Prop := exists d, f_body f = TimeDelay d.
Definition decimating (f : flt) : Prop :=
  exists c s d rate gf, f_body f = Fir c s d rate gf /\ d <> 1.
(** The filters a call keeps: delays only on request, decimating filters only on request. *)
Definition kept (include_decimation include_delay : bool) (f : flt) : Prop :=
  (include_delay = true \/ ~ delay_filter f) /\ (include_decimation = true \/ ~ decimating f).

(** [selected P l s]: [s] lists the elements of [l] that satisfy [P], in order. *)
Inductive selected {A : Type} (P : A -> Prop) : list A -> list A -> Prop :=
| sel_nil : selected P [] []
| sel_take x l s : P x -> selected P l s -> selected P (x :: l) (x :: s)
| sel_skip x l s : ~ P x -> selected P l s -> selected P (x :: l) s.

Fixpoint product (l : list Cx) : Cx :=
  match l with [] => C1 | z :: r => Cmul z (product r) end.
(** The response of a cascade of filters at one frequency. *)
Definition cascade (fs : list flt) (q : R) : Cx := product (map (fun f => resp f q) fs).

Definition pointwise (a b : list Cx) : list Cx := map (fun p => Cmul (fst p) (snd p)) (combine a b).

Fixpoint sum (l : list R) : R := match l with [] => 0 | x :: r => x + sum r end.

Definition palindrome {A : Type} (l : list A) : Prop := rev l = l.

(** A phase shift of [2 pi q d]: what a delay of [d] seconds does at frequency [q]. *)
Definition delay_response (d q : R) : Cx := cis (- (2 * PI * q * d)).

Definition same_response (f g : flt) : Prop := forall q, resp f q = resp g q.
