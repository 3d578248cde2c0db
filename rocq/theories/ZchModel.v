(** Model of the channels and the run of an AVG object: ZongeMTAvg.run_metadata and ex/ey/hx/hy/hz_metadata,
    /repo/mt_metadata/transfer_functions/io/zonge/zonge.py 327-469, and Header._has_channel (metadata/header.py 299-305).

    Numbers are abstract: [read] is what a float field makes of a text, [turned] adds 90.  The values of a component are what
    CH.validate_comma_separated_fields made of the texts of the file (TxlModel).  The data logger and the start of the run are not
    modelled; [c_timed] says whether the start of the header was given to the channel. *)
From Verif Require Import PyBase PyText TxlModel.
Local Open Scope list_scope.

Section Zch.
Variables (num : Type) (read : text -> option num) (turned : num -> num).

(** An entry of [_comp_dict], as far as it is used: rx.length, and cmp, azimuth, incl and number of ch *)
Record comp : Type := mkComp { k_length : num; k_cmp : out; k_azimuth : out; k_incl : out; k_number : out }.
(** [h_hpr]: rx.h_p_r of the header itself *)
Record header : Type := mkHeader { h_comps : list (text * comp); h_length : num; h_hpr : list num; h_started : bool }.
Inductive component : Type := Ex | Ey | Hx | Hy | Hz.
(** A channel; [None] is a field that was not set. *)
Record chan : Type := mkChan
  { c_comp : component; c_length : option num; c_azimuth : option num; c_tr_azimuth : option num; c_tilt : option num;
    c_tr_tilt : option num; c_id : text; c_sensor : option text; c_timed : bool }.

(** header.py 299-305: the argument is not used *)
Definition has_channel (h : header) (c : text) : bool :=
  match dget text_dec (txt "zxx") (h_comps h) with
  | Some k => match k_cmp k with ONone => false | _ => true end
  | None => false
  end.
Definition comp_of (h : header) (c : text) : result comp :=
  match dget text_dec c (h_comps h) with Some k => Ok k | None => Err KeyError end.
(** [value[i]] of a text is a character *)
Definition at_ (o : out) (i : nat) : result text :=
  match o with
  | ONone => Err TypeError
  | OText s => match nth_error s i with Some c => Ok [c] | None => Err IndexError end
  | OList l => match nth_error l i with Some s => Ok s | None => Err IndexError end
  end.
Definition number_at (o : out) (i : nat) : result num :=
  bindR (at_ o i) (fun s => match read s with Some x => Ok x | None => Err ValueError end).
Definition hpr_at (l : list num) (i : nat) : result num := match nth_error l i with Some x => Ok x | None => Err IndexError end.

(** zonge.py 350-369 [ex_metadata], 371-390 [ey_metadata] *)
Definition electric (h : header) (c : component) (source : text) (turn : num -> num) (number : text) : result chan :=
  if has_channel h source then
    bindR (comp_of h source) (fun k =>
    bindR (number_at (k_azimuth k) 0) (fun az =>
    bindR (number_at (k_incl k) 0) (fun ti =>
    bindR (at_ (k_number k) 0) (fun n =>
    Ok (mkChan c (Some (k_length k)) (Some az) (Some az) (Some ti) (Some ti) n None true)))))
  else
    bindR (hpr_at (h_hpr h) 0) (fun az =>
    Ok (mkChan c (Some (h_length h)) (Some (turn az)) (Some (turn az)) None None number None false)).
(** 392-410 [hx_metadata], 412-430 [hy_metadata] *)
Definition magnetic (h : header) (c : component) (source : text) (turn : num -> num) (number : text) : result chan :=
  if has_channel h source then
    bindR (comp_of h source) (fun k =>
    bindR (number_at (k_azimuth k) 1) (fun az =>
    bindR (number_at (k_incl k) 1) (fun ti =>
    bindR (at_ (k_number k) 1) (fun n =>
    Ok (mkChan c None (Some az) (Some az) (Some ti) (Some ti) number (Some n) true)))))
  else
    bindR (hpr_at (h_hpr h) 0) (fun az =>
    Ok (mkChan c None (Some (turn az)) (Some (turn az)) None None number None false)).
Definition same (x : num) : num := x.
Definition ex_metadata (h : header) : result chan := electric h Ex (txt "zxy") same (txt "4").
Definition ey_metadata (h : header) : result chan := electric h Ey (txt "zyx") turned (txt "5").
Definition hx_metadata (h : header) : result chan := magnetic h Hx (txt "zyx") same (txt "1").
Definition hy_metadata (h : header) : result chan := magnetic h Hy (txt "zxy") turned (txt "2").

(** 440-460: [values and "," in values], then [values.split(",")[1].strip()]; of a list, [in] looks for the entry "," and then there is
    no split (AttributeError, not caught) *)
Definition second (o : out) : result (option text) :=
  match o with
  | ONone => Ok None
  | OText s => if has_char "," s then Ok (match nth_error (split_on "," s) 1 with Some p => Some (strip p) | None => None end) else Ok None
  | OList l => if in_dec text_dec (txt ",") l then Err AttributeError else Ok None
  end.
Definition number_of (o : option text) : option num := match o with Some s => read s | None => None end.
(** 432-469 [hz_metadata] *)
Definition hz_metadata (h : header) : result chan :=
  if has_channel h (txt "tzx") then
    bindR (comp_of h (txt "tzx")) (fun k =>
    bindR (second (k_azimuth k)) (fun az =>
    bindR (second (k_incl k)) (fun ti =>
    bindR (second (k_number k)) (fun n =>
    Ok (mkChan Hz None (number_of az) (number_of az) (number_of ti) (number_of ti) (txt "3") n (h_started h))))))
  else
    bindR (match rev (h_hpr h) with x :: _ => Ok x | [] => Err IndexError end) (fun az =>
    Ok (mkChan Hz None (Some az) (Some az) None None (txt "3") None false)).

(** 327-348 [run_metadata]: the channels, in the order in which they are added *)
Definition has (components : list text) (c : text) : bool := if in_dec text_dec c components then true else false.
Definition run_channels (h : header) (components : list text) : result (list chan) :=
  bindR (if (has components (txt "zxy") || has components (txt "zxxr"))%bool then
           bindR (ex_metadata h) (fun ex => bindR (ey_metadata h) (fun ey =>
           bindR (hx_metadata h) (fun hx => bindR (hy_metadata h) (fun hy => Ok [ex; ey; hx; hy]))))
         else Ok []) (fun l =>
  if (has components (txt "tzx") || has components (txt "rxxr"))%bool then bindR (hz_metadata h) (fun hz => Ok (l ++ [hz])) else Ok l).
End Zch.
