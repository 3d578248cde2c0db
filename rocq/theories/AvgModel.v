(** Model of Zonge AVG files: /repo/mt_metadata/transfer_functions/io/zonge/zonge.py (ZongeMTAvg without its metadata
    objects).

    A float is a rational number or not finite (of nan, inf and -inf which one is not modelled); binary rounding is only
    modelled as far as the magnitude and the phase of a complex number are any functions [amp] and [phase] (numpy's sqrt
    and arctan2).  What is read is computed with real numbers.  Arrays are functions of their indices (an index 0 or 1
    is false or true); they are taken to be as long as the frequencies.  A nan that numpy computes is [None]. *)
From Verif Require Import PyBase PyText PyNum IsoModel PyFloat PySci ValidatorsModel UnitsModel LocationModel Cplx AvgHeadModel.

(** A row of the DataFrame: the component and the twelve columns, zonge.py 39-52. *)
Record row : Type := mkRow {
  r_comp : text; r_skip : pynum; r_freq : pynum; r_e : pynum; r_b : pynum; r_mag : pynum; r_phase : pynum; r_ares : pynum; r_err : pynum;
  r_perr : pynum; r_coh : pynum; r_use : pynum; r_try : pynum }.

(** zonge.py 62-86 and 91-105 [_get_comp_index]. *)
Inductive positive : Type := Down | Up | OtherWay.
Definition index_down : list (text * (bool * bool)) :=
  [(txt "zxx", (false, false)); (txt "zxy", (false, true)); (txt "zyx", (true, false)); (txt "zyy", (true, true));
   (txt "tzx", (false, false)); (txt "tzy", (false, true));
   (txt "zxxr", (false, false)); (txt "zxyr", (false, true)); (txt "zyxr", (true, false)); (txt "zyyr", (true, true))].
Definition index_up : list (text * (bool * bool)) :=
  [(txt "zxx", (true, true)); (txt "zxy", (true, false)); (txt "zyx", (false, true)); (txt "zyy", (false, false));
   (txt "tzx", (false, true)); (txt "tzy", (false, false));
   (txt "zxxr", (true, true)); (txt "zxyr", (true, false)); (txt "zyxr", (false, true)); (txt "zyyr", (false, false))].
Definition comp_index (p : positive) : result (list (text * (bool * bool))) :=
  match p with Down => Ok index_down | Up => Ok index_up | OtherWay => Err ValueError end.
Definition place (index : list (text * (bool * bool))) (c : text) : option (bool * bool) :=
  option_map snd (List.find (fun kv => text_eqb c (fst kv)) index).

(** ** Writing *)
(** The object that is written: [df] and [components] (empty when there are none), [frequency] (not there at first), z, z_err,
    t and t_err. *)
Record avg : Type := mkAvg {
  a_positive : positive; a_head : head; a_rows : list row; a_comps : list text; a_freq : option (list Q);
  a_z : option (nat -> bool -> bool -> Q * Q); a_zerr : option (nat -> bool -> bool -> Q);
  a_t : option (nat -> bool -> Q * Q); a_terr : option (nat -> bool -> Q) }.

(** int() of a float. *)
Definition to_int (x : pynum) : result Z := match x with Fin q => Ok (py_int q) | NonFinite => Err ValueError end.
(** The formats 11.4E, w.df and wd, zonge.py 647-658. *)
Definition fmt_e (x : pynum) : text := rjust 11 (match x with Fin q => upper (show_sci 4 q) | NonFinite => txt "NAN" end).
Definition fmt_f (w d : nat) (x : pynum) : text := rjust w (show_num d x).
(** zonge.py 645-658: one line. *)
Definition row_line (r : row) : result text :=
  bindR (to_int (r_skip r)) (fun skip =>
  bindR (to_int (r_use r)) (fun use =>
  bindR (to_int (r_try r)) (fun try =>
  Ok (join (txt ", ")
    [show_int skip; fmt_e (r_freq r); fmt_e (r_e r); fmt_e (r_b r); fmt_e (r_mag r); fmt_f 6 1 (r_phase r); txt "  " ++ fmt_e (r_ares r);
     fmt_f 4 1 (r_err r); txt "    " ++ fmt_f 6 1 (r_perr r); txt "  " ++ fmt_f 5 3 (r_coh r); txt "  " ++ rjust 2 (show_int use);
     txt "    " ++ rjust 2 (show_int try)])))).
(** sort_values("frequency"), zonge.py 640; numbers that are not finite last.  (Rows with equal frequencies keep their
    order here; pandas does not promise it.) *)
Definition freq_le (a b : pynum) : bool := match a, b with Fin x, Fin y => Qle_bool x y | Fin _, NonFinite => true | NonFinite, Fin _ => false | NonFinite, NonFinite => true end.
Fixpoint insert_row (r : row) (l : list row) : list row :=
  match l with
  | [] => [r]
  | x :: t => if freq_le (r_freq r) (r_freq x) then r :: l else x :: insert_row r t
  end.
Definition sort_rows (l : list row) : list row := fold_right insert_row [] l.
Definition column_line : text :=
  txt "Skp,Freq,      E.mag,      B.mag,      Z.mag,      Z.phz,   ARes.mag,   ARes.%err,Z.perr,  Coher,   FC.NUse,FC.NTry".
(** zonge.py 607-661: the lines of one component.  The entries of the header's _comp_dict are called rx and ch, so that
    nothing is written for them (617-630). *)
Definition section (rows : list row) (c : text) : result (list text) :=
  match filter (fun r => text_eqb (r_comp r) c) rows with
  | [] => Ok []
  | l => bindR (map_result row_line (sort_rows l)) (fun lines => Ok ((txt "$Rx.Cmp = " ++ capitalize c) :: column_line :: lines))
  end.
(** [unique()]: in order of first appearance. *)
Fixpoint unique_texts (l : list text) : list text :=
  match l with [] => [] | x :: r => x :: filter (fun y => negb (text_eqb y x)) (unique_texts r) end.

Section Arithmetic.
Variable amp phase : Q -> Q -> Q.
Local Open Scope Q_scope.
(** zonge.py 531-560. *)
Definition z_row (c : text) (f : Q) (z : Q * Q) (e : Q) : row :=
  let mag := amp (fst z) (snd z) in
  mkRow c (Fin 2) (Fin f) (Fin 1) (Fin 1) (Fin mag) (Fin (phase (fst z) (snd z))) (Fin ((2 # 10) * (1 / f) * (mag * mag)))
    (Fin (if Qeq_bool mag 0 then 0 else 2 * e / mag * 100)) (Fin (e * 1000)) (Fin (9 # 10)) (Fin 100) (Fin 200).
(** zonge.py 562-587. *)
Definition t_row (c : text) (f : Q) (t : Q * Q) (e : Q) : row :=
  mkRow c (Fin 2) (Fin f) (Fin 1) (Fin 1) (Fin (amp (fst t) (snd t))) (Fin (phase (fst t) (snd t))) (Fin 1) (Fin (e * 100)) (Fin (e * 1000)) (Fin (9 # 10)) (Fin 100) (Fin 200).
Local Close Scope Q_scope.
Definition starts (c : string) (s : text) : bool := prefix_of (txt c) s.
(** zonge.py 524-587: the rows of one component. *)
Definition comp_rows (o : avg) (freqs : list Q) (c : text) (ij : bool * bool) : list row :=
  let each (g : nat -> Q -> row) := map (fun kf => g (fst kf) (snd kf)) (combine (seq 0 (length freqs)) freqs) in
  if starts "z" c then
    match a_z o with
    | Some z => each (fun k f => z_row c f (z k (fst ij) (snd ij)) (match a_zerr o with Some e => e k (fst ij) (snd ij) | None => 0%Q end))
    | None => []
    end
  else if starts "t" c then
    match a_t o with
    | Some t => each (fun k f => t_row c f (t k (snd ij)) (match a_terr o with Some e => e k (snd ij) | None => 0%Q end))
    | None => []
    end
  else [].
(** zonge.py 509-590 [_create_dataframe_from_arrays].  A frequency of zero raises (as it does for Python's own floats). *)
Definition create_rows (o : avg) : result (list row * list text) :=
  match a_z o with
  | None => Err ValueError
  | Some _ =>
      match a_freq o with
      | None => Err AttributeError
      | Some freqs =>
          bindR (comp_index (a_positive o)) (fun index =>
          if existsb (fun f => Qeq_bool f 0) freqs then Err ZeroDivisionError else
          let rows := flat_map (fun ci => comp_rows o freqs (fst ci) (snd ci)) index in
          match rows with
          | [] => Err AttributeError
          | _ => Ok (rows, unique_texts (map r_comp rows))
          end)
      end
  end.
(** zonge.py 592-668 [write]: the text of the file. *)
Definition write_file (o : avg) : result text :=
  bindR (match a_rows o with [] => create_rows o | rows => Ok (rows, a_comps o) end) (fun rc =>
  bindR (map_result (section (fst rc)) (snd rc)) (fun secs =>
  Ok (join [newline] (write_header (a_head o) ++ concat secs)))).
End Arithmetic.

(** ** Reading *)
Definition nth_num (l : list pynum) (k : nat) : pynum := nth k l NonFinite.
(** zonge.py 146-154: one line of numbers; columns that are missing are nan. *)
Definition read_row (c s : text) : result row :=
  bindR (map_result (fun p => to_number (strip p)) (split_on "," (replace_char "*" (txt "0.50") s))) (fun v =>
  Ok (mkRow (lower c) (nth_num v 0) (nth_num v 1) (nth_num v 2) (nth_num v 3) (nth_num v 4) (nth_num v 5) (nth_num v 6) (nth_num v 7)
        (nth_num v 8) (nth_num v 9) (nth_num v 10) (nth_num v 11))).
(** zonge.py 140-155. *)
Fixpoint read_rows (comp : option text) (lines : list text) : result (list row) :=
  match lines with
  | [] => Ok []
  | s :: rest =>
      if has_char "$" s then
        match split_on "=" s with
        | [_; c] => read_rows (Some (strip c)) rest
        | _ => Err ValueError
        end
      else if contains (txt "skp") (lower s) || (length s <? 2) then read_rows comp rest
      else match comp with
           | None => Err UnboundLocalError
           | Some c => bindR (read_row c s) (fun r => bindR (read_rows comp rest) (fun rs => Ok (r :: rs)))
           end
  end.
(** zonge.py 159-160: the frequencies, each once, rising.  (A frequency that is not finite is refused here; with pandas
    the lookup of nan fails later or not.) *)
Fixpoint finite_freqs (rows : list row) : result (list Q) :=
  match rows with
  | [] => Ok []
  | r :: rest => match r_freq r with Fin f => bindR (finite_freqs rest) (fun l => Ok (f :: l)) | NonFinite => Err ValueError end
  end.
Fixpoint insert_freq (f : Q) (l : list Q) : list Q :=
  match l with
  | [] => [f]
  | x :: t => match Qcompare f x with Eq => l | Lt => f :: l | Gt => x :: insert_freq f t end
  end.
Definition sort_freqs (l : list Q) : list Q := fold_right insert_freq [] l.
(** freq_index_dict, zonge.py 164. *)
Fixpoint freq_index (f : Q) (l : list Q) : option nat :=
  match l with [] => None | x :: t => if Qeq_bool f x then Some 0%nat else option_map S (freq_index f t) end.

(** zonge.py 176-206 [to_complex]. *)
Definition to_complex (mag phase : R) : Cx := (mag * cos (phase / 1000), mag * sin (phase / 1000))%R.
(** zonge.py 208-233 [to_amp_phase], the magnitude. *)
Definition magnitude (z : Cx) : R := sqrt (fst z * fst z + snd z * snd z)%R.
Definition row_value (r : row) : option Cx :=
  match r_mag r, r_phase r with Fin m, Fin p => Some (to_complex (Q2R m) (Q2R p)) | _, _ => None end.
(** zonge.py 262-283: the error of an impedance; the root of a negative number is nan. *)
Definition row_z_error (r : row) : option R :=
  match r_err r, r_ares r, r_freq r, r_perr r with
  | Fin e, Fin a, Fin f, Fin p =>
      let x := ((e / 100 * a) * 5 * f)%Q in
      if Qle_bool 0 x then Some (magnitude (to_complex (sqrt (Q2R x)) (Q2R p))) else None
  | _, _, _, _ => None
  end.
(** zonge.py 333: the error of a tipper is its magnitude. *)
Definition row_t_error (r : row) : option R := option_map magnitude (row_value r).
Definition Cneg (z : option Cx) : option Cx := option_map Copp z.
(** zonge.py 256-285 [_fill_z] and 306-335 [_fill_t]: row by row. *)
Definition put {A} (k : nat) (i j : bool) (v : A) (f : nat -> bool -> bool -> A) : nat -> bool -> bool -> A :=
  fun k' i' j' => if (k =? k')%nat && Bool.eqb i i' && Bool.eqb j j' then v else f k' i' j'.
Definition array (A : Type) : Type := (nat -> bool -> bool -> A)%type.
Fixpoint fill (value : row -> option Cx) (error : row -> option R) (index : list (text * (bool * bool))) (freqs : list Q) (rows : list row)
  (z : array (option Cx)) (e : array (option R)) : result (array (option Cx) * array (option R)) :=
  match rows with
  | [] => Ok (z, e)
  | r :: rest =>
      match place index (r_comp r), r_freq r with
      | Some (i, j), Fin f =>
          match freq_index f freqs with
          | Some k => fill value error index freqs rest (put k i j (value r) z) (put k i j (error r) e)
          | None => Err KeyError
          end
      | _, _ => Err KeyError
      end
  end.
Definition zeros : array (option Cx) := fun _ _ _ => Some C0.
Definition ones : array (option R) := fun _ _ _ => Some 1%R.
Definition fill_z (p : positive) (freqs : list Q) (rows : list row) : result (array (option Cx) * array (option R)) :=
  bindR (comp_index p) (fun index => fill row_value row_z_error index freqs (filter (fun r => starts "z" (r_comp r)) rows) zeros ones).
Definition fill_t (p : positive) (freqs : list Q) (rows : list row) : result (option (array (option Cx) * array (option R))) :=
  if memb (txt "tzx") (map r_comp rows) then
    bindR (comp_index p) (fun index =>
    let value := match p with Up => fun r => Cneg (row_value r) | _ => row_value end in
    bindR (fill value row_t_error index freqs (filter (fun r => starts "t" (r_comp r)) rows) zeros ones) (fun te => Ok (Some te)))
  else Ok None.
(** What is read, zonge.py 118-174 [read] (without the elevation service). *)
Record got : Type := mkGot {
  g_head : head; g_rows : list row; g_comps : list text; g_freqs : list Q; g_z : array (option Cx); g_zerr : array (option R);
  g_t : option (array (option Cx) * array (option R)) }.
Definition read_file (p : positive) (h : head) (s : text) : result got :=
  bindR (read_header h (readlines s)) (fun hd =>
  bindR (read_rows None (snd hd)) (fun rows =>
  match rows with
  | [] => Err AttributeError
  | _ =>
      bindR (finite_freqs rows) (fun fs =>
      let freqs := sort_freqs fs in
      bindR (fill_z p freqs rows) (fun ze =>
      bindR (fill_t p freqs rows) (fun te =>
      Ok (mkGot (fst hd) rows (unique_texts (map r_comp rows)) freqs (fst ze) (snd ze) te))))
  end)).
(** The object after reading, as it is written again: [write] uses the rows. *)
Definition reread (p : positive) (g : got) (o : avg) : avg :=
  mkAvg p (g_head g) (g_rows g) (g_comps g) (Some (g_freqs g)) (a_z o) (a_zerr o) (a_t o) (a_terr o).
