(** Model of the coherence of striding windows, mt_metadata/features/striding_window_coherence.py, class StridingWindowCoherence, and of
    mt_metadata/processing/window.py 155-158 (num_samples_advance). *)
From Verif Require Import PyBase.
From Coq Require Import QArith Qround.
Local Open Scope Z_scope.
Local Open Scope list_scope.

(** A window: number of samples and overlap, any integers. *)
Record window : Type := mkWindow { num_samples : Z; overlap : Z }.
(** window.py 157-158 *)
Definition advance (w : window) : Z := num_samples w - overlap w.

(** range(0, stop, step) *)
Definition range_count (stop step : Z) : nat :=
  Z.to_nat (if 0 <? step then (stop + step - 1) / step else (- stop - step - 1) / - step).
Definition py_range (stop step : Z) : result (list Z) :=
  if step =? 0 then Err ValueError else Ok (map (fun i => step * Z.of_nat i) (seq 0 (range_count stop step))).
(** ts[start:stop] *)
Definition clip (n i : Z) : Z := if i <? 0 then Z.max 0 (n + i) else Z.min n i.
Definition pyslice {A} (l : list A) (i j : Z) : list A :=
  let n := Z.of_nat (List.length l) in
  firstn (Z.to_nat (clip n j - clip n i)) (skipn (Z.to_nat (clip n i)) l).

Section Compute.
  (** Samples; numpy.nan_to_num of one; scipy.signal.coherence of two segments with the parameters of the subwindow. *)
  Variables (A F G : Type) (clean : A -> A) (coherence : list A -> list A -> result (F * G)).
  (** 19-60 (_process_coherence_segment), and 180-192. *)
  Definition segment (w : window) (x y : list A) (start : Z) : result (F * G) :=
    coherence (pyslice x start (start + num_samples w)) (pyslice y start (start + num_samples w)).
  (** 178-194: one window after the other; [f] is the frequencies of the last one. *)
  Fixpoint loop (w : window) (x y : list A) (starts : list Z) (f : option F) (out : list G) : result (option F * list G) :=
    match starts with
    | [] => Ok (f, out)
    | s :: r => match segment w x y s with
                | Ok (f', c) => loop w x y r (Some f') (out ++ [c])
                | Err e => Err e
                end
    end.
  (** 148: the starts of the windows of a series with [n] samples. *)
  Definition starts (w : window) (n : nat) : result (list Z) := py_range (Z.of_nat n - num_samples w + 1) (advance w).
  (** 109-196 (compute) without workers; the length is that of the first series. *)
  Definition compute_serial (w : window) (ts1 ts2 : list A) : result (F * list G) :=
    let x := map clean ts1 in
    let y := map clean ts2 in
    match starts w (List.length ts1) with
    | Err e => Err e
    | Ok l => match loop w x y l None [] with
              | Err e => Err e
              | Ok (None, _) => Err UnboundLocalError
              | Ok (Some f, out) => Ok (f, out)
              end
    end.
  (** 150-176: the workers finish the windows in the order [done]; executor.map gives the results in the order of the starts and raises the
      error of the first window that has one. *)
  Definition finish (w : window) (x y : list A) (l : list Z) (slots : list (nat * result (F * G))) (i : nat) : list (nat * result (F * G)) :=
    match nth_error l i with Some s => (i, segment w x y s) :: slots | None => slots end.
  Fixpoint slot (i : nat) (slots : list (nat * result (F * G))) : option (result (F * G)) :=
    match slots with [] => None | (j, r) :: rest => if Nat.eqb i j then Some r else slot i rest end.
  Fixpoint gather (slots : list (nat * result (F * G))) (is : list nat) : result (list (F * G)) :=
    match is with
    | [] => Ok []
    | i :: r => match slot i slots with
                | None => Err OutOfFuel
                | Some (Err e) => Err e
                | Some (Ok p) => match gather slots r with Ok ps => Ok (p :: ps) | Err e => Err e end
                end
    end.
  Definition compute_parallel (done : list nat) (w : window) (ts1 ts2 : list A) : result (F * list G) :=
    let x := map clean ts1 in
    let y := map clean ts2 in
    match starts w (List.length ts1) with
    | Err e => Err e
    | Ok l => match gather (fold_left (finish w x y l) done []) (seq 0 (List.length l)) with
              | Err e => Err e
              | Ok [] => Err IndexError
              | Ok ((f, c) :: ps) => Ok (f, c :: map snd ps)
              end
    end.
End Compute.

(** 98-107 (set_subwindow_from_window): type and arguments are copied.  The product is exact. *)
Definition trunc (q : Q) : Z := if Qle_bool 0 q then Qfloor q else - Qfloor (- q).
Definition subwindow_of (fraction : Q) (w : window) : window :=
  let n := trunc (inject_Z (num_samples w) * fraction) in mkWindow n (n / 2).
