(** Model of the coefficients of a window: /repo/mt_metadata/processing/window.py 170-193 [Window.taper], with the attributes it reads (50, 51-147).

    Coefficients are real numbers; rounding is not modelled.  [get_window] of scipy is a parameter: what it gives or raises for the type with its arguments and the number of
    samples.  A sum of zero, for which numpy gives infinities, is excluded in the theorems. *)
From Coq Require Import Reals.
From Verif Require Import PyBase PyText.
Local Open Scope list_scope.

(** window.py 49-147: the attributes that matter here, and the private [_taper] *)
Record window : Type := mkWindow { kind : text; num_samples : nat; normalized : bool; additional_args : list (text * text); kept : option (list R) }.
Definition new_window : window := mkWindow (txt "boxcar") 256 true [] None.
Inductive setting : Type := SetKind (k : text) | SetSamples (n : nat) | SetNormalized (b : bool) | SetArgs (a : list (text * text)).
(** Setting an attribute: none of the setters or validators looks at [_taper]. *)
Definition set (w : window) (s : setting) : window :=
  match s with
  | SetKind k => mkWindow k (num_samples w) (normalized w) (additional_args w) (kept w)
  | SetSamples n => mkWindow (kind w) n (normalized w) (additional_args w) (kept w)
  | SetNormalized b => mkWindow (kind w) (num_samples w) b (additional_args w) (kept w)
  | SetArgs a => mkWindow (kind w) (num_samples w) (normalized w) a (kept w)
  end.
(** [np.sum] *)
Definition total (l : list R) : R := fold_left Rplus l 0%R.
(** 170-193 *)
Definition taper (get_window : list text -> nat -> result (list R)) (w : window) : window * result (list R) :=
  match kept w with
  | Some t => (w, Ok t)
  | None =>
      match get_window (kind w :: map snd (additional_args w)) (num_samples w) with
      | Err e => (w, Err e)
      | Ok t =>
          let t' := if normalized w then map (fun x => (x / total t)%R) t else t in
          (mkWindow (kind w) (num_samples w) (normalized w) (additional_args w) (Some t'), Ok t')
      end
  end.
(** What a user does with a window *)
Inductive step : Type := Setting (s : setting) | Taper.
Definition one (g : list text -> nat -> result (list R)) (w : window) (s : step) : window := match s with Setting x => set w x | Taper => fst (taper g w) end.
Definition run (g : list text -> nat -> result (list R)) (w : window) (l : list step) : window := fold_left (one g) l w.
