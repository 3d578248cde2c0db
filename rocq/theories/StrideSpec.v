(** What is expected of striding windows. *)
From Verif Require Import PyBase StrideModel.
From Coq Require Import QArith Qround Lqa Permutation Lia.
Local Open Scope Z_scope.
Local Open Scope list_scope.

(** The [i]-th window of a series: [len] samples from [i * step] on. *)
Definition nth_window {A} (len step i : nat) (l : list A) : list A := firstn len (skipn (i * step) l).
(** All windows that lie inside of [n] samples are the first [k]. *)
Definition windows_inside (len step n k : nat) : Prop := forall i, (i < k)%nat <-> (i * step + len <= n)%nat.
(** A window with fewer overlapping samples than samples. *)
Definition moving (w : window) (len step : nat) : Prop := num_samples w = Z.of_nat len /\ overlap w = Z.of_nat len - Z.of_nat step /\ (0 < step)%nat.

(** The frequencies only depend on the numbers of samples. *)
Definition regular {A F G} (coherence : list A -> list A -> result (F * G)) : Prop :=
  forall x y x' y' f c f' c', List.length x = List.length x' -> List.length y = List.length y' -> coherence x y = Ok (f, c) -> coherence x' y' = Ok (f', c') -> f = f'.
