(** Model of TF.from_jfile and TF.from_avg: /repo/mt_metadata/transfer_functions/core.py 2272-2308 and 2578-2605, for objects that were read
    already.  Metadata are an argument; what the setter of survey_metadata does with them is in the models of C113. *)
From Coq Require Import QArith.
From Verif Require Import PyBase PyText TfModel.
Local Open Scope nat_scope.
Local Open Scope list_scope.

Section Read.
Variables (num : nums) (meta : Type).
Notation matrices := (nat -> nat -> nat -> val num).
(** A TF with its survey metadata. *)
Record whole : Type := mkWhole { w_tf : tf num; w_meta : meta }.
(** A JFile object after reading (jfile.py 284-320): arrays over its periods, zero where the file has nothing. *)
Record jobj : Type := mkJ { j_periods : list Q; j_z : matrices; j_zerr : matrices; j_t : matrices; j_terr : matrices; j_meta : meta }.
(** A ZongeMTAvg object after reading (zonge.py 95-142): frequencies; a tipper or none. *)
Record aobj : Type := mkA { a_freqs : list Q; a_z : matrices; a_zerr : matrices; a_tip : option (matrices * matrices); a_meta : meta }.

(** Assignments one after the other, until one raises. *)
Definition step : Type := whole -> whole * option exn.
Fixpoint steps (l : list step) (w : whole) : whole * option exn :=
  match l with
  | [] => (w, None)
  | f :: r => let '(w1, e) := f w in match e with Some e => (w1, Some e) | None => steps r w1 end
  end.
Definition set_periods (l : list Q) : step := fun w => let '(t, e) := set_period num l (w_tf w) in (mkWhole t (w_meta w), e).
Definition set_array (a : atype) (shape : list nat) (f : matrices) : step := fun w => let '(t, e) := set num a (GArray num shape f) (w_tf w) in (mkWhole t (w_meta w), e).
Definition set_meta (m : meta) : step := fun w => (mkWhole (w_tf w) m, None).

(** 2295-2308 *)
Definition from_jfile (j : jobj) : step :=
  let n := length (j_periods j) in
  steps [set_periods (j_periods j); set_array AImp [n; 2; 2] (j_z j); set_array AImpErr [n; 2; 2] (j_zerr j);
         set_array ATip [n; 1; 2] (j_t j); set_array ATipErr [n; 1; 2] (j_terr j); set_meta (j_meta j)].
(** 2597-2605 *)
Definition from_avg (a : aobj) : step :=
  let n := length (a_freqs a) in
  steps ([set_meta (a_meta a); set_periods (map Qinv (a_freqs a)); set_array AImp [n; 2; 2] (a_z a); set_array AImpErr [n; 2; 2] (a_zerr a)] ++
         match a_tip a with
         | Some (t, e) => [set_array ATip [n; 1; 2] t; set_array ATipErr [n; 1; 2] e]
         | None => []
         end).
End Read.
