(** Model of the weight kernels of /repo/mt_metadata/features/weights. *)
From Coq Require Import Reals.
From Verif Require Import PyBase.
Open Scope R_scope.

(** Floating point numbers: real numbers (rounding and overflow are not modelled), infinities and nan. *)
Inductive xr : Type := XF (r : R) | XP | XN | XNan.

(** Subtraction, division (0 as divisor is +0), comparison and numpy.clip(x, 0, 1) of floating point
    numbers. *)
Definition xopp (a : xr) : xr := match a with XF r => XF (- r) | XP => XN | XN => XP | XNan => XNan end.
Definition xadd (a b : xr) : xr :=
  match a, b with
  | XF x, XF y => XF (x + y)
  | XNan, _ | _, XNan => XNan
  | XP, XN | XN, XP => XNan
  | XP, _ | _, XP => XP
  | XN, _ | _, XN => XN
  end.
Definition xsub (a b : xr) : xr := xadd a (xopp b).
Definition xinf_sign (positive : bool) : xr := if positive then XP else XN.
Definition xdiv (a b : xr) : xr :=
  match a, b with
  | XNan, _ | _, XNan => XNan
  | XF x, XF y =>
      if Req_EM_T y 0 then (if Req_EM_T x 0 then XNan else if Rlt_dec 0 x then XP else XN) else XF (x / y)
  | XF _, _ => XF 0
  | XP, XF y => if Rlt_dec y 0 then XN else XP
  | XN, XF y => if Rlt_dec y 0 then XP else XN
  | _, _ => XNan
  end.
Definition xltb (a b : xr) : bool :=
  match a, b with
  | XNan, _ | _, XNan => false
  | XF x, XF y => if Rlt_dec x y then true else false
  | XN, XN | XP, XP => false
  | XN, _ | _, XP => true
  | _, _ => false
  end.
Definition xleb (a b : xr) : bool :=
  match a, b with
  | XNan, _ | _, XNan => false
  | _, _ => negb (xltb b a)
  end.
Definition xis0 (a : xr) : bool := match a with XF x => if Req_EM_T x 0 then true else false | _ => false end.
Definition xfinite (a : xr) : bool := match a with XF _ => true | _ => false end.
Definition clip01 (x : R) : R := Rmin (Rmax x 0) 1.
Definition xclip (a : xr) : xr :=
  match a with XF x => XF (clip01 x) | XP => XF 1 | XN => XF 0 | XNan => XNan end.
(** A formula applied to a normalised number. *)
Definition xmap (f : R -> R) (a : xr) : xr := match a with XF x => XF (f x) | _ => XNan end.
Definition where_ (b : bool) (x y : R) : xr := XF (if b then x else y).

(** Attributes of MonotonicWeightKernel, monotonic_weight_kernel.py 40-104. *)
Inductive direction : Type := LowCut | HighCut.
Inductive taper_style : Type := Rectangle | Hann | Hamming | Blackman.
Inductive activation_style : Type := Sigmoid | HardSigmoid | Tanh | HardTanh.

(** TaperMonotonicWeightKernel._normalize, taper_monotonic_weight_kernel.py 47-93. *)
Definition taper_normalize (d : direction) (lb ub v : xr) : xr :=
  let range := xsub ub lb in
  if xis0 range then
    match d with
    | LowCut => where_ (xleb lb v) 1 0
    | HighCut => where_ (xleb v ub) 1 0
    end
  else
    match d with
    | LowCut => xclip (xdiv (xsub v lb) range)
    | HighCut => xsub (XF 1) (xclip (xdiv (xsub v lb) range))
    end.
(** TaperMonotonicWeightKernel.evaluate, taper_monotonic_weight_kernel.py 95-110, of one number. *)
Definition taper_evaluate (st : taper_style) (d : direction) (lb ub v : xr) : xr :=
  let x := taper_normalize d lb ub v in
  match st with
  | Rectangle =>
      match d with
      | LowCut => where_ (xltb v lb) 0 1
      | HighCut => where_ (xltb ub v) 0 1
      end
  | Hann => xmap (fun x => 5 / 10 * (1 - cos (PI * x))) x
  | Hamming => xmap (fun x => 54 / 100 - 46 / 100 * cos (PI * x)) x
  | Blackman => xmap (fun x => 42 / 100 - 5 / 10 * cos (PI * x) + 8 / 100 * cos (2 * PI * x)) x
  end.

(** ActivationMonotonicWeightKernel._normalize, activation_monotonic_weight_kernel.py 69-91. *)
Definition activation_normalize (d : direction) (lb ub v : xr) : xr :=
  if (xfinite lb && xfinite ub)%bool then
    let x := xdiv (xsub v lb) (xsub ub lb) in
    let x := match d with HighCut => xsub (XF 1) x | LowCut => x end in
    xclip x
  else XF (5 / 10).
(** ActivationMonotonicWeightKernel.evaluate, activation_monotonic_weight_kernel.py 93-129, of one number and
    for a finite steepness. *)
Definition activation_evaluate (st : activation_style) (steepness : R) (d : direction) (lb ub v : xr) : xr :=
  let x := activation_normalize d lb ub v in
  match st with
  | Sigmoid => xmap (fun x => 1 / (1 + exp (- steepness * (x - 5 / 10)))) x
  | HardSigmoid => xclip (xmap (fun x => 2 / 10 * (x - 5 / 10) + 5 / 10) x)
  | Tanh => xmap (fun x => 5 / 10 * (tanh (steepness * (x - 5 / 10)) + 1)) x
  | HardTanh => xclip x
  end.

(** TaperWeightKernel, taper_weight_kernel.py 18-105: the style is one of the window types of
    processing/window.py 22-40; only three of them are also half window styles, the others raise when the
    kernels are made. *)
Definition half_window_of (s : string) : result taper_style :=
  if String.eqb s "hann" then Ok Hann
  else if String.eqb s "hamming" then Ok Hamming
  else if String.eqb s "blackman" then Ok Blackman
  else if String.eqb s "rectangle" then Ok Rectangle
  else Err ValueError.
Definition xmul (a b : xr) : xr :=
  match a, b with
  | XF x, XF y => XF (x * y)
  | _, _ => XNan
  end.
Definition taper_kernel_evaluate (low high : R * R) (style : string) (v : xr) : result xr :=
  bindR (half_window_of style) (fun st =>
    Ok (xmul (taper_evaluate st LowCut (XF (fst low)) (XF (snd low)) v)
             (taper_evaluate st HighCut (XF (fst high)) (XF (snd high)) v))).

(** The kernels of a feature: weight_classes, feature_weight_spec.py 31-35.  MonotonicWeightKernel inherits
    Base.evaluate, which raises (base.py 65-79); ThresholdWeightKernel._normalize raises too
    (threshold_weight_kernel.py 47-60), before anything is computed. *)
Inductive kernel : Type :=
| KTaper (st : taper_style) (d : direction) (lb ub : xr)
| KActivation (st : activation_style) (steepness : R) (d : direction) (lb ub : xr)
| KMonotonic
| KThreshold (st : taper_style) (d : direction) (lb ub : xr).
(** The attribute [active] of a kernel, base.py 51-61. *)
Record wkernel : Type := mkKernel { k_kernel : kernel; k_active : option bool }.
Definition kernel_evaluate (k : wkernel) (v : xr) : result xr :=
  match k_kernel k with
  | KTaper st d lb ub => Ok (taper_evaluate st d lb ub v)
  | KActivation st s d lb ub => Ok (activation_evaluate st s d lb ub v)
  | KMonotonic => Err NotImplementedError
  | KThreshold _ _ _ _ => Err NotImplementedError
  end.

(** Values of a feature: one number or an array. *)
Inductive values : Type := VOne (x : xr) | VMany (l : list xr).
Definition values_map (f : xr -> result xr) (v : values) : result values :=
  match v with
  | VOne x => bindR (f x) (fun y => Ok (VOne y))
  | VMany l => bindR (mapR f l) (fun l' => Ok (VMany l'))
  end.

(** numpy.prod, mean, min and max of a non-empty list of weights along axis 0: all numbers, or arrays of
    one length (another mixture cannot become an array and raises ValueError).  nan stays nan. *)
Definition xfold (f : R -> R -> R) (a b : xr) : xr :=
  match a, b with XF x, XF y => XF (f x y) | _, _ => XNan end.
Inductive combination : Type := Multiplication | Minimum | Maximum | Mean.
Definition combine2 (c : combination) : xr -> xr -> xr :=
  match c with
  | Multiplication => xfold Rmult
  | Minimum => xfold Rmin
  | Maximum => xfold Rmax
  | Mean => xfold Rplus
  end.
Definition finish (c : combination) (n : nat) (a : xr) : xr :=
  match c with Mean => xmap (fun x => x / INR n) a | _ => a end.
Definition reduce_numbers (c : combination) (x : xr) (l : list xr) : xr :=
  finish c (S (List.length l)) (fold_left (combine2 c) l x).
Definition the_one (v : values) : option xr := match v with VOne x => Some x | VMany _ => None end.
Definition the_many (v : values) : option (list xr) := match v with VOne _ => None | VMany l => Some l end.
Fixpoint all_some {A B : Type} (f : A -> option B) (l : list A) : option (list B) :=
  match l with
  | [] => Some []
  | a :: r => match f a, all_some f r with Some b, Some bs => Some (b :: bs) | _, _ => None end
  end.
(** The columns of arrays of length [n]. *)
Fixpoint columns (n : nat) (ls : list (list xr)) : list (list xr) :=
  match n with
  | O => []
  | S n' => map (fun l => hd XNan l) ls :: columns n' (map (fun l => tl l) ls)
  end.
Definition reduce_column (c : combination) (col : list xr) : xr :=
  match col with [] => XNan | x :: r => reduce_numbers c x r end.
Definition reduce (c : combination) (ws : list values) : result values :=
  match all_some the_one ws with
  | Some (x :: r) => Ok (VOne (reduce_numbers c x r))
  | _ =>
      match all_some the_many ws with
      | Some (l :: ls) =>
          if forallb (fun l' => Nat.eqb (List.length l') (List.length l)) ls
          then Ok (VMany (map (reduce_column c) (columns (List.length l) (l :: ls))))
          else Err ValueError
      | _ => Err ValueError
      end
  end.

(** FeatureWeightSpec.evaluate, feature_weight_spec.py 215-231. *)
Definition feature_evaluate (ks : list wkernel) (v : values) : result values :=
  bindR (mapR (fun k => values_map (kernel_evaluate k) v) ks) (fun ws =>
    match ws with [] => Ok (VOne (XF 1)) | _ => reduce Multiplication ws end).

(** ChannelWeightSpec.evaluate, channel_weight_spec.py 167-209: the features by name with their kernels. *)
Definition channel_evaluate (c : combination) (specs : list (string * list wkernel))
    (fv : list (string * values)) : result values :=
  bindR (mapR (fun sp => match dget string_dec (fst sp) fv with
                         | None => Err KeyError
                         | Some v => feature_evaluate (snd sp) v
                         end) specs) (fun ws =>
    match ws with [] => Ok (VOne (XF 1)) | _ => reduce c ws end).

(** Dictionaries given as kernels: validate_weight_kernels, feature_weight_spec.py 165-213.  [build] is the
    class constructor, which may refuse the dictionary; then the kernel is skipped with a warning. *)
Record kdict : Type := mkKdict { kd_style : option string; kd_weight_type : option string }.
Inductive kclass : Type := CMonotonic | CTaper | CActivation.
Definition weight_class (s : string) : option kclass :=
  if String.eqb s "monotonic" then Some CMonotonic
  else if String.eqb s "taper" then Some CTaper
  else if String.eqb s "activation" then Some CActivation
  else None.
Inductive kgiven : Type := GKernel (k : wkernel) | GKdict (d : kdict) | GOther.
Section Kernels.
  Variable build : kclass -> kdict -> option wkernel.
  Definition text_of (o : option string) : string := match o with Some s => s | None => "" end.
  Definition class_of (d : kdict) : option kclass :=
    match weight_class (text_of (kd_style d)) with
    | Some c => Some c
    | None => weight_class (text_of (kd_weight_type d))
    end.
  Fixpoint validate_kernels (l : list kgiven) : result (list wkernel) :=
    match l with
    | [] => Ok []
    | GKernel k :: r => bindR (validate_kernels r) (fun ks => Ok (k :: ks))
    | GKdict d :: r =>
        match class_of d with
        | Some c => match build c d with
                    | Some k => bindR (validate_kernels r) (fun ks => Ok (k :: ks))
                    | None => validate_kernels r
                    end
        | None => validate_kernels r
        end
    | GOther :: _ => Err TypeError
    end.
End Kernels.
