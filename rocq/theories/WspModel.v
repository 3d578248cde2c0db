(** Model of weight specifications given as dictionaries: FeatureWeightSpec (/repo/mt_metadata/features/weights/feature_weight_spec.py
    24-213), ChannelWeightSpec (channel_weight_spec.py 111-154) and the weights of a DecimationLevel
    (/repo/mt_metadata/processing/aurora/decimation_level.py 51-61, 191-217), as built by calling the class.

    Features and kernels are abstract: [make_feature] and [make_kernel] stand for calling the class with the entries of a dictionary
    (what is raised, for a kernel, is caught).  [rest_ok] stands for the validation of the other fields of a specification.  An entry
    that is no field is kept as an extra attribute (base/metadata.py 217).  When several fields are refused, which refusal is seen is not
    modelled; validation on assignment is not modelled. *)
From Verif Require Import PyBase PyText.
Local Open Scope list_scope.

(** feature_weight_spec.py 24-36: the classes. *)
Inductive fclass : Type := FBase | FCoherence | FFcCoherence | FStriding.
Inductive kclass : Type := KMonotonic | KTaper | KActivation.
Definition feature_classes : list (text * fclass) :=
  [(txt "base", FBase); (txt "coherence", FCoherence); (txt "fc_coherence", FFcCoherence);
   (txt "striding_window_coherence", FStriding)].
Definition weight_classes : list (text * kclass) :=
  [(txt "monotonic", KMonotonic); (txt "taper", KTaper); (txt "activation", KActivation)].

Section Specs.
Variables feature kernel : Type.

(** What a program can give: texts, lists, dictionaries, features, kernels, specifications and other hashable values.  [PFspec f ks rest]:
    a FeatureWeightSpec with its feature, its kernels and everything else it was given; [PCspec fs rest]: a ChannelWeightSpec. *)
Inductive pv : Type :=
| PText (s : text)
| PList (l : list pv)
| PDict (d : list (text * pv))
| PFeature (f : feature)
| PKernel (k : kernel)
| PFspec (s : fspec)
| PCspec (s : cspec)
| POther (n : nat)
with fspec : Type := mkFspec (f : feature) (ks : list kernel) (rest : list (text * pv))
with cspec : Type := mkCspec (fs : list fspec) (rest : list (text * pv)).

Variable make_feature : fclass -> list (text * pv) -> result feature.
Variable make_kernel : kclass -> list (text * pv) -> option kernel.
Variable rest_ok : list (text * pv) -> option exn.
Variable show : pv -> text.

Definition str_of (v : pv) : text := match v with PText s => s | _ => show v end.
(** [name in feature_classes]: hashing the name. *)
Definition hashable (v : pv) : bool := match v with PList _ | PDict _ => false | _ => true end.
Definition class_named (v : pv) : option fclass :=
  match v with PText s => dget text_dec s feature_classes | _ => None end.

(** 94-96: the dictionaries around a feature are taken off. *)
Fixpoint unwrap (v : pv) : pv :=
  match v with
  | PDict d =>
      (fix go (l : list (text * pv)) : pv :=
         match l with
         | [] => v
         | (k, x) :: r => if text_dec k (txt "feature") then unwrap x else go r
         end) d
  | _ => v
  end.
Definition is_dict (v : pv) : bool := match v with PDict _ => true | _ => false end.
(** 121-127: taken off only while what is inside is a dictionary. *)
Fixpoint unwrap_dicts (v : pv) : pv :=
  match v with
  | PDict d =>
      (fix go (l : list (text * pv)) : pv :=
         match l with
         | [] => v
         | (k, x) :: r => if text_dec k (txt "feature") then (if is_dict x then unwrap_dicts x else v) else go r
         end) d
  | _ => v
  end.

Definition kget (k : text) (d : list (text * pv)) : option pv := dget text_dec k d.
Definition name_of (d : list (text * pv)) : pv := match kget (txt "name") d with Some v => v | None => POther 0 end.

(** 87-111 [pre_process_feature], on the entry "feature" *)
Definition pre_process (v : pv) : result pv :=
  match unwrap v with
  | PDict d =>
      if hashable (name_of d) then
        match class_named (name_of d) with
        | Some c => bindR (make_feature c d) (fun f => Ok (PFeature f))
        | None => Ok v
        end
      else Err TypeError
  | _ => Ok v
  end.
(** 113-158 [validate_feature]; [None] (155-158) is no value of the field, so it is refused. *)
Definition validate_feature (v : pv) : result feature :=
  match unwrap_dicts v with
  | PDict d => make_feature (match class_named (name_of d) with Some c => c | None => FBase end) d
  | PFeature f => Ok f
  | _ => Err ValueError
  end.

(** 160-213 [validate_weight_kernels] *)
Definition as_list (v : pv) : list pv := match v with PList l => l | _ => [v] end.
Definition kernel_entry (v : pv) : pv :=
  match v with PDict d => match kget (txt "weight_kernel") d with Some x => x | None => v end | _ => v end.
Definition text_at (k : text) (d : list (text * pv)) : text := match kget k d with Some v => str_of v | None => [] end.
Definition kernel_class (d : list (text * pv)) : option kclass :=
  match dget text_dec (text_at (txt "style") d) weight_classes with
  | Some c => Some c
  | None => dget text_dec (text_at (txt "weight_type") d) weight_classes
  end.
Fixpoint validate_kernels (l : list pv) : result (list kernel) :=
  match l with
  | [] => Ok []
  | v :: r =>
      match kernel_entry v with
      | PDict d =>
          match kernel_class d with
          | Some c => match make_kernel c d with
                      | Some k => bindR (validate_kernels r) (fun ks => Ok (k :: ks))
                      | None => validate_kernels r
                      end
          | None => validate_kernels r
          end
      | PKernel k => bindR (validate_kernels r) (fun ks => Ok (k :: ks))
      | _ => Err TypeError
      end
  end.

(** FeatureWeightSpec called with the entries of a dictionary; the fields and their defaults, 45-86. *)
Definition others (fields : list text) (d : list (text * pv)) : list (text * pv) :=
  filter (fun p => if in_dec text_dec (fst p) fields then false else true) d.
Definition make_fspec (d : list (text * pv)) : result fspec :=
  bindR (match kget (txt "feature") d with
         | Some v => bindR (pre_process v) validate_feature
         | None => make_feature FBase []
         end) (fun f =>
  bindR (match kget (txt "weight_kernels") d with Some v => validate_kernels (as_list v) | None => Ok [] end) (fun ks =>
  let rest := others [txt "feature"; txt "weight_kernels"] d in
  match rest_ok rest with Some e => Err e | None => Ok (mkFspec f ks rest) end)).

(** channel_weight_spec.py 138-154 [check_feature_weight_specs] *)
Definition check_fspec (v : pv) : result fspec :=
  match v with PFspec s => Ok s | PDict d => make_fspec d | _ => Err TypeError end.
Definition check_fspecs (v : pv) : result (list fspec) := mapR check_fspec (as_list v).
(** ChannelWeightSpec called with the entries of a dictionary, 74-136. *)
Definition make_cspec (d : list (text * pv)) : result cspec :=
  bindR (match kget (txt "feature_weight_specs") d with Some v => check_fspecs v | None => Ok [] end) (fun fs =>
  let rest := others [txt "feature_weight_specs"] d in
  match rest_ok rest with Some e => Err e | None => Ok (mkCspec fs rest) end).

(** decimation_level.py 191-217 [validate_channel_weight_specs] *)
Definition validate_cspec (v : pv) : result cspec :=
  match v with PDict d => make_cspec d | PCspec s => Ok s | _ => Err TypeError end.
Definition validate_cspecs (v : pv) : result (list cspec) :=
  match v with
  | PCspec _ | PDict _ => mapR validate_cspec [v]
  | PList l => mapR validate_cspec l
  | _ => Err TypeError
  end.
End Specs.
