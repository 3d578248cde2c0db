(** Model of the enumerated texts of /repo/mt_metadata/common/enumerations.py and of
    /repo/mt_metadata/common/copyright.py. *)
From Verif Require Import PyBase PyText.

(** What is given for an enumerated attribute: a member of the enumeration, None, a text (a [str]), or
    something else. *)
Inductive entry : Type := EMember (m : text) | ENone | EText (s : text) | EOther.

(** StrEnumerationBase._normalize_case, enumerations.py 25-48, followed by pydantic's check that the result
    is a member (14-23), which refuses None.  The members are given by their values. *)
Definition matches (s : text) (m : text) : bool := text_eqb (lower s) (lower m).
Definition normalize_case (members : list text) (v : entry) : result (option text) :=
  match v with
  | EMember m => Ok (Some m)
  | ENone => Ok None
  | EOther => Err TypeError
  | EText s => match List.find (matches s) members with Some m => Ok (Some m) | None => Err ValueError end
  end.
Definition validate_enum (members : list text) (v : entry) : result text :=
  bindR (normalize_case members v) (fun o =>
    match o with
    | Some m => if existsb (text_eqb m) members then Ok m else Err ValueError
    | None => Err ValueError
    end).

(** The enumerations that derive from StrEnumerationBase, with the values of their members. *)
Definition enumerations : list (list text) :=
  [
    (* common/band.py CenterAveragingTypeEnum, line 29 *)
    [txt "arithmetic"; txt "geometric"];
    (* common/band.py ClosedEnum, line 34 *)
    [txt "left"; txt "right"; txt "both"];
    (* common/enumerations.py YesNoEnum, line 51 *)
    [txt "yes"; txt "no"];
    (* common/enumerations.py DataTypeEnum, line 56 *)
    [txt "RMT"; txt "AMT"; txt "BBMT"; txt "LPMT"; txt "ULPMT"; txt "MT"; txt "LP"; txt "BB"; txt "WB"; txt "MT_TF"; txt "BBMT_TF"; txt "WBMT_TF"; txt "LPMT_TF"; txt "CSAMT"; txt "NSAMT"];
    (* common/enumerations.py ChannelLayoutEnum, line 98 *)
    [txt "L"; txt "X"; txt "+"];
    (* common/enumerations.py ElectrodeLocationEnum, line 104 *)
    [txt "N"; txt "S"; txt "E"; txt "W"; txt ""];
    (* common/enumerations.py OrientationMethodEnum, line 112 *)
    [txt "compass"; txt "GPS"; txt "theodolite"];
    (* common/enumerations.py GeographicReferenceFrameEnum, line 118 *)
    [txt "geographic"; txt "geomagnetic"; txt "station"; txt "sitelayout"];
    (* common/enumerations.py ChannelOrientationEnum, line 125 *)
    [txt "orthogonal"; txt "station"; txt "sitelayout"];
    (* common/enumerations.py FilterTypeEnum, line 159 *)
    [txt "fap"; txt "zpk"; txt "time_delay"; txt "coefficient"; txt "fir"];
    (* common/enumerations.py SymmetryEnum, line 167 *)
    [txt "NONE"; txt "ODD"; txt "EVEN"];
    (* common/enumerations.py ReleaseStatusEnum, line 190 *)
    [txt "Unrestricted Release"; txt "Restricted Release"; txt "Paper Citation Required"; txt "Academic Use Only"; txt "Conditions Apply"; txt "Data Citation Required"];
    (* common/enumerations.py ChannelEnum, line 199 *)
    [txt "ex"; txt "ey"; txt "hx"; txt "hy"; txt "hz"; txt ""];
    (* features/coherence.py DetrendEnum, line 99 *)
    [txt "linear"; txt "constant"];
    (* features/fc_coherence.py BandDefinitionTypeEnum, line 15 *)
    [txt "Q"; txt "fractional bandwidth"; txt "user defined"];
    (* features/fc_coherence.py QRadiusEnum, line 21 *)
    [txt "constant Q"; txt "user defined"];
    (* features/feature.py DomainEnum, line 16 *)
    [txt "time"; txt "frequency"; txt "fc"; txt "ts"; txt "fourier"];
    (* features/feature_weighting_window.py ThresholdEnum, line 14 *)
    [txt "low cut"; txt "high cut"];
    (* features/feature_weighting_window.py HalfWindowStyleEnum, line 19 *)
    [txt "hamming"; txt "hann"; txt "rectangle"];
    (* features/weight_kernel.py ThresholdEnum, line 14 *)
    [txt "low cut"; txt "high cut"];
    (* features/weight_kernel.py HalfWindowStyleEnum, line 19 *)
    [txt "hamming"; txt "hann"; txt "rectangle"];
    (* features/weights/base.py WeightTypeEnum, line 13 *)
    [txt "monotonic"; txt "learned"; txt "spatial"; txt "custom"];
    (* features/weights/channel_weight_spec.py CombinationStyleEnum, line 75 *)
    [txt "multiplication"; txt "minimum"; txt "maximum"; txt "mean"];
    (* features/weights/monotonic_weight_kernel.py ThresholdEnum, line 15 *)
    [txt "low cut"; txt "high cut"];
    (* features/weights/monotonic_weight_kernel.py StyleEnum, line 20 *)
    [txt "taper"; txt "activation"];
    (* features/weights/taper_monotonic_weight_kernel.py HalfWindowStyleEnum, line 15 *)
    [txt "hamming"; txt "hann"; txt "rectangle"; txt "blackman"];
    (* features/weights/taper_monotonic_weight_kernel.py ActivationStyleEnum, line 22 *)
    [txt "linear"; txt "sigmoid"; txt "tanh"; txt "relu"; txt "hard_tanh"; txt "hard_sigmoid"];
    (* processing/aurora/channel_nomenclature.py ExEnum, line 14 *)
    [txt "ex"; txt "e1"; txt "e2"; txt "e3"; txt "e4"];
    (* processing/aurora/channel_nomenclature.py EyEnum, line 22 *)
    [txt "ey"; txt "e1"; txt "e2"; txt "e3"; txt "e4"];
    (* processing/aurora/channel_nomenclature.py HxEnum, line 30 *)
    [txt "bx"; txt "hx"; txt "h1"; txt "h2"; txt "h3"];
    (* processing/aurora/channel_nomenclature.py HyEnum, line 38 *)
    [txt "by"; txt "hy"; txt "h1"; txt "h2"; txt "h3"];
    (* processing/aurora/channel_nomenclature.py HzEnum, line 46 *)
    [txt "bz"; txt "hz"; txt "h1"; txt "h2"; txt "h3"];
    (* processing/aurora/channel_nomenclature.py SupportedNomenclatureEnum, line 54 *)
    [txt "default"; txt "lemi12"; txt "lemi34"; txt "musgraves"; txt "phoenix123"];
    (* processing/aurora/decimation_level.py SaveFcsTypeEnum, line 32 *)
    [txt "h5"; txt "csv"];
    (* processing/aurora/estimator.py EngineEnum, line 13 *)
    [txt "RME_RR"; txt "RME"; txt "other"];
    (* processing/aurora/processing.py BandSpecificationStyleEnum, line 18 *)
    [txt "EMTF"; txt "band_edges"];
    (* processing/fourier_coefficients/fc.py MethodEnum, line 19 *)
    [txt "fft"; txt "wavelet"; txt "other"];
    (* processing/short_time_fourier_transform.py MethodEnum, line 14 *)
    [txt "fft"; txt "wavelet"; txt "other"];
    (* processing/short_time_fourier_transform.py PerWindowDetrendTypeEnum, line 20 *)
    [txt "linear"; txt "constant"; txt ""];
    (* processing/short_time_fourier_transform.py PreFftDetrendTypeEnum, line 26 *)
    [txt "linear"; txt "other"; txt ""];
    (* processing/short_time_fourier_transform.py PrewhiteningTypeEnum, line 32 *)
    [txt "first difference"; txt "other"];
    (* processing/time_series_decimation.py MethodEnum, line 13 *)
    [txt "default"; txt "other"];
    (* processing/window.py TypeEnum, line 22 *)
    [txt "boxcar"; txt "triang"; txt "blackman"; txt "hamming"; txt "hann"; txt "bartlett"; txt "flattop"; txt "parzen"; txt "bohman"; txt "blackmanharris"; txt "nuttall"; txt "barthann"; txt "kaiser"; txt "gaussian"; txt "general_gaussian"; txt "slepian"; txt "chebwin"; txt "dpss"];
    (* processing/window.py ClockZeroTypeEnum, line 43 *)
    [txt "user specified"; txt "data start"; txt "ignore"];
    (* transfer_functions/io/zonge/metadata/tx.py TypeEnum, line 13 *)
    [txt "natural"; txt "controlled source"]
  ].

(** GeomagneticModelEnum, 131-156. *)
Definition geomagnetic_models : list text :=
  [txt "EMAG2"; txt "EMM"; txt "HDGM"; txt "IGRF"; txt "WMM"; txt "unknown"].
Definition validate_geomagnetic (v : entry) : result text :=
  match v with
  | EMember s | EText s =>
      match split_on "-" (lower s) with
      | w :: _ => if existsb (text_eqb w) (map lower geomagnetic_models) then Ok s else Err ValueError
      | [] => Err IndexError
      end
  | _ => Err TypeError
  end.

(** LicenseEnum, 209-254: names and values.  The enumeration that is made here is a plain [Enum]; the
    methods of lines 263-288 are not part of it.  [ids] are the licences of data/licenses.json. *)
Definition under (c : ascii) : ascii :=
  if existsb (Ascii.eqb c) ["-"%char; " "%char; "."%char; "("%char; ")"%char; "/"%char; ":"%char] then "_"%char else c.
Definition license_name (s : text) : text := map under s.
Definition base_licenses : list (text * text) :=
  [ (txt "CC_0", txt "CC0"); (txt "CC0", txt "CC0"); (txt "CC_BY", txt "CC BY"); (txt "CC_BY_SA", txt "CC BY-SA");
    (txt "CC_BY_NC", txt "CC BY-NC"); (txt "CC_BY_NA_SA", txt "CC BY-NC-SA"); (txt "CC_BY_ND", txt "CC BY-ND");
    (txt "CC_BY_NC_ND", txt "CC BY-NC-ND") ].
Definition license_members (ids : list text) : list (text * text) :=
  dupdate text_dec (dupdate text_dec [] base_licenses) (map (fun i => (license_name i, i)) ids).

(** Copyright.validate_license, copyright.py 30-50, and pydantic's check that the result is the value of a
    member.  NameError is modelled as ValueError: the attribute is refused. *)
Definition default_license : text := txt "CC BY 4.0".
Definition before_license (ids : list text) (v : entry) : result text :=
  match v with
  | ENone => Ok default_license
  | EMember s | EText s =>
      if text_eqb s [] then Ok default_license else
      match dget text_dec (license_name s) (license_members ids) with Some x => Ok x | None => Err ValueError end
  | EOther => Err AttributeError
  end.
Definition validate_license (ids : list text) (v : entry) : result text :=
  bindR (before_license ids v) (fun x =>
    if existsb (text_eqb x) (dvals (license_members ids)) then Ok x else Err ValueError).

(** release_dict, /repo/mt_metadata/timeseries/stationxml/fdsn_tools.py 41-52: the release status of the
    name of a licence. *)
Fixpoint count_of (p s : text) (skip : nat) : nat :=
  match s with
  | [] => 0
  | _ :: r => match skip with
              | S k => count_of p r k
              | O => if prefix_of p s then S (count_of p r (length p - 1)) else count_of p r 0
              end
  end.
Definition release_status (key : text) : text :=
  if prefix_of (txt "CC") key then
    if contains (txt "SA") key || contains (txt "NA") key || contains (txt "ND") key || contains (txt "NC") key then
      if (1 <? count_of (txt "NC") key 0)%nat || contains (txt "ND") key then txt "closed" else txt "partial"
    else txt "open"
  else txt "partial".
Definition option_text_dec (a b : option text) : {a = b} + {a <> b}.
Proof. decide equality. apply text_dec. Defined.
Definition release_dict (ids : list text) : list (option text * text) :=
  dupdate option_text_dec
    [ (None, txt "open"); (Some (txt "open"), txt "open"); (Some (txt "closed"), txt "closed");
      (Some (txt "partial"), txt "partial") ]
    (map (fun kv => (Some (fst kv), release_status (fst kv))) (license_members ids)).
(** The status written for a survey, xml_network_mt_survey.py 186-195. *)
Definition status_of (ids : list text) (license : text) : result text :=
  match dget option_text_dec (Some (license_name license)) (release_dict ids) with
  | Some s => Ok s
  | None => Err KeyError
  end.
