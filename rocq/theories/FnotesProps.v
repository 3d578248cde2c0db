(** C109: the runs and channels of a station through an EMTF XML object *)
From Coq Require Import QArith.
From Verif Require Import PyBase PyFacts PyText TextFacts ContainerModel CommentModel LayModel FnotesModel FnotesSpec FnotesProofs FnotesRead FnotesBack FnotesStable.
Local Open Scope nat_scope.
Local Open Scope list_scope.

(** For every station with runs, [read (write s)] is the list of the runs with a sample rate, each as FnotesSpec.v says, or an
    [AttributeError] if one of them lacks a channel of the layout. *)
Theorem C109_read_back read show other merge_chan merge_run s site no_tipper period : station_ok s -> s <> [] ->
  exists o, write read other s = Ok o /\
    read_station read show merge_chan merge_run site no_tipper period o = if covered s then Ok (map (back s) (kept s)) else Err AttributeError.
Proof. apply write_read. Qed.

(** A second round changes nothing. *)
Theorem C109_stable read show other merge_chan merge_run s site no_tipper period : station_ok s -> s <> [] ->
  (forall r, In r s -> Qeq_bool (r_rate r) 0 = false /\ ~ one_sensor r) -> covered s = true ->
  exists o s' o', write read other s = Ok o /\ read_station read show merge_chan merge_run site no_tipper period o = Ok s' /\
    s' = map (back s) s /\ write read other s' = Ok o' /\ read_station read show merge_chan merge_run site no_tipper period o' = Ok s'.
Proof.
  intros O NE H C. pose proof O as [ND OK].
  assert (RATE : Forall (fun r => Qeq_bool (r_rate r) 0 = false) s) by (apply Forall_forall; intros r R; exact (proj1 (H r R))).
  destruct (stable s OK ND RATE C (fun r R => proj2 (H r R))) as (O' & K' & C' & S').
  destruct (write_read read show other merge_chan merge_run s site no_tipper period O NE) as (o & W & R). rewrite C, (kept_all s RATE) in R.
  assert (NE' : s' s <> []) by (unfold s'; destruct s; [congruence|discriminate]).
  destruct (write_read read show other merge_chan merge_run (s' s) site no_tipper period O' NE') as (o' & W' & R'). rewrite C', K', S' in R'.
  exists o, (s' s), o'. split; [exact W|]. split; [exact R|]. split; [reflexivity|]. split; [exact W'|exact R'].
Qed.

(** A station without runs comes back with one of its own making, called after the station. *)
Theorem C109_no_runs read show other merge_chan merge_run site no_tipper period :
  exists o r, write read other [] = Ok o /\ read_station read show merge_chan merge_run site no_tipper period o = Ok [r] /\
    r_id r = site ++ txt "a" /\ r_rate r = 0%Q /\
    map fst (r_chans r) = [txt "ex"; txt "ey"; txt "hx"; txt "hy"] ++ (if no_tipper then [] else [txt "hz"]).
Proof. destruct no_tipper; eexists; eexists; (split; [reflexivity|]); (split; [reflexivity|]); (split; [reflexivity|]); (split; reflexivity). Qed.

(** ** A concrete station *)
Definition coil (id : string) : instr := mkInstr (Some (txt id)) (Some (txt "Coil")) (Some (txt "MT Gurus")) (Some (txt "induction")).
Definition electrode (id type : string) (a b : point) : pot := mkPot (Some (txt id)) (Some (txt type)) (Some (txt "Pots")) a b.
Definition span : Z * Z := (100, 200)%Z.
Definition hx : channel := mkChannel (KMag (coil "11") (5, 6, 0)%Q) 12%Q None span.
Definition hy : channel := mkChannel (KMag (coil "12") (7, 8, 0)%Q) 90%Q (Some 102%Q) span.
Definition ex : channel := mkChannel (KEle 100%Q (electrode "p1" "Ag-AgCl" (0, 0, 0)%Q (50, 0, 0)%Q) (electrode "p2" "Pb-PbCl" (- (50), 0, 0)%Q (0, 0, 0)%Q)) 12%Q None span.
Definition ey : channel := mkChannel (KEle 94%Q (electrode "p3" "Ag-AgCl" (0, 0, 0)%Q (0, 0, 0)%Q) (electrode "p4" "Ag-AgCl" (0, 0, 0)%Q (0, 0, 0)%Q)) 90%Q None span.
Definition logger : instr := mkInstr (Some (txt "L7")) (Some (txt "box")) (Some (txt "MT Gurus")) (Some (txt "broadband")).
Definition remark (s : string) : comment := mkComment None default_time (Some (txt s)).
Definition run_a : run := mkRun (txt "mt01a") logger 8%Q span (remark "comments.author:A. N. Other; errors:moose ate cables")
  [(txt "ex", ex); (txt "ey", ey); (txt "hx", hx); (txt "hy", hy)].
Definition hx_b : channel := mkChannel (KMag (coil "11") (50, 60, 0)%Q) 12%Q None span.
Definition run_b : run := mkRun (txt "mt01b") logger 1%Q span (remark "windy") [(txt "ex", ex); (txt "ey", ey); (txt "hx", hx_b); (txt "hy", hy)].
Definition example : list run := [run_a; run_b].

Ltac not_in := cbn; intros Hin; repeat (destruct Hin as [Hin|Hin]; [discriminate Hin|]); exact Hin.
Ltac pots := intros ? ? ? KK; cbn in KK; injection KK as <- <- <-; cbn; split; [eexists; reflexivity|]; split; [eexists; reflexivity|];
  eexists; split; [reflexivity|not_in].
Ltac electric := split; [eexists; eexists; eexists; reflexivity|pots].
Ltac channels :=
  split; [intros c x [<- | [<- | [<- | []]]] X; (discriminate X || (cbn in X; injection X as <-; eexists; eexists; reflexivity))|];
  split; [intros c x [<- | [<- | []]] X; (discriminate X || (cbn in X; injection X as <-; electric))|].

Example C109_hyp_ok : station_ok example /\ example <> [] /\ covered example = true /\
  (forall r, In r example -> Qeq_bool (r_rate r) 0 = false /\ ~ one_sensor r).
Proof.
  split; [|split; [discriminate|split; [reflexivity|]]].
  - split; [repeat constructor; not_in|]. apply Forall_cons; [|apply Forall_cons; [|constructor]].
    + channels. right. exists (Some (txt "A. N. Other")), None, (Some (txt "moose ate cables")).
      repeat split; try discriminate; not_in.
    + channels. left. intros v E. injection E as <-. not_in.
  - intros r [<- | [<- | []]]; (split; [reflexivity|intros [ci Q]; discriminate Q]).
Qed.

(** ** What does not come back *)
Definition no_update (k v : text) (f : frun) : result frun := Ok f.
Definition no_time (s : text) : option Z := None.
Definition no_show (z : Z) : text := [].
Definition through (s : list run) : result (list run) :=
  bindR (write no_time no_update s) (read_station no_time no_show (fun a _ => a) (fun a _ => a) (txt "mt01") false span).

(** If one run has a channel that another has not, the station metadata cannot be read. *)
Theorem C109_missing_channel_refuted : exists a b, station_ok [a; b] /\ through [a] = Ok [back [a] a] /\ through [b] = Ok [back [b] b] /\
  through [a; b] = Err AttributeError.
Proof.
  exists run_a, (mkRun (txt "mt01b") logger 1%Q span (remark "windy") [(txt "ex", ex); (txt "hx", hx_b); (txt "hy", hy)]).
  split; [|split; [vm_compute; reflexivity|split; [vm_compute; reflexivity|vm_compute; reflexivity]]].
  split; [repeat constructor; not_in|]. apply Forall_cons; [|apply Forall_cons; [|constructor]].
  - channels. right. exists (Some (txt "A. N. Other")), None, (Some (txt "moose ate cables")). repeat split; try discriminate; not_in.
  - channels. left. intros v E. injection E as <-. not_in.
Qed.

Definition one (chans : list (text * channel)) : run := mkRun (txt "mt01a") logger 8%Q span (remark "") chans.
Definition channel_back (s : list run) (c : text) : option channel :=
  match through s with Ok (r :: _) => channel_of r c | _ => None end.

(** The type of the negative electrode becomes that of the positive one. *)
Theorem C109_negative_electrode_refuted : exists r len p m len' p' m',
  option_map c_kind (channel_of r (txt "ex")) = Some (KEle len p m) /\ option_map c_kind (channel_back [r] (txt "ex")) = Some (KEle len' p' m') /\
  p_type m = Some (txt "Pb-PbCl") /\ p_type m' = Some (txt "Ag-AgCl").
Proof. exists (one [(txt "ex", ex)]). do 6 eexists. split; [reflexivity|]. split; [vm_compute; reflexivity|]. split; reflexivity. Qed.

(** A run with a vertical coil only comes back with two horizontal channels as well. *)
Theorem C109_one_sensor_refuted : exists r r', through [r] = Ok [r'] /\ map fst (r_chans r) = [txt "hz"] /\
  map fst (r_chans r') = [txt "hx"; txt "hy"; txt "hz"].
Proof. exists (one [(txt "hz", hx)]). eexists. split; [vm_compute; reflexivity|]. split; reflexivity. Qed.

(** The place of a sensor is that of the last run. *)
Theorem C109_places_refuted : exists r1 r2 x y, r_id r1 <> r_id r2 /\
  channel_of r1 (txt "hx") = Some x /\ channel_back [r1; r2] (txt "hx") = Some y /\ first_end x = (5, 6, 0)%Q /\ first_end y = (50, 60, 0)%Q.
Proof.
  exists run_a, run_b. do 2 eexists. split; [discriminate|]. split; [reflexivity|]. split; [vm_compute; reflexivity|]. split; reflexivity.
Qed.

(** A remark may rename the run, is lost without a colon, and stops the writing with a name that is not there. *)
Theorem C109_remark_refuted : exists r1 r2 r3,
  (exists r', through [r1] = Ok [r'] /\ r_id r1 = txt "mt01a" /\ r_id r' = txt "short") /\
  (exists r', through [r2] = Ok [r'] /\ value (r_comment r2) = Some (txt "windy") /\ value (r_comment r') = Some []) /\
  value (r_comment r3) = Some (txt "weather.wind: strong") /\
  forall other, (forall v f, exists e, other (txt "weather.wind") v f = Err e) -> write no_time other [r3] = Err AttributeError.
Proof.
  exists (mkRun (txt "mt01a") logger 8%Q span (remark "run: short") [(txt "ex", ex)]), run_b,
         (mkRun (txt "mt01a") logger 8%Q span (remark "weather.wind: strong") [(txt "ex", ex)]).
  split; [eexists; split; [vm_compute; reflexivity|split; reflexivity]|]. split; [eexists; split; [vm_compute; reflexivity|split; reflexivity]|].
  split; [reflexivity|]. intros other H.
  assert (T : forall f, take_comment no_time other (remark "weather.wind: strong") f = take_parts no_time other [txt "weather.wind: strong"] f) by reflexivity.
  unfold write, write_run. cbn [mapR r_comment]. rewrite T. clear T.
  cbn [take_parts]. change (split1 ":" (txt "weather.wind: strong")) with (txt "weather.wind", Some (txt " strong")). cbn iota beta.
  change (strip (txt "weather.wind")) with (txt "weather.wind"). change (strip (txt " strong")) with (txt "strong").
  unfold set_attr. change (text_eqb (txt "weather.wind") (txt "comments.author")) with false. change (text_eqb (txt "weather.wind") (txt "comments.value")) with false.
  change (text_eqb (txt "weather.wind") (txt "errors")) with false. change (text_eqb (txt "weather.wind") (txt "run")) with false. cbn iota.
  match goal with |- context [other (txt "weather.wind") ?v ?f] => destruct (H v f) as (e & ->) end. reflexivity.
Qed.

(** An electrode without a number stops the writing. *)
Theorem C109_electrode_number_refuted : exists r, write no_time no_update [r] = Err ValueError /\ exists x len p m, channel_of r (txt "ex") = Some x /\
  c_kind x = KEle len p m /\ p_id p = None.
Proof.
  exists (one [(txt "ex", mkChannel (KEle 100%Q (mkPot None (Some []) None origin origin) (electrode "p2" "Pb" origin origin)) 0%Q None span)]).
  split; [vm_compute; reflexivity|]. do 4 eexists. split; [reflexivity|]. split; reflexivity.
Qed.

(** A dipole whose ends are not given is laid along its axis; the measured azimuth gives way to the translated one. *)
Theorem C109_example_back : exists y z, channel_back example (txt "ey") = Some y /\ second_end (txt "ey") y = (0, 94, 0)%Q /\
  channel_back example (txt "hy") = Some z /\ c_azimuth hy = 90%Q /\ c_azimuth z = 102%Q.
Proof. do 2 eexists. split; [vm_compute; reflexivity|]. split; [reflexivity|]. split; [vm_compute; reflexivity|]. split; reflexivity. Qed.

Print Assumptions C109_read_back.
Print Assumptions C109_stable.
