(** C139: an experiment made from a directory of XML files. *)
From Verif Require Import PyBase PyFacts PyText TextFacts PyNum JfileModel ManyModel ManySpec ManyProofs ManyProps MmkModel MmkSpec MmkProofs.
From Coq Require Import Lia.
Local Open Scope list_scope.

(** What an experiment that was made consists of. *)
Theorem C139_experiment rd files wanted x : make_experiment rd files wanted = Ok x ->
  exists d ss es fs, sort_by_station files wanted = Ok d /\ without_channels d /\ rd_survey rd (d_survey d) = Ok (x_survey x)
    /\ Forall2 (station_made rd) (d_stations d) ss /\ collected s_id ss (x_stations x)
    /\ rd_filters rd (d_filters d) = Ok es /\ Forall2 filter_made es fs /\ collected f_label fs (x_filters x).
Proof.
  unfold make_experiment. intros E. destruct (sort_by_station files wanted) as [d|] eqn:D; [|discriminate E]. cbn [bindR] in E. destruct (rd_survey rd (d_survey d)) as [v|] eqn:V; [|discriminate E]. cbn [bindR] in E.
  destruct (mapR (make_station rd) (d_stations d)) as [ss|] eqn:S; [|discriminate E]. cbn [bindR] in E. unfold make_filters in E. destruct (rd_filters rd (d_filters d)) as [es|] eqn:R; [|discriminate E]. cbn [bindR] in E.
  destruct (mapR make_filter es) as [fs|] eqn:F; [|discriminate E]. cbn [bindR] in E. injection E as <-. apply mapR_Forall2 in S. apply mapR_Forall2 in F.
  exists d, ss, es, fs. split; [reflexivity|]. split.
  { intros e y I J. clear -S I J. induction S as [|a b l m A S IH]; [destruct I|]. destruct I as [->|I]; [|exact (IH I)]. apply make_station_Ok in A as [_ A]. exact (A y J). }
  split; [exact V|]. split.
  { clear -S. induction S as [|a b l m A S IH]; constructor; [|exact IH]. apply make_station_Ok in A as [A _]. exact A. }
  split; [apply (collected_all s_id)|]. split; [exact R|]. split; [|apply (collected_all f_label)].
  clear -F. induction F as [|a b l m A S IH]; constructor; [|exact IH]. apply make_filter_spec. exact A.
Qed.

(** An experiment is made exactly if the files can be sorted and read, every filter is of one of the four types, and no channel file belongs to a run. *)
Theorem C139_made rd files wanted :
  (exists x, make_experiment rd files wanted = Ok x)
  <-> exists d v es, sort_by_station files wanted = Ok d /\ rd_survey rd (d_survey d) = Ok v /\ (forall e, In e (d_stations d) -> readable rd e) /\ without_channels d
                     /\ rd_filters rd (d_filters d) = Ok es /\ forall e, In e es -> exists f, filter_made e f.
Proof.
  split.
  - intros (x & E). apply C139_experiment in E as (d & ss & es & fs & D & W & V & S & _ & R & F & _). exists d, (x_survey x), es. split; [exact D|]. split; [exact V|]. split.
    { intros e I. clear -S I. induction S as [|a b l m A S IH]; [destruct I|]. destruct I as [->|I]; [|exact (IH I)]. destruct A as (k & rs & K & _ & _ & L & _). split; [exists k; exact K|].
      intros x I. clear -L I. induction L as [|a c l m A L IH]; [destruct I|]. destruct I as [->|I]; [|exact (IH I)]. destruct A as (r & E & _). exists r. exact E. }
    split; [exact W|]. split; [exact R|]. intros e I. clear -F I. induction F as [|a b l m A F IH]; [destruct I|]. destruct I as [->|I]; [|exact (IH I)]. exists b. exact A.
  - intros (d & v & es & D & V & R & W & E & F). unfold make_experiment. rewrite D. cbn [bindR]. rewrite V. cbn [bindR].
    destruct (mapR_Ok (make_station rd) (d_stations d)) as (ss & S). { intros e I. apply make_station_total; [exact (R e I)|]. intros x J. exact (W e x I J). }
    rewrite S. cbn [bindR]. unfold make_filters. rewrite E. cbn [bindR]. destruct (mapR_Ok make_filter es) as (fs & G). { intros e I. destruct (F e I) as (f & M). exists f. apply make_filter_spec. exact M. }
    rewrite G. eexists. reflexivity.
Qed.

(** No channel file can be made into a channel, whatever is in it. *)
Theorem C139_channel_refuted rd f : exists e, make_channel rd f = Err e.
Proof. apply make_channel_Err. Qed.
(** A channel file that reads well, of a type that is known, is an AttributeError; one of another type an UnboundLocalError. *)
Theorem C139_channel_error rd s r k rest f : f_stem f = s ++ txt "." ++ r ++ txt "." ++ k ++ rest -> no_dot s -> no_dot r -> no_dot k -> (rest = [] \/ exists c, rest = txt "." ++ c) ->
  (In (lower k) [txt "electric"; txt "magnetic"] -> forall h, rd_channel rd f = Ok h -> (forall n v, In (n, v) (h_names h) -> v = Ok tt) -> make_channel rd f = Err AttributeError)
  /\ (~ In (lower k) [txt "electric"; txt "magnetic"] -> make_channel rd f = Err UnboundLocalError).
Proof.
  intros E S R K T. assert (P : nth_error (split_on "." (f_stem f)) 2 = Some k).
  { rewrite E. change (s ++ txt "." ++ r ++ txt "." ++ k ++ rest) with (s ++ "."%char :: (r ++ "."%char :: (k ++ rest))). rewrite split_on_app by exact S. rewrite split_on_app by exact R.
    destruct T as [->|(c & ->)]; [rewrite app_nil_r, split_on_no by exact K; reflexivity|]. change (k ++ txt "." ++ c) with (k ++ "."%char :: c). rewrite split_on_app by exact K. reflexivity. }
  unfold make_channel. rewrite P. cbv zeta.
  assert (G : forall kk h, (forall n v, In (n, v) (h_names h) -> v = Ok tt) -> bindR (from_names kk [] (h_names h)) (fun extra => bindR (filter_name kk extra) (fun _ => Ok (h_chan h))) = Err AttributeError).
  { intros kk h. generalize (@nil text) as x. generalize (h_chan h) as c. intros c. induction (h_names h) as [|[n v] l IH]; intros x H.
    - cbn [from_names bindR]. unfold filter_name. destruct kk; cbn [bindR]; destruct (in_names (txt "filter") x); reflexivity.
    - cbn [from_names]. unfold update_attribute. rewrite (H n v (or_introl eq_refl)). destruct (split_on "." n) as [|p [|q t]].
      + cbn [bindR]. apply IH. intros n0 v0 I. apply (H n0 v0). right. exact I.
      + cbn [bindR]. apply IH. intros n0 v0 I. apply (H n0 v0). right. exact I.
      + destruct (in_names p (attributes kk)); cbn [bindR]; [apply IH; intros n0 v0 I; apply (H n0 v0); right; exact I|reflexivity]. }
  split.
  - intros I h H A. destruct I as [I|[I|[]]]; rewrite <- I; rewrite H; cbn [bindR]; exact (G _ h A).
  - intros N. destruct (in_names (lower k) [txt "electric"]) eqn:A; [apply in_names_one in A; exfalso; apply N; left; symmetry; exact A|].
    destruct (in_names (lower k) [txt "magnetic"]) eqn:B; [apply in_names_one in B; exfalso; apply N; right; left; symmetry; exact B|]. reflexivity.
Qed.
(** So a directory with a channel of one of the wanted stations makes no experiment. *)
Theorem C139_with_channels_refuted rd files wanted d e x f : sort_by_station files wanted = Ok d -> In e (d_stations d) -> In x (snd e) -> In f (snd x) -> exists err, make_experiment rd files wanted = Err err.
Proof.
  intros D I J K. destruct (make_experiment rd files wanted) as [y|err] eqn:E; [|exists err; reflexivity]. exfalso. apply C139_experiment in E as (d' & _ & _ & _ & D' & W & _). rewrite D in D'. injection D' as <-.
  rewrite (W e x I J) in K. exact K.
Qed.
(** Nor can one look at a single channel. *)
Theorem C139_look_refuted A rd (respond : chan -> list (text * filt) -> result A) f g : exists e, get_mt_channel rd respond f g = Err e.
Proof. unfold get_mt_channel. destruct (make_channel_Err rd f) as (e & ->). exists e. reflexivity. Qed.

(** An example without channels: a run file that lists a channel, a station that lists a run without a file. *)
Definition ex_dir : list file := [file_of "survey"; file_of "filters"; file_of "mt1"; file_of "mt1.a"].
Definition ex_chan (p : place) : chan := mkChan (txt "electric") (txt "ex") p [].
Definition ex_reader (p : place) (l : list text) (es : list filter_element) : reader :=
  mkReader (fun _ => Ok (txt "test")) (fun _ => Ok (mkContent (txt "mt1") (mkPlace 40 (-110) 1200) l [])) (fun _ => Ok (mkRun (txt "a") [(txt "ex", ex_chan p)] []))
           (fun _ => Ok (mkChannel [(txt "component", Ok tt)] (ex_chan p))) (fun _ => Ok es).
Definition ex_filter (t : string) : filter_element := mkElement [Some (txt t)] (fun c => Ok (mkFilt (txt "f1") c [])).
Example C139_hyp : exists x, make_experiment (ex_reader (mkPlace 0 0 0) [txt "a"] [ex_filter "zpk"]) ex_dir [] = Ok x
  /\ x_stations x = [(txt "mt1", mkStation (txt "mt1") (mkPlace 40 (-110) 1200) [(txt "a", mkRun (txt "a") [(txt "ex", ex_chan (mkPlace 40 (-110) 1200))] [])])]
  /\ x_filters x = [(txt "f1", mkFilt (txt "f1") PoleZero [])].
Proof. eexists. split; [vm_compute; reflexivity|]. split; reflexivity. Qed.
Example C139_channel_hyp : exists h, rd_channel (ex_reader (mkPlace 0 0 0) [] []) (file_of "mt1.a.electric.ex") = Ok h
  /\ make_channel (ex_reader (mkPlace 0 0 0) [] []) (file_of "mt1.a.electric.ex") = Err AttributeError
  /\ make_channel (ex_reader (mkPlace 0 0 0) [] []) (file_of "mt1.a.auxiliary.temperature") = Err UnboundLocalError.
Proof. eexists. split; [reflexivity|]. split; reflexivity. Qed.

(** Runs that the station lists but that have no file stay in the experiment, empty, although the runs are reset before the files are read. *)
Theorem C139_empty_runs_refuted : exists rd x s, make_experiment rd ex_dir [] = Ok x /\ dget text_dec (txt "mt1") (x_stations x) = Some s
  /\ dget text_dec (txt "b") (s_runs s) = Some (mkRun (txt "b") [] []) /\ ~ exists f, In f ex_dir /\ run_file (txt "mt1") (txt "b") f.
Proof.
  exists (ex_reader (mkPlace 0 0 0) [txt "a"; txt "b"] []). eexists. eexists. split; [vm_compute; reflexivity|]. split; [reflexivity|]. split; [reflexivity|].
  intros (f & I & E & _). destruct I as [<-|[<-|[<-|[<-|[]]]]]; discriminate E.
Qed.
(** A channel that has a latitude and longitude but no elevation keeps the elevation 0. *)
Theorem C139_elevation_refuted : exists rd x s r c, make_experiment rd ex_dir [] = Ok x /\ dget text_dec (txt "mt1") (x_stations x) = Some s /\ dget text_dec (txt "a") (s_runs s) = Some r
  /\ dget text_dec (txt "ex") (r_chans r) = Some c /\ (elev (c_place c) == 0 /\ ~ elev (s_place s) == 0)%Q.
Proof.
  exists (ex_reader (mkPlace 40 (-110) 0) [txt "a"] []). eexists. eexists. eexists. eexists. split; [vm_compute; reflexivity|]. split; [reflexivity|]. split; [reflexivity|]. split; [reflexivity|].
  split; [reflexivity|]. intros H. discriminate H.
Qed.
(** The types of filters as the package writes them: that of a time delay ("time_delay") and of a look up table ("fap") are refused, so one such filter makes
    the experiment fail. *)
Theorem C139_types_refuted rd files wanted d es e t ts : sort_by_station files wanted = Ok d -> rd_filters rd (d_filters d) = Ok es -> In e es -> e_types e = Some t :: ts ->
  In t [txt "time_delay"; txt "fap"] -> exists err, make_experiment rd files wanted = Err err.
Proof.
  intros D R I T N. destruct (make_experiment rd files wanted) as [y|err] eqn:E; [|exists err; reflexivity]. exfalso. apply C139_experiment in E as (d' & _ & es' & fs & D' & _ & _ & _ & _ & R' & F & _).
  rewrite D in D'. injection D' as <-. rewrite R in R'. injection R' as <-. clear -F I T N. induction F as [|a b l m A F IH]; [destruct I|]. destruct I as [->|I]; [|exact (IH I)].
  destruct A as (t' & ts' & c & T' & J & _). rewrite T in T'. injection T' as <- <-. destruct N as [<-|[<-|[]]]; destruct J as [J|[J|[J|[J|[]]]]]; discriminate J.
Qed.
Example C139_types_hyp : make_experiment (ex_reader (mkPlace 0 0 0) [] [ex_filter "time_delay"]) ex_dir [] = Err ValueError.
Proof. reflexivity. Qed.

Print Assumptions C139_experiment.
Print Assumptions C139_made.
Print Assumptions C139_channel_error.
