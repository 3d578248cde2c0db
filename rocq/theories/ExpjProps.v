(** C142: experiments as JSON. *)
From Verif Require Import PyBase PyFacts PyText TextFacts PyJson PyJsonFacts PyFloat XmlModel ExpxModel ExpdModel ExpdSpec ExpdProps JsonModel ExpjModel ExpjSpec ExpjProofs.
From Coq Require Import Lia.
Local Open Scope list_scope.
Local Open Scope nat_scope.

Definition read_as (v : survey) : survey_read := mkRead (v_fields v) (map (fun f => (the_name f, f)) (v_filters v)) (v_stations v).
Definition no_table (v : survey) : Prop := forall f, In f (v_filters v) -> f_class f <> ResponseTable.

(** The text of an experiment is read as the experiment: all surveys, stations, runs, channels and filters with all their fields, in their order. *)
Theorem C142_text opens stop indent vs fs : forallb ws indent = true -> Forall survey_ok vs -> Forall plain_survey vs -> Forall no_table vs -> (forall v, In v vs -> NoDup (map the_name (v_filters v))) ->
  exists t, to_json opens stop indent None vs fs = (fs, Ok (Some t)) /\ forall fs', (forall u, fs' t <> File u) -> from_json (AText t) fs' = Ok (map read_as vs).
Proof.
  intros W O P T N. eexists. split; [reflexivity|]. intros fs' F. cbn [from_json].
  assert (R : load (dumps true indent (json_of (to_dict vs))) = Ok (map read_as vs)). { rewrite (load_written vs indent W O P). apply C115_an_experiment_is_read; [exact O| |exact N]. intros v f I J. rewrite Forall_forall in T. exact (T v I f J). }
  destruct (fs' (dumps true indent (json_of (to_dict vs)))) as [| |u] eqn:E; [exact R|exact R|exfalso; exact (F u eq_refl)].
Qed.
(** Written to a file it is read from the path, whatever was in the file before; no other file changes. *)
Theorem C142_file opens indent vs fs p : forallb ws indent = true -> Forall survey_ok vs -> Forall plain_survey vs -> Forall no_table vs -> (forall v, In v vs -> NoDup (map the_name (v_filters v))) -> opens p = true ->
  exists fs', to_json opens None indent (Some p) vs fs = (fs', Ok None) /\ from_json (APath p) fs' = Ok (map read_as vs) /\ forall q, q <> p -> fs' q = fs q.
Proof.
  intros W O P T N OP. cbn [to_json]. unfold to_json. rewrite OP. eexists. split; [reflexivity|]. split.
  - cbn [from_json]. unfold put_file. destruct (text_dec p p) as [_|D]; [|congruence]. rewrite (load_written vs indent W O P). apply C115_an_experiment_is_read; [exact O| |exact N]. intros v f I J. rewrite Forall_forall in T. exact (T v I f J).
  - intros q Q. unfold put_file. destruct (text_dec p q) as [E|_]; [congruence|reflexivity].
Qed.
(** Writing that ends early, at any character and for any reason, leaves a file that is refused, never one that is read as another experiment; no other file changes. *)
Theorem C142_stopped opens indent vs fs p n e t : forallb ws indent = true -> Forall survey_ok vs -> Forall plain_survey vs -> opens p = true ->
  snd (to_json opens None indent None vs fs) = Ok (Some t) -> n < length t ->
  exists fs', to_json opens (Some (n, e)) indent (Some p) vs fs = (fs', Err e) /\ fs' p = File (firstn n t) /\ (exists x, from_json (APath p) fs' = Err x) /\ forall q, q <> p -> fs' q = fs q.
Proof.
  intros W O P OP T L. assert (T2 : t = dumps true indent (json_of (to_dict vs))) by (unfold to_json in T; cbn [snd] in T; congruence). clear T. subst t. unfold to_json. rewrite OP. eexists. split; [reflexivity|]. assert (E : put_file p (firstn n (dumps true indent (json_of (to_dict vs)))) fs p = File (firstn n (dumps true indent (json_of (to_dict vs))))) by (unfold put_file; destruct (text_dec p p); [reflexivity|congruence]).
  split; [exact E|]. split.
  - cbn [from_json]. rewrite E. unfold load. destruct (loads (firstn n (dumps true indent (json_of (to_dict vs))))) as [j|x] eqn:J; [|exists x; reflexivity]. exfalso.
    destruct (value_back _ (value_experiment vs O P)) as [_ G]. assert (EL : exists l, json_of (to_dict vs) = JObj l) by (eexists; reflexivity). destruct EL as (l & EL). rewrite EL in *.
    pose proof (prefix_refused true indent l _ (skipn n (dumps true indent (JObj l))) j W G (eq_sym (firstn_skipn n _)) J) as H.
    pose proof (f_equal (@length ascii) H) as H2. rewrite skipn_length in H2. cbn [length] in H2. unfold text in *. lia.
  - intros q Q. unfold put_file. destruct (text_dec p q) as [D|_]; [congruence|reflexivity].
Qed.
(** A file that cannot be opened is an error and nothing changes. *)
Theorem C142_not_opened opens stop indent vs fs p : opens p = false -> to_json opens stop indent (Some p) vs fs = (fs, Err ValueError).
Proof. intros O. unfold to_json. rewrite O. reflexivity. Qed.
(** A survey with a frequency table can be written but not read. *)
Theorem C142_table_refuted opens indent vs fs p : forallb ws indent = true -> Forall survey_ok vs -> Forall plain_survey vs -> opens p = true -> Exists (fun v => exists f, In f (v_filters v) /\ f_class f = ResponseTable) vs ->
  exists fs' e, to_json opens None indent (Some p) vs fs = (fs', Ok None) /\ from_json (APath p) fs' = Err e.
Proof.
  intros W O P OP X. unfold to_json. rewrite OP. eexists. cut (exists e, from_dict (to_dict vs) = Err e).
  - intros (e & E). exists e. split; [reflexivity|]. cbn [from_json]. unfold put_file. destruct (text_dec p p) as [_|D]; [|congruence]. rewrite (load_written vs indent W O P). exact E.
  - change (from_dict (to_dict vs)) with (each survey_of (map survey_dict vs)). clear P. induction X as [v vs T|v vs X IH]; inversion O as [|? ? Ov Os]; subst; cbn [map each].
    + rewrite (C115_tables_refuted v Ov T). eexists. reflexivity.
    + destruct (survey_of (survey_dict v)) as [q|e]; [|exists e; reflexivity]. destruct (IH Os) as (e & ->). exists e. reflexivity.
Qed.
(** JSON of another kind than an experiment: an object without that key is taken for an experiment without surveys, anything that is no object is refused. *)
Theorem C142_other_json s fs j : loads s = Ok j -> (forall u, fs s <> File u) ->
  (forall d, j = JObj d -> ~ In (txt "experiment") (map fst d) -> from_json (AText s) fs = Ok []) /\ ((forall d, j <> JObj d) -> from_json (AText s) fs = Err TypeError).
Proof.
  intros L F. assert (E : from_json (AText s) fs = from_dict (of_json j)). { cbn [from_json]. unfold load. rewrite L. cbn [bindR]. destruct (fs s) as [| |u] eqn:Z; [reflexivity|reflexivity|exfalso; exact (F u eq_refl)]. }
  rewrite E. split.
  - intros d -> N. cbn [of_json from_dict]. assert (H : dget text_dec (txt "experiment") (map (fun kv => (fst kv, of_json (snd kv))) d) = None) by (apply dget_None; unfold dkeys; rewrite map_map; exact N). rewrite H. reflexivity.
  - intros N. destruct j as [|b|z|r|u|l|d]; try reflexivity. exfalso. exact (N d eq_refl).
Qed.
(** The name of a file given as a text never gives what is in the file: the result is that of the name taken for JSON, or an error. *)
Theorem C142_name_refuted s fs fs' t t' j j' : fs s = File t -> fs' s = File t' -> loads t = Ok j -> loads t' = Ok j' -> from_json (AText s) fs = from_json (AText s) fs'.
Proof. intros A B L L'. cbn [from_json]. rewrite A, B, L, L'. reflexivity. Qed.
Theorem C142_absolute_name_refuted r fs : exists e, from_json (AText ("/"%char :: r)) fs = Err e.
Proof.
  assert (L : load ("/"%char :: r) = Err ValueError) by (unfold load, loads; rewrite skip_fixed by reflexivity; reflexivity).
  cbn [from_json]. destruct (fs ("/"%char :: r)) as [| |t]; [exists ValueError; exact L|exists ValueError; exact L|]. destruct (loads t) as [j|e]; [|exists e; reflexivity]. exists ValueError. exact L.
Qed.
(** A path without a file is an UnboundLocalError; what is neither text nor path is a ValueError of the message and not the TypeError that is meant. *)
Theorem C142_missing_refuted p fs : fs p = NoFile -> from_json (APath p) fs = Err UnboundLocalError.
Proof. intros E. cbn [from_json]. rewrite E. reflexivity. Qed.
Theorem C142_neither_refuted fs : from_json Neither fs = Err ValueError.
Proof. reflexivity. Qed.

(** A case with a survey, a filter, a station, a run and a channel. *)
Definition ex_survey : survey :=
  mkSurvey [(txt "id", XText (txt "s1"))] [mkFilt Coefficient [(txt "name", XText (txt "gain")); (txt "type", XText (txt "coefficient")); (txt "gain", XNum (txt "2.5"))]]
    [mkStation [(txt "id", XText (txt "mt01"))] [mkRun [(txt "id", XText (txt "a")); (txt "sample_rate", XNum (txt "8"))] [mkChan Magnetic [(txt "type", XText (txt "magnetic")); (txt "component", XText (txt "hx"))]]]].
Example C142_hyp : Forall survey_ok [ex_survey] /\ Forall plain_survey [ex_survey] /\ Forall no_table [ex_survey] /\ (forall v, In v [ex_survey] -> NoDup (map the_name (v_filters v)))
  /\ length (dumps true (txt "    ") (json_of (to_dict [ex_survey]))) = 948.
Proof.
  assert (H : forall (k : text) l, (if in_dec text_dec k l then false else true) = true -> ~ In k l) by (intros k l; destruct (in_dec text_dec k l); [discriminate|auto]).
  assert (ND : forall l : list text, (fix go l := match l with [] => true | k :: r => (if in_dec text_dec k r then false else true) && go r end)%bool l = true -> NoDup l)
    by (induction l as [|k l IH]; [constructor|]; destruct (in_dec text_dec k l); [discriminate|]; intros E; constructor; [assumption|apply IH; exact E]).
  assert (PL : forall d, NoDup (map fst d) -> Forall (fun kv => value (snd kv)) d -> plain d) by (intros d N F; constructor; assumption).
  assert (F25 : number_text (txt "2.5")) by (right; right; right; right; split; reflexivity). assert (F8 : number_text (txt "8")) by (right; right; left; exists 8%Z; reflexivity).
  split; [|split; [|split; [|split]]].
  - constructor; [|constructor]. split; [constructor; [reflexivity|constructor]|]. split; [|split; apply H; reflexivity]. constructor; [|constructor]. split; [|apply H; reflexivity]. constructor; [|constructor]. split; [|apply H; reflexivity].
    constructor; [|constructor]. split; [reflexivity|]. exists (txt "hx"). split; [reflexivity|]. exists "h"%char, (txt "x"). split; [reflexivity|]. split; [left; reflexivity|]. constructor; [|constructor]. left. unfold small_letter. cbn. lia.
  - constructor; [|constructor]. split; [apply PL; [apply ND; reflexivity|repeat (constructor; [cbn [snd]; first [apply v_text | apply v_num; assumption]|]); constructor]|]. split.
    + constructor; [|constructor]. apply PL; [apply ND; reflexivity|repeat (constructor; [cbn [snd]; first [apply v_text | apply v_num; assumption]|]); constructor].
    + constructor; [|constructor]. split; [apply PL; [apply ND; reflexivity|repeat (constructor; [cbn [snd]; first [apply v_text | apply v_num; assumption]|]); constructor]|]. constructor; [|constructor]. split; [apply PL; [apply ND; reflexivity|repeat (constructor; [cbn [snd]; first [apply v_text | apply v_num; assumption]|]); constructor]|]. constructor; [|constructor]. apply PL; [apply ND; reflexivity|repeat (constructor; [cbn [snd]; first [apply v_text | apply v_num; assumption]|]); constructor].
  - constructor; [|constructor]. intros f [<-|[]]. discriminate.
  - intros v [<-|[]]. repeat constructor. intros [].
  - vm_compute. reflexivity.
Qed.

Print Assumptions C142_text.
Print Assumptions C142_stopped.
Print Assumptions C142_table_refuted.
