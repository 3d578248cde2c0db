(** C118: the notes of an EDI object about its station and its survey. *)
From Verif Require Import PyBase PyFacts PyText TextFacts LayModel EdnModel EdnSpec EdnProofs.
From Coq Require Import Lia.
Local Open Scope list_scope.

Section Refuse.
Variable refuse : place -> text -> value -> option exn.
Lemma station_general id fd s d0 :
  (forall k v, In (k, v) d0 -> calm k) -> readable_tf refuse (s_tf s) -> readable_provenance refuse (s_provenance s) ->
  (forall r k, In r (s_runs s) -> run_note r k -> calm k) -> refuse OfTF (txt "processed_date") fd = None ->
  exists d g, set_station s d0 = Ok d /\ read_station refuse id fd d = Ok g /\
    g_params g = map back (the_field (txt "processing_parameters") (given_fields (s_tf s))) /\ g_refs g = the_field (txt "remote_references") (given_fields (s_tf s)) /\
    g_runs g = [id ++ txt "a"] /\ g_processed g = [id ++ txt "a"] /\
    g_log g = [(OfTF, txt "id", VText id)] ++ map (fun kv => (OfTF, fst kv, snd kv)) (other_fields (s_tf s)) ++
              map (fun kv => (OfStation, txt "provenance." ++ fst kv, snd kv)) (given_fields (s_provenance s)) ++
              match fd with VNone => [] | v => [(OfTF, txt "processed_date", v)] end.
Proof.
  intros C T [NP P] R F. destruct (put_tf_all refuse (s_tf s) d0 T) as (es & E & B & A).
  { intros k v key I J G. unfold dkeys in J. apply in_map_iff in J as ([key' x] & <- & J). cbn [fst]. specialize (C _ _ J) as (M & _ & _).
    assert (X : forall u, key' <> txt "transfer_function." ++ u) by (intros u ->; apply (M (txt "transfer_function")); [cbn; tauto|]; rewrite tf_app; exists [], ("."%char :: lower u); reflexivity).
    split; [intros _ n|intros _]; [change (txt "transfer_function.processing_parameters." ++ n) with (txt "transfer_function." ++ txt "processing_parameters." ++ n)|]; apply X. }
  unfold set_station. rewrite E. cbn [bindR]. eexists. eexists. split; [reflexivity|]. unfold read_station. rewrite put_runs_calm by exact R.
  rewrite put_all_fresh; [|exact NP|].
  2: { intros k v I J. unfold dkeys in J. rewrite map_app in J. apply in_app_or in J as [J|J].
    - apply in_map_iff in J as ([key x] & J1 & J). cbn [fst] in J1. subst key. destruct (C _ _ J) as (M & _ & _). apply (M (txt "provenance")); [cbn; tauto|]. rewrite lower_app. exists [], ("."%char :: lower k). reflexivity.
    - destruct (B _ J) as (u & X). discriminate X. }
  rewrite all_app, all_app, (all_calm refuse d0) by exact C. cbn [bindR]. rewrite A. cbn [bindR]. rewrite all_provenance by exact P. cbn [bindR].
  assert (Q : forall g, match fd with VNone => Ok g | v => assign refuse OfTF (txt "processed_date") v g end = Ok (plus g [] [] match fd with VNone => [] | v => [(OfTF, txt "processed_date", v)] end)).
  { intros g. unfold plus, assign. rewrite !app_nil_r. destruct fd; [rewrite app_nil_r; destruct g; reflexivity| | |]; rewrite F; reflexivity. }
  rewrite Q. split; [reflexivity|]. unfold plus. cbn [g_params g_refs g_runs g_processed g_log app]. rewrite !app_nil_r. repeat split. unfold tf_log, prov_log. cbn [app]. rewrite <- !app_assoc. reflexivity.
Qed.

(** What a station writes into the notes and reads again: parameters, remote references and the other given fields of the transfer function, and those
    of the provenance, in their order *)
Theorem C118_station id fd s d0 :
  (forall k v, In (k, v) d0 -> calm k) -> readable_tf refuse (s_tf s) -> readable_provenance refuse (s_provenance s) ->
  (forall v n x, In (txt "processing_parameters", v) (s_tf s) -> In (as_parameter (n, x)) (match v with VList l => l | _ => [] end) -> ~ In "="%char n -> small n) ->
  (forall r k, In r (s_runs s) -> run_note r k -> calm k) -> refuse OfTF (txt "processed_date") fd = None ->
  exists d g, set_station s d0 = Ok d /\ read_station refuse id fd d = Ok g /\
    g_params g = the_field (txt "processing_parameters") (s_tf s) /\ g_refs g = the_field (txt "remote_references") (s_tf s) /\
    g_log g = [(OfTF, txt "id", VText id)] ++ map (fun kv => (OfTF, fst kv, snd kv)) (other_fields (s_tf s)) ++
              map (fun kv => (OfStation, txt "provenance." ++ fst kv, snd kv)) (given_fields (s_provenance s)) ++
              match fd with VNone => [] | v => [(OfTF, txt "processed_date", v)] end.
Proof.
  intros C T P S R F. destruct (station_general id fd s d0 C T P R F) as (d & g & A & B & G1 & G2 & _ & _ & G5). exists d, g. split; [exact A|]. split; [exact B|].
  assert (X : forall name fs, the_field name (given_fields fs) = the_field name fs).
  { intros name fs. unfold the_field, given_fields. induction fs as [|[k v] fs IH]; [reflexivity|]. cbn [filter snd]. destruct (is_given v) eqn:E; [cbn [flat_map]; rewrite IH; reflexivity|]. cbn [flat_map fst snd]. rewrite IH. destruct v; try (discriminate E); destruct (text_dec k name); reflexivity. }
  rewrite X in G1, G2. split; [|split; [exact G2|exact G5]]. rewrite G1. rewrite <- (map_id (the_field _ _)) at 2. apply map_ext_in. intros p I. unfold the_field in I. apply in_flat_map in I as ([k v] & I & J). cbn [fst snd] in J. destruct (text_dec k (txt "processing_parameters")) as [->|]; [|destruct J].
  destruct v as [| |l|]; try (destruct J). destruct T as [_ T]. destruct (T _ _ I eq_refl) as [[_ (ps & Q & _ & H)]|[[Q _]|[Q|[Q _]]]]; [|discriminate Q|discriminate Q|exfalso; apply (proj2 Q (txt "processing_parameters")); [cbn; tauto|exists [], []; reflexivity]].
  injection Q as ->. apply in_map_iff in J as ([n x] & <- & J). assert (NE : ~ In "="%char n) by apply (H n x J). rewrite back_as by exact NE. unfold small_name. cbn [fst snd]. rewrite (small_lower n); [reflexivity|].
  apply (S _ n x I); [apply in_map; exact J|exact NE].
Qed.

(** Capital letters of the names of parameters do not come back *)
Theorem C118_capitals_refuted id fd n x : parameter_name n -> given (VText x) -> refuse OfTF (txt "processed_date") fd = None ->
  exists d g, set_station (mkSt [(txt "processing_parameters", VList [n ++ txt "=" ++ x])] [] []) [] = Ok d /\ read_station refuse id fd d = Ok g /\ g_params g = [lower n ++ txt "=" ++ x].
Proof.
  intros P G F. destruct (station_general id fd (mkSt [(txt "processing_parameters", VList [n ++ txt "=" ++ x])] [] []) []) as (d & g & A & B & G1 & _).
  - intros k v [].
  - split; [repeat constructor; intros []|]. intros k v [E|[]] _. injection E as <- <-. left. split; [reflexivity|]. exists [(n, x)]. split; [reflexivity|]. split; [repeat constructor; intros []|]. intros n' x' [E|[]]. injection E as <- <-. split; assumption.
  - split; [constructor|intros k v []].
  - intros r k [].
  - exact F.
  - exists d, g. split; [exact A|]. split; [exact B|]. rewrite G1. cbn. f_equal. exact (back_as n x (proj1 (proj2 P))).
Qed.

(** The runs never come back: there is one, called after the station, whatever runs were written and whatever runs_processed says *)
Theorem C118_runs_refuted id fd s d0 :
  (forall k v, In (k, v) d0 -> calm k) -> readable_tf refuse (s_tf s) -> readable_provenance refuse (s_provenance s) ->
  (forall r k, In r (s_runs s) -> run_note r k -> calm k) -> refuse OfTF (txt "processed_date") fd = None ->
  exists d g, set_station s d0 = Ok d /\ read_station refuse id fd d = Ok g /\ g_runs g = [id ++ txt "a"] /\ g_processed g = [id ++ txt "a"] /\ (forall p k v, In (p, k, v) (g_log g) -> p <> OfRun).
Proof.
  intros C T P R F. destruct (station_general id fd s d0 C T P R F) as (d & g & A & B & _ & _ & G3 & G4 & G5). exists d, g. split; [exact A|]. split; [exact B|]. split; [exact G3|]. split; [exact G4|].
  intros p k v I. rewrite G5 in I. apply in_app_or in I as [[I|[]]|I]; [congruence|]. apply in_app_or in I as [I|I]; [apply in_map_iff in I as (kv & I & _); congruence|]. apply in_app_or in I as [I|I]; [apply in_map_iff in I as (kv & I & _); congruence|].
  destruct fd; [destruct I| | |]; (destruct I as [I|[]]; congruence).
Qed.

(** The date of processing is the one of the file, whatever was written *)
Theorem C118_processed_date_refuted id fd s d0 :
  (forall k v, In (k, v) d0 -> calm k) -> readable_tf refuse (s_tf s) -> readable_provenance refuse (s_provenance s) ->
  (forall r k, In r (s_runs s) -> run_note r k -> calm k) -> refuse OfTF (txt "processed_date") fd = None -> fd <> VNone ->
  exists d g rest, set_station s d0 = Ok d /\ read_station refuse id fd d = Ok g /\ g_log g = rest ++ [(OfTF, txt "processed_date", fd)].
Proof.
  intros C T P R F N. destruct (station_general id fd s d0 C T P R F) as (d & g & A & B & _ & _ & _ & _ & G5). eexists d, g, _. split; [exact A|]. split; [exact B|]. rewrite G5. destruct fd; [congruence| | |]; rewrite !app_assoc; reflexivity.
Qed.

(** A parameter without "=" cannot be written *)
Theorem C118_no_equals_refuted s d p l : s_tf s = [(txt "processing_parameters", VList (p :: l))] -> ~ In "="%char p -> set_station s d = Err ValueError.
Proof. intros E N. unfold set_station. rewrite E. cbn [put_tf null]. change (text_eqb (txt "processing_parameters") (txt "processing_parameters")) with true. cbn [put_parameters]. rewrite split1_no by exact N. reflexivity. Qed.

(** ** Errors *)
Lemma assign_err k v g x : refuse OfStation k v = Some x -> assign refuse OfStation k v g = Err x.
Proof. intros R. unfold assign. rewrite R. reflexivity. Qed.
Lemma all_err d k v : In (k, v) d -> given v -> mentions (txt "provenance") (lower k) -> refuse OfStation (lower k) v <> None -> forall g, exists x, all_notes refuse d g = Err x.
Proof.
  intros I G M R. induction d as [|kv d IH]; [destruct I|]. intros g. destruct I as [->|I].
  - exists (match refuse OfStation (lower k) v with Some x => x | None => KeyError end). cbn [all_notes]. unfold one_note. cbn [fst snd]. rewrite (given_null v G), (proj2 (mentions_contains _ _) M). unfold assign. destruct (refuse OfStation (lower k) v); [reflexivity|congruence].
  - cbn [all_notes]. destruct (one_note refuse g kv) as [g'|x]; [apply IH; exact I|exists x; reflexivity].
Qed.
End Refuse.

Lemma put_all_keeps p fs : forall d k, (forall f v, In (f, v) fs -> p ++ f <> k) -> dget text_dec k (put_all p fs d) = dget text_dec k d.
Proof.
  induction fs as [|[f v] fs IH]; intros d k H; [reflexivity|]. cbn [put_all]. rewrite IH by (intros f' v' I; apply (H f' v'); right; exact I). destruct (null v); [reflexivity|]. apply dget_dset_neq. intros E. apply (H f v (or_introl eq_refl)). symmetry. exact E.
Qed.
Lemma put_all_has p fs : forall d f v, NoDup (map fst fs) -> In (f, v) fs -> given v -> dget text_dec (p ++ f) (put_all p fs d) = Some v.
Proof.
  induction fs as [|[f' v'] fs IH]; intros d f v N I G; [destruct I|]. inversion N as [|? ? NI N']; subst. destruct I as [E|I]; [|cbn [put_all]; apply IH; assumption]. injection E as -> ->. cbn [put_all]. rewrite (given_null v G).
  rewrite put_all_keeps; [apply dget_dset_eq|]. intros f' v' I E. apply app_inv_head in E. subst f'. apply NI. apply in_map_iff. exists (f, v'). split; [reflexivity|exact I].
Qed.

(** A run with something in its provenance makes the station unreadable: the note is taken for one of the station, which has no such attribute *)
Theorem C118_run_provenance_refuted refuse id fd tf prov rid fs f v d :
  NoDup (map fst fs) -> In (f, v) fs -> given v -> mentions (txt "provenance") (lower f) -> refuse OfStation (lower (rid ++ txt "." ++ f)) v <> None ->
  set_station (mkSt tf prov [mkRun rid fs []]) [] = Ok d -> exists x, read_station refuse id fd d = Err x.
Proof.
  intros N I G M R E. unfold set_station in E. cbn [s_tf s_provenance s_runs] in E. destruct (put_tf tf []) as [d1|]; [|discriminate E]. cbn [bindR fold_left] in E. injection E as <-. unfold put_run. cbn [r_id r_fields r_channels fold_left].
  pose proof (put_all_has (rid ++ txt ".") fs (put_all (txt "provenance.") prov d1) f v N I G) as H. apply dget_In in H. rewrite <- app_assoc in H.
  destruct (all_err refuse _ _ _ H G) with (g := mkGot [] [] [id ++ txt "a"] [id ++ txt "a"] [(OfTF, txt "id", VText id)]) as (x & X); [|exact R|].
  - rewrite lower_app, lower_app. destruct M as (a & b & ->). exists (lower rid ++ lower (txt ".") ++ a), b. rewrite <- !app_assoc. reflexivity.
  - exists x. unfold read_station. etransitivity; [apply f_equal2; [exact X|reflexivity]|reflexivity].
Qed.

(** Values that stand for nothing are written with their parameter, and not read *)
Theorem C118_null_parameter_refuted refuse id n x : ~ In "="%char n -> ~ given (VText x) -> exists d g,
  set_station (mkSt [(txt "processing_parameters", VList [n ++ txt "=" ++ x])] [] []) [] = Ok d /\ d = [(txt "transfer_function.processing_parameters." ++ n, VText x)] /\
  read_station refuse id VNone d = Ok g /\ g_params g = [].
Proof.
  intros N G. unfold set_station. cbn [s_tf s_provenance s_runs put_tf null]. change (text_eqb (txt "processing_parameters") (txt "processing_parameters")) with true. cbn [put_parameters].
  change (n ++ txt "=" ++ x) with (n ++ "="%char :: x). rewrite split1_app by exact N. eexists. eexists. split; [reflexivity|]. split; [reflexivity|]. unfold read_station. cbn [put_all fold_left all_notes dset]. unfold one_note. cbn [snd]. rewrite null_is. unfold given in G. destruct (is_given (VText x)); [congruence|]. split; reflexivity.
Qed.

(** Of a name with dots only the last part comes back; of two parameters with the same name only one comes back; a run called after a program adds
    parameters *)
Theorem C118_dots_refuted : exists d g, set_station (mkSt [(txt "processing_parameters", VList [txt "mtft.version=1"])] [] []) [] = Ok d /\
  read_station (fun _ _ _ => None) (txt "mt1") VNone d = Ok g /\ g_params g = [txt "version=1"].
Proof. eexists. eexists. split; [vm_compute; reflexivity|]. split; vm_compute; reflexivity. Qed.
Theorem C118_same_name_refuted refuse id n x y : parameter_name n -> given (VText x) -> given (VText y) ->
  exists d g, set_station (mkSt [(txt "processing_parameters", VList [n ++ txt "=" ++ x; n ++ txt "=" ++ y])] [] []) [] = Ok d /\ read_station refuse id VNone d = Ok g /\ g_params g = [lower n ++ txt "=" ++ y].
Proof.
  intros P G G'. unfold set_station. cbn [s_tf s_provenance s_runs put_tf null]. change (text_eqb (txt "processing_parameters") (txt "processing_parameters")) with true. cbn [put_parameters].
  change (n ++ txt "=" ++ x) with (n ++ "="%char :: x). change (n ++ txt "=" ++ y) with (n ++ "="%char :: y). rewrite !split1_app by apply P. eexists. eexists. split; [reflexivity|]. unfold read_station. cbn [dset]. destruct (text_dec _ _) as [_|X]; [|elim X; reflexivity].
  cbn [put_all fold_left]. cbn [all_notes]. rewrite param_note by assumption. split; reflexivity.
Qed.
Theorem C118_program_refuted refuse f v : given v -> exists d g, set_station (mkSt [] [] [mkRun (txt "emtf") [(f, v)] []]) [] = Ok d /\
  (calm (txt "x." ++ f) -> read_station refuse (txt "mt1") VNone d = Ok g /\ g_params g = [txt "emtf." ++ lower f ++ txt "=" ++ shown v]).
Proof.
  intros G. unfold set_station. cbn [s_tf s_provenance s_runs put_tf bindR fold_left put_all]. unfold put_run. cbn [r_id r_fields r_channels fold_left put_all]. rewrite (given_null v G). eexists. exists (mkGot [txt "emtf." ++ lower f ++ txt "=" ++ shown v] [] [txt "mt1a"] [txt "mt1a"] [(OfTF, txt "id", VText (txt "mt1"))]). split; [reflexivity|].
  intros (M & _ & _). unfold read_station. cbn [dset all_notes]. unfold one_note. cbn [fst snd]. rewrite (given_null v G).
  change ((txt "emtf" ++ txt ".") ++ f) with (txt "emtf." ++ f). rewrite lower_app. change (lower (txt "emtf.")) with (txt "emtf.").
  assert (X : forall w, In w [txt "provenance"; txt "transfer_function"] -> contains w (txt "emtf." ++ lower f) = false).
  { intros w I. apply not_mentions. intros Q. change (txt "emtf." ++ lower f) with (txt "emtf" ++ "."%char :: lower f) in Q. apply mentions_dot in Q as [Q|(a & b & Q)].
    - apply mentions_contains in Q. destruct I as [<-|[<-|[]]]; discriminate Q.
    - apply (M w); [destruct I as [<-|[<-|[]]]; cbn; tauto|]. rewrite lower_app, Q. exists (txt "x." ++ a), b. rewrite <- app_assoc. reflexivity.
    - destruct I as [<-|[<-|[]]]; cbn; intuition discriminate. }
  rewrite !X by (cbn; tauto).
  assert (Y : contains (txt "processing.") (txt "emtf." ++ lower f) = false).
  { apply not_mentions. intros (a & b & Q). assert (Z : mentions (txt "processing.") (lower (txt "x." ++ f))); [|revert Z; apply M; cbn; tauto]. rewrite lower_app. change (lower (txt "x.")) with (txt "x.").
    destruct a as [|a1 [|a2 [|a3 [|a4 [|a5 a]]]]]; try discriminate Q. injection Q as <- <- <- <- <- Q. exists (txt "x." ++ a), b. rewrite Q, <- app_assoc. reflexivity. }
  cbn [prefix_of txt]. 
  change (prefix_of (txt "run.") (txt "emtf." ++ lower f)) with false. change (prefix_of (txt "data_logger") (txt "emtf." ++ lower f)) with false. change (prefix_of (txt "station.") (txt "emtf." ++ lower f)) with false. rewrite Y.
  change (existsb (text_eqb (txt "emtf." ++ lower f)) [txt "processedby"; txt "processed_by"]) with false. change (existsb (text_eqb (txt "emtf." ++ lower f)) [txt "runlist"; txt "run_list"]) with false.
  change (text_eqb (txt "emtf." ++ lower f) (txt "sitename")) with false. change (text_eqb (txt "emtf." ++ lower f) (txt "signconvention")) with false. cbn match.
  rewrite (proj2 (mentions_contains (txt "emtf") (txt "emtf." ++ lower f))) by (exists [], ("."%char :: lower f); reflexivity). rewrite orb_true_r. cbn [orb bindR]. split; reflexivity.
Qed.

(** ** Surveys *)
Definition survey_field (k : text) : Prop := small k /\ ~ mentions (txt "survey.") k.
Lemma read_survey_app d : forall d', read_survey (d ++ d') = bindR (read_survey d) (fun l => bindR (read_survey d') (fun l' => Ok (l ++ l'))).
Proof.
  induction d as [|[k v] d IH]; intros d'; [cbn; destruct (read_survey d'); reflexivity|]. cbn [app read_survey]. destruct (prefix_of (txt "survey.") (lower k)); [|apply IH]. destruct (second (txt "survey.") (lower k)) as [k'|x]; [|reflexivity]. cbn [bindR]. rewrite IH. destruct (read_survey d) as [l|x]; [|reflexivity]. cbn [bindR]. destruct (read_survey d') as [l'|x]; reflexivity.
Qed.
Lemma survey_entry k v d : survey_field k -> read_survey ((txt "survey." ++ k, v) :: d) = bindR (read_survey d) (fun l => Ok ((k, v) :: l)).
Proof.
  intros [S M]. cbn [read_survey]. rewrite lower_app, (small_lower k S). change (lower (txt "survey.")) with (txt "survey."). rewrite (proj2 (prefix_of_spec (txt "survey.") (txt "survey." ++ k))) by (exists k; reflexivity). rewrite second_prefix by exact M. reflexivity.
Qed.
Lemma survey_entries fs : (forall k v, In (k, v) fs -> survey_field k) -> read_survey (map (fun kv => (txt "survey." ++ fst kv, snd kv)) fs) = Ok fs.
Proof. induction fs as [|[k v] fs IH]; intros H; [reflexivity|]. cbn [map fst snd]. rewrite survey_entry by (apply (H k v); left; reflexivity). rewrite IH by (intros k' v' I; apply (H k' v'); right; exact I). reflexivity. Qed.
Definition pre (kv : text * value) : text * value := (txt "survey." ++ fst kv, snd kv).
Fixpoint fill (fs l : list (text * value)) : list (text * value) := match fs with [] => l | (k, v) :: r => fill r (if null v then l else dset text_dec k v l) end.
Lemma dset_pre k v l : dset text_dec (txt "survey." ++ k) v (map pre l) = map pre (dset text_dec k v l).
Proof. induction l as [|[k' v'] l IH]; [reflexivity|]. cbn [map dset pre fst snd]. destruct (text_dec (txt "survey." ++ k) (txt "survey." ++ k')) as [E|N]; [apply app_inv_head in E; subst k'; destruct (text_dec k k) as [_|X]; [reflexivity|elim X; reflexivity]|]. destruct (text_dec k k') as [->|_]; [elim N; reflexivity|]. cbn [map]. rewrite IH. reflexivity. Qed.
Lemma put_all_pre fs : forall l, put_all (txt "survey.") fs (map pre l) = map pre (fill fs l).
Proof. induction fs as [|[k v] fs IH]; intros l; [reflexivity|]. cbn [put_all fill]. destruct (null v); [apply IH|]. rewrite dset_pre. apply IH. Qed.
Lemma fill_nodup fs : forall l, NoDup (map fst l) -> NoDup (map fst (fill fs l)).
Proof. induction fs as [|[k v] fs IH]; intros l N; [exact N|]. cbn [fill]. apply IH. destruct (null v); [exact N|]. apply NoDup_dset. exact N. Qed.
Lemma fill_get fs : forall l k, NoDup (map fst fs) -> dget text_dec k (fill fs l) = match dget text_dec k fs with Some v => if null v then dget text_dec k l else Some v | None => dget text_dec k l end.
Proof.
  induction fs as [|[k' v'] fs IH]; intros l k N; [reflexivity|]. inversion N as [|? ? NI N']; subst. cbn [fill]. rewrite IH by exact N'. cbn [dget]. destruct (text_dec k k') as [->|NE].
  - assert (E : dget text_dec k' fs = None) by (apply dget_None; exact NI). rewrite E. destruct (null v'); [reflexivity|apply dget_dset_eq].
  - assert (E : dget text_dec k (if null v' then l else dset text_dec k' v' l) = dget text_dec k l) by (destruct (null v'); [reflexivity|apply dget_dset_neq; congruence]). rewrite E. reflexivity.
Qed.
(** Every given field of a survey, but those of its corners and its time, comes back once, and nothing else does; a station's notes do not disturb it *)
Theorem C118_survey fs : NoDup (map fst fs) -> (forall k v, In (k, v) fs -> survey_field k) ->
  exists l, read_survey (set_survey fs []) = Ok l /\ NoDup (map fst l) /\
    forall k v, In (k, v) l <-> In (k, v) fs /\ given v /\ ~ mentions (txt "northwest") k /\ ~ mentions (txt "southeast") k /\ ~ mentions (txt "time_period") k.
Proof.
  intros N S. set (fs' := filter (fun kv => negb (left_out (fst kv))) fs).
  assert (N' : NoDup (map fst fs')). { clear S. unfold fs'. induction fs as [|kv fs IH]; [constructor|]. inversion N as [|? ? NI N']; subst. cbn [filter]. destruct (negb (left_out (fst kv))); [|apply IH; exact N']. cbn [map]. constructor; [|apply IH; exact N']. intros I. apply NI. apply in_map_iff in I as (x & E & I). apply filter_In in I as [I _]. apply in_map_iff. exists x. split; assumption. }
  assert (X : exists l0, set_survey fs [] = map pre (fill fs' l0) /\ NoDup (map fst l0) /\ forall k v, dget text_dec k l0 = Some v -> In (k, v) fs' /\ given v).
  { unfold set_survey. fold fs'. destruct (dget text_dec (txt "summary") fs) as [v|] eqn:E; [destruct (null v) eqn:G|].
    - exists []. split; [apply (put_all_pre fs' [])|]. split; [constructor|discriminate].
    - exists [(txt "summary", v)]. split; [apply (put_all_pre fs' [(txt "summary", v)])|]. split; [repeat constructor; intros []|]. intros k w. cbn [dget]. destruct (text_dec k (txt "summary")) as [->|]; [|discriminate]. intros [= <-]. split; [|unfold given; rewrite null_is in G; destruct (is_given v); [reflexivity|discriminate G]]. unfold fs'. apply filter_In. split; [apply dget_In in E; exact E|reflexivity].
    - exists []. split; [apply (put_all_pre fs' [])|]. split; [constructor|discriminate]. }
  destruct X as (l0 & E & N0 & G0). exists (fill fs' l0). rewrite E.
  assert (C : forall k v, In (k, v) (fill fs' l0) <-> In (k, v) fs' /\ given v).
  { intros k v. pose proof (fill_get fs' l0 k N') as Q. split.
    - intros I. apply (In_dget text_dec k v _ (fill_nodup fs' l0 N0)) in I. rewrite I in Q. destruct (dget text_dec k fs') as [w|] eqn:W; [destruct (null w) eqn:NW|]; [apply G0; congruence| |apply G0; congruence]. injection Q as ->. split; [apply dget_In in W; exact W|]. unfold given. rewrite null_is in NW. destruct (is_given w); [reflexivity|discriminate NW].
    - intros [I G]. apply (In_dget text_dec k v _ N') in I. rewrite I, (given_null v G) in Q. apply dget_In in Q. exact Q. }
  split; [|split; [apply fill_nodup; exact N0|]].
  - apply survey_entries. intros k v I. apply C in I as [I _]. unfold fs' in I. apply filter_In in I as [I _]. apply (S k v I).
  - intros k v. rewrite C. unfold fs'. rewrite filter_In. cbn [fst]. unfold left_out. rewrite negb_true_iff, !orb_false_iff. rewrite <- !mentions_contains. rewrite !not_true_iff_false. tauto.
Qed.
Lemma no_survey_dset k v d : ~ begins (txt "survey.") (lower k) -> read_survey (dset text_dec k v d) = read_survey d.
Proof.
  intros B. apply not_begins in B. induction d as [|[k' v'] d IH]; [cbn [dset read_survey]; rewrite B; reflexivity|]. cbn [dset]. destruct (text_dec k k') as [->|N]; cbn [read_survey]; [rewrite B; reflexivity|]. rewrite IH. reflexivity.
Qed.
Lemma no_survey_put p fs : forall d, (forall k v, In (k, v) fs -> ~ begins (txt "survey.") (lower (p ++ k))) -> read_survey (put_all p fs d) = read_survey d.
Proof. induction fs as [|[k v] fs IH]; intros d H; [reflexivity|]. cbn [put_all]. rewrite IH by (intros k' v' I; apply (H k' v'); right; exact I). destruct (null v); [reflexivity|]. apply no_survey_dset. apply (H k v). left. reflexivity. Qed.
Theorem C118_survey_beside_station s d0 d : (forall r k, In r (s_runs s) -> run_note r k -> ~ begins (txt "survey.") (lower k)) -> set_station s d0 = Ok d -> read_survey d = read_survey d0.
Proof.
  intros R E. unfold set_station in E. destruct (put_tf (s_tf s) d0) as [d1|x] eqn:T; [|discriminate E]. cbn [bindR] in E. injection E as <-.
  assert (A : forall rs d, (forall r k, In r rs -> run_note r k -> ~ begins (txt "survey.") (lower k)) -> read_survey (fold_left put_run rs d) = read_survey d).
  { induction rs as [|r rs IH]; intros d H; [reflexivity|]. cbn [fold_left]. rewrite IH by (intros r' k I; apply H; right; exact I). unfold put_run.
    assert (B : forall cs d, (forall c fs f v, In (c, fs) cs -> In (f, v) fs -> ~ begins (txt "survey.") (lower (r_id r ++ txt "." ++ c ++ txt "." ++ f))) -> read_survey (fold_left (put_channel (r_id r)) cs d) = read_survey d).
    { induction cs as [|[c fs] cs IHc]; intros d2 H2; [reflexivity|]. cbn [fold_left]. rewrite IHc by (intros c' fs' f v I J; apply (H2 c' fs' f v); [right; exact I|exact J]). unfold put_channel. cbn [fst snd]. apply no_survey_put. intros k v I. apply filter_In in I as [I _]. rewrite <- !app_assoc. apply (H2 c fs k v); [left; reflexivity|exact I]. }
    rewrite B by (intros c fs f v I J; apply (H r); [left; reflexivity|]; right; exists c, fs, f, v; repeat split; assumption). apply no_survey_put. intros k v I. rewrite <- app_assoc. apply (H r); [left; reflexivity|]. left. exists k, v. split; [exact I|reflexivity]. }
  rewrite A by exact R. rewrite no_survey_put by (intros k v _ (b & X); rewrite lower_app in X; discriminate X). clear A R.
  assert (Q : forall l d d', put_parameters l d = Ok d' -> read_survey d' = read_survey d).
  { induction l as [|i l IH]; intros d2 d2' H; cbn [put_parameters] in H; [congruence|]. destruct (split1 "=" i) as [p [v|]]; [|discriminate H]. apply IH in H. rewrite H. apply no_survey_dset. intros (b & X). rewrite lower_app in X. discriminate X. }
  revert d0 d1 T. induction (s_tf s) as [|[k v] fs IH]; intros d0 d1 T; cbn [put_tf] in T; [congruence|]. destruct (null v); [apply IH; exact T|]. destruct (text_eqb k (txt "processing_parameters")).
  - destruct v as [| |l|]; try discriminate T. destruct (put_parameters l d0) as [d2|] eqn:P; [|discriminate T]. cbn [bindR] in T. rewrite (IH _ _ T). apply (Q _ _ _ P).
  - rewrite (IH _ _ T). apply no_survey_dset. intros (b & X). rewrite lower_app in X. discriminate X.
Qed.

(** ** Cases *)
Definition st1 : station := mkSt
  [(txt "coordinate_system", VText (txt "geographic")); (txt "processing_parameters", VList [txt "nfft=4"; txt "kind=a=b"]); (txt "remote_references", VList [txt "mt02"]); (txt "runs_processed", VList [txt "mt01c"]); (txt "software.name", VText (txt "none"))]
  [(txt "submitter.author", VText (txt "me"))] [mkRun (txt "mt01c") [(txt "data_logger.id", VText (txt "7"))] [(txt "ex", [(txt "sample_rate", VNum (txt "8.0")); (txt "dipole_length", VNum (txt "50.0"))])]].
Lemma calm_check k : (negb (existsb (fun w => contains w (lower k)) [txt "provenance"; txt "transfer_function"; txt "processing."; txt "mtft"; txt "emtf"; txt "mtedit"]) &&
  negb (existsb (fun w => prefix_of w (lower k)) [txt "run."; txt "data_logger"; txt "station."]) &&
  negb (existsb (text_eqb (lower k)) [txt "processedby"; txt "processed_by"; txt "runlist"; txt "run_list"; txt "sitename"; txt "signconvention"]))%bool = true -> calm k.
Proof.
  rewrite !andb_true_iff, !negb_true_iff. intros [[A B] C]. split; [|split]; intros w I X.
  - apply (mentions_contains w) in X. assert (E : existsb (fun w => contains w (lower k)) [txt "provenance"; txt "transfer_function"; txt "processing."; txt "mtft"; txt "emtf"; txt "mtedit"] = true) by (apply existsb_exists; exists w; split; assumption). congruence.
  - apply (prefix_of_spec w) in X. assert (E : existsb (fun w => prefix_of w (lower k)) [txt "run."; txt "data_logger"; txt "station."] = true) by (apply existsb_exists; exists w; split; assumption). congruence.
  - assert (E : existsb (text_eqb (lower k)) [txt "processedby"; txt "processed_by"; txt "runlist"; txt "run_list"; txt "sitename"; txt "signconvention"] = true) by (apply existsb_exists; exists w; split; [exact I|apply text_eqb_eq; exact X]). congruence.
Qed.
Lemma small_check k : forallb (fun c => negb (is_upper c)) k = true -> small k.
Proof. intros H c I. rewrite forallb_forall in H. apply negb_true_iff. exact (H c I). Qed.
Example C118_station_hyp : let refuse := fun _ _ _ => None in
  (forall k v, In (k, v) (set_survey [(txt "id", VText (txt "s")); (txt "country", VList [txt "USA"])] []) -> calm k) /\ readable_tf refuse (s_tf st1) /\ readable_provenance refuse (s_provenance st1) /\ (forall v n x, In (txt "processing_parameters", v) (s_tf st1) -> In (as_parameter (n, x)) (match v with VList l => l | _ => [] end) -> ~ In "="%char n -> small n) /\ (forall r k, In r (s_runs st1) -> run_note r k -> calm k /\ ~ begins (txt "survey.") (lower k)).
Proof.
  cbv zeta. split; [|split; [|split; [|split]]].
  - intros k v I. vm_compute in I. destruct I as [E|[E|[]]]; injection E as <- _; apply calm_check; reflexivity.
  - split; [repeat constructor; cbn; intuition discriminate|]. intros k v I _. destruct I as [E|[E|[E|[E|[E|[]]]]]]; injection E as <- <-.
    + do 3 right. split; [|reflexivity]. split; [apply small_check; reflexivity|]. intros w I X. apply mentions_contains in X. destruct I as [<-|[<-|[<-|[<-|[<-|[]]]]]]; discriminate X.
    + left. split; [reflexivity|]. exists [(txt "nfft", txt "4"); (txt "kind", txt "a=b")]. split; [reflexivity|]. split; [repeat constructor; cbn; intuition discriminate|]. intros n x [E|[E|[]]]; injection E as <- <-; (split; [|reflexivity]); (split; [cbn; intuition discriminate|]); (split; [cbn; intuition discriminate|]); intros X; apply mentions_contains in X; discriminate X.
    + right. left. split; [reflexivity|]. eexists. reflexivity.
    + do 2 right. left. reflexivity.
    + do 3 right. split; [|reflexivity]. split; [apply small_check; reflexivity|]. intros w I X. apply mentions_contains in X. destruct I as [<-|[<-|[<-|[<-|[<-|[]]]]]]; discriminate X.
  - split; [repeat constructor; intros []|]. intros k v [E|[]] _. injection E as <- <-. split; [apply small_check; reflexivity|reflexivity].
  - intros v n x I J NE. assert (V : v = VList [txt "nfft=4"; txt "kind=a=b"]) by (destruct I as [E|[E|[E|[E|[E|[]]]]]]; try discriminate E; injection E as <-; reflexivity). subst v. cbn in J. unfold as_parameter in J. cbn [fst snd] in J. assert (S1 : split1 "=" (n ++ "="%char :: x) = (n, Some x)) by (apply split1_app; exact NE).
    destruct J as [J|[J|[]]]; change (n ++ txt "=" ++ x) with (n ++ "="%char :: x) in J; rewrite <- J in S1; injection S1 as <- <-; apply small_check; reflexivity.
  - intros r k [<-|[]] [(f & v & I & ->)|(c & fs & f & v & I & J & ->)]; cbn in I.
    + destruct I as [E|[]]. injection E as <- <-. split; [apply calm_check; reflexivity|]. intros (b & X). discriminate X.
    + destruct I as [E|[]]. injection E as <- <-. cbn in J. destruct J as [E|[E|[]]]; injection E as <- <-; (split; [apply calm_check; reflexivity|]); intros (b & X); discriminate X.
Qed.
Example C118_station_case : exists d g, set_station st1 (set_survey [(txt "id", VText (txt "s"))] []) = Ok d /\ read_station (fun _ _ _ => None) (txt "MT01") (VText (txt "2020-01-01")) d = Ok g /\
  g_params g = [txt "nfft=4"; txt "kind=a=b"] /\ g_refs g = [txt "mt02"] /\ g_runs g = [txt "MT01a"] /\ read_survey d = Ok [(txt "id", VText (txt "s"))].
Proof. eexists. eexists. split; [vm_compute; reflexivity|]. repeat split; vm_compute; reflexivity. Qed.
Example C118_survey_hyp : let fs := [(txt "id", VText (txt "s")); (txt "northwest_corner.latitude", VNum (txt "1.0")); (txt "summary", VText (txt "long")); (txt "name", VNone)] in
  NoDup (map fst fs) /\ (forall k v, In (k, v) fs -> survey_field k) /\ read_survey (set_survey fs []) = Ok [(txt "summary", VText (txt "long")); (txt "id", VText (txt "s"))].
Proof.
  cbv zeta. split; [repeat constructor; cbn; intuition discriminate|]. split; [|vm_compute; reflexivity]. intros k v I. cbn in I. destruct I as [E|[E|[E|[E|[]]]]]; injection E as <- <-; (split; [apply small_check; reflexivity|]); intros X; apply mentions_contains in X; discriminate X.
Qed.
Example C118_run_provenance_hyp : let refuse := fun p k (_ : value) => match p with OfStation => if prefix_of (txt "provenance.") k then None else Some AttributeError | _ => None end in
  refuse OfStation (lower (txt "mt01a" ++ txt "." ++ txt "provenance.comments")) (VText (txt "x")) <> None /\ mentions (txt "provenance") (lower (txt "provenance.comments")) /\ given (VText (txt "x")).
Proof. split; [discriminate|]. split; [exists [], (txt ".comments"); reflexivity|reflexivity]. Qed.
Example C118_program_hyp : calm (txt "x." ++ txt "data_logger.id").
Proof. apply calm_check. reflexivity. Qed.
Example C118_name_hyp : parameter_name (txt "Nfft") /\ given (VText (txt "4")) /\ ~ given (VText (txt "None")).
Proof. split; [|split; [reflexivity|discriminate]]. split; [cbn; intuition discriminate|]. split; [cbn; intuition discriminate|]. intros X. apply mentions_contains in X. discriminate X. Qed.

Print Assumptions C118_station.
Print Assumptions C118_survey.
