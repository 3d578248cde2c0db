From Verif Require Import PyBase PyFacts PyText TextFacts PyJson PyJsonFacts PyFloat XmlModel XmlProofs ExpxModel ExpdModel ExpdSpec JsonModel ExpjModel ExpjSpec.
From Coq Require Import Lia.
Local Open Scope list_scope.

Lemma float_not_word s : float_text s -> text_eqb s (txt "true") = false /\ text_eqb s (txt "false") = false /\ json_of_num s = JFloat s.
Proof.
  intros F. assert (A : text_eqb s (txt "true") = false /\ text_eqb s (txt "false") = false).
  { split; (destruct (text_eqb s _) eqn:E; [|reflexivity]); apply text_eqb_eq in E; subst s; exfalso; destruct F as [F|[F _]]; [|discriminate F| |discriminate F]; cbn [In] in F; repeat (destruct F as [F|F]; [discriminate F|]); exact F. }
  destruct A as [A B]. split; [exact A|]. split; [exact B|]. unfold json_of_num. rewrite A, B. destruct F as [F|[F _]]; [|rewrite F; reflexivity].
  cbn [In] in F. repeat (destruct F as [<-|F]; [reflexivity|]). destruct F.
Qed.
Lemma int_not_word z : json_of_num (show_int z) = JInt z.
Proof.
  unfold json_of_num. pose proof (int_number_chars z) as N.
  assert (A : forall w, forallb number_char w = false -> text_eqb (show_int z) w = false) by (intros w W; destruct (text_eqb (show_int z) w) eqn:E; [apply text_eqb_eq in E; rewrite E in N; congruence|reflexivity]).
  rewrite (A (txt "true") eq_refl), (A (txt "false") eq_refl), read_number_int. reflexivity.
Qed.
Lemma value_back v : value v -> of_json (json_of v) = v /\ good (json_of v).
Proof.
  induction v as [|s|s|l IH|d IH] using xval_induct; intros V; inversion V as [|?|? N|? F|? ND F]; subst; clear V.
  - split; [reflexivity|exact I].
  - split; [reflexivity|exact I].
  - cbn [json_of]. destruct N as [-> | [-> | [(z & ->) | N]]].
    + split; [reflexivity|exact I].
    + split; [reflexivity|exact I].
    + rewrite int_not_word. split; [reflexivity|exact I].
    + destruct (float_not_word s N) as (_ & _ & ->). split; [reflexivity|exact N].
  - cbn [json_of of_json]. rewrite map_map. rewrite Forall_forall in IH, F. split.
    + f_equal. rewrite <- (map_id l) at 2. apply map_ext_in. intros x X. apply (IH x X (F x X)).
    + apply good_arr. apply Forall_forall. intros j J. apply in_map_iff in J as (x & <- & X). apply (IH x X (F x X)).
  - cbn [json_of of_json]. rewrite map_map. rewrite Forall_forall in IH, F.
    assert (H : forall kv, In kv d -> of_json (json_of (snd kv)) = snd kv /\ good (json_of (snd kv))) by (intros kv X; apply IH; [apply in_map; exact X|apply F; exact X]). split.
    + f_equal. rewrite <- (map_id d) at 2. apply map_ext_in. intros [k x] X. cbn [fst snd]. destruct (H _ X) as [E _]. cbn [snd] in E. rewrite E. reflexivity.
    + apply good_obj. rewrite map_map. cbn [fst]. split; [exact ND|]. apply Forall_forall. intros kv J. apply in_map_iff in J as (x & <- & X). apply (H x X).
Qed.

Lemma plain_dset k v d : plain d -> ~ In k (map fst d) -> value v -> value (XDict (dset text_dec k v d)).
Proof.
  intros P N V. inversion P as [| | | |? ND F]; subst. rewrite (dset_notin text_dec) by exact N. constructor.
  - rewrite map_app. cbn [map fst]. apply NoDup_snoc; assumption.
  - apply Forall_app. split; [exact F|]. constructor; [exact V|constructor].
Qed.
Lemma value_list {A : Type} (f : A -> xval) (P : A -> Prop) l : (forall x, P x -> value (f x)) -> Forall P l -> value (XList (map f l)).
Proof. intros H F. constructor. rewrite Forall_map. eapply Forall_impl; [|exact F]. exact H. Qed.
Lemma Forall_both {A : Type} (P Q : A -> Prop) l : Forall P l -> Forall Q l -> Forall (fun x => P x /\ Q x) l.
Proof. intros F G. rewrite Forall_forall in *. auto. Qed.
Lemma value_run r : run_ok r /\ plain_run r -> value (run_dict r).
Proof. intros [[_ N] [P C]]. apply plain_dset; [exact P|exact N|]. eapply value_list; [|exact C]. intros c H. exact H. Qed.
Lemma value_station s : station_ok s /\ plain_station s -> value (station_dict s).
Proof. intros [[F N] [P C]]. apply plain_dset; [exact P|exact N|]. eapply value_list; [|exact (Forall_both _ _ _ F C)]. exact value_run. Qed.
Lemma dset_plain k v d : plain d -> ~ In k (map fst d) -> value v -> plain (dset text_dec k v d).
Proof. exact (plain_dset k v d). Qed.
Lemma value_survey v : survey_ok v /\ plain_survey v -> value (survey_dict v).
Proof.
  intros [(_ & S & NS & NF) (P & F & C)]. apply plain_dset.
  - apply dset_plain; [exact P|exact NS|]. eapply value_list; [|exact (Forall_both _ _ _ S C)]. exact value_station.
  - rewrite (dset_notin text_dec) by exact NS. rewrite map_app, in_app_iff. intros [H|[H|[]]]; [exact (NF H)|discriminate H].
  - eapply value_list; [|exact F]. intros f H. exact H.
Qed.
Lemma value_experiment vs : Forall survey_ok vs -> Forall plain_survey vs -> value (to_dict vs).
Proof.
  intros O P. assert (L : value (XList (map survey_dict vs))) by (eapply value_list; [|exact (Forall_both _ _ _ O P)]; exact value_survey).
  unfold to_dict. constructor; [repeat constructor; intros []|]. constructor; [|constructor]. cbn [snd]. constructor; [repeat constructor; intros []|]. constructor; [exact L|constructor].
Qed.
Lemma load_written vs indent : forallb ws indent = true -> Forall survey_ok vs -> Forall plain_survey vs -> load (dumps true indent (json_of (to_dict vs))) = from_dict (to_dict vs).
Proof. intros W O P. destruct (value_back _ (value_experiment vs O P)) as [B G]. unfold load. rewrite (loads_dumps true indent _ W G). cbn [bindR]. rewrite B. reflexivity. Qed.
