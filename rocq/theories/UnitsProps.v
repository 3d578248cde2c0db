(** C14 Unit validation is idempotent; C65 compound units are validated part by part. *)
From Verif Require Import PyBase PyFacts PyText TextFacts ValidatorsProofs UnitsModel UnitsSpec UnitsProofs.

(** Membership in the table by computation. *)
Lemma in_units n s :
  existsb (fun r => text_eqb (u_name r) n && text_eqb (u_symbol r) s) all_units = true -> In (mkUnit n s) all_units.
Proof.
  rewrite existsb_exists. intros ([n' s'] & H & E). apply andb_true_iff in E. destruct E as [E1 E2].
  apply text_eqb_eq in E1, E2. cbn [u_name u_symbol] in *. now subst.
Qed.

(** C14.  An accepted value is accepted again unchanged exactly when it is the unit "digital counts" or
    does not mention it.  [allow_none] true is the channel behaviour, false the filter behaviour. *)
Theorem C14_idempotent_partial : forall allow_none u n,
  validate_unit allow_none u = Ok n ->
  (validate_unit allow_none n = Ok n <->
   n = txt "digital counts" \/ contains (txt "digital counts") n = false).
Proof. exact idempotent_iff. Qed.

Example C14_idempotent_hyp :
  validate_unit false (txt "[mV]/[km nT]") = Ok (txt "milliVolt per kilometer nanoTesla") /\
  validate_unit false (txt "milliVolt per kilometer nanoTesla") = Ok (txt "milliVolt per kilometer nanoTesla").
Proof. vm_compute. split; reflexivity. Qed.

(** The unrestricted claim fails. *)
Theorem C14_idempotent_refuted :
  (exists u n, validate_unit true u = Ok n /\ validate_unit true n <> Ok n) /\
  (exists u n e, validate_unit false u = Ok n /\ validate_unit false n = Err e).
Proof.
  split.
  - exists (txt "counts/second"), (txt "digital counts per second"). vm_compute. split; [reflexivity|discriminate].
  - exists (txt "counts/second"), (txt "digital counts per second"), KeyError. vm_compute. split; reflexivity.
Qed.

Theorem C14_channel_idempotent_partial : forall u n,
  validate_channel_unit u = Ok n ->
  n = txt "digital counts" \/ contains (txt "digital counts") n = false ->
  validate_channel_unit n = Ok n.
Proof.
  intros u n H C. unfold validate_channel_unit in H.
  destruct (text_eqb u []) eqn:E; [apply Ok_inj in H; subst; reflexivity|].
  destruct (validate_unit true u) as [m|e] eqn:V; [|destruct e; discriminate].
  apply Ok_inj in H. subst m. pose proof (proj2 (idempotent_iff true u n V) C) as I.
  unfold validate_channel_unit. destruct (text_eqb n []) eqn:En.
  - apply text_eqb_eq in En. now subst.
  - now rewrite I.
Qed.

Example C14_channel_idempotent_hyp :
  validate_channel_unit (txt "kV/furlong") = Ok (txt "kiloVolt per unknown") /\ validate_channel_unit [] = Ok [] /\
  contains (txt "digital counts") (txt "kiloVolt per unknown") = false.
Proof. vm_compute. repeat split. Qed.

(** Nothing but the documented exceptions can be raised; the parser always ends. *)
Theorem C14_errors : forall allow_none u e,
  validate_unit allow_none u = Err e -> e = ValueError \/ (allow_none = false /\ e = KeyError).
Proof. exact validate_errors. Qed.

Example C14_errors_hyp : validate_unit true (txt "[]") = Err ValueError /\ validate_unit false (txt "furlong") = Err KeyError.
Proof. vm_compute. split; reflexivity. Qed.

(** C65.  A compound is validated word by word: the result is the canonical spelling of the validated
    words.  Missing from the full claim: extra blanks before a slash or [per], and the word "counts"
    written in another case; see the refutations. *)
Theorem C65_compound_partial : forall allow_none w n l ns,
  is_word w = true -> validate_unit allow_none w = Ok n -> (lower w = txt "counts" -> w = txt "counts") ->
  Forall2 (fun e m => tight_spelling (fst (fst e)) (snd (fst e)) /\ is_word (snd e) = true /\
                      validate_unit allow_none (snd e) = Ok m /\
                      (lower (snd e) = txt "counts" -> snd e = txt "counts")) l ns ->
  ~ In (lower (write_expr w l)) [txt "digital counts"; txt "digital count"] ->
  validate_unit allow_none (write_expr w l) = Ok (spell_expr n (combine (map (fun e => fst (fst e)) l) ns)).
Proof.
  intros a w n l ns Hw Vw Cw F NS.
  assert (L : forall x m, is_word x = true -> validate_unit a x = Ok m -> (lower x = txt "counts" -> x = txt "counts") ->
              exists r, get_unit_from_df a x = Ok r /\ u_name r = m).
  { intros x m Hx Vx Cx. destruct (text_dec (lower x) (txt "counts")) as [E|NE].
    - apply Cx in E. subst x. destruct (lookup_counts a) as (r & E & Er). exists r. split; [assumption|].
      rewrite Er. assert (validate_unit a (txt "counts") = Ok dc) by (destruct a; vm_compute; reflexivity).
      congruence.
    - assert (Sx : special (x ++ write_rest []) = false).
      { simpl write_rest. rewrite app_nil_r. destruct (special x) eqn:E; [|reflexivity]. apply special_inv in E.
        destruct (word_facts x Hx) as (_ & _ & _ & Sp & _). apply lower_no_blank in Sp.
        exfalso. destruct E as [E|[E|E]]; [|congruence|]; rewrite E in Sp; apply Sp; simpl; auto 20. }
      pose proof (validate_write a x [] Hx at_nil Sx) as V. simpl write_rest in V. rewrite app_nil_r, Vx in V.
      destruct (get_unit_from_df a x) as [r|]; [|discriminate]. exists r. split; [reflexivity|].
      cbn [bindR erase map lookup_rest] in V. apply Ok_inj in V. rewrite V. unfold spell_expr. simpl. now rewrite app_nil_r. }
  destruct (list_eq_dec text_dec (map snd l) []) as [El|El].
  - destruct l as [|e l]; [|discriminate]. inversion F; subst. unfold write_expr, spell_expr. simpl.
    now rewrite !app_nil_r.
  - assert (T : all_tight l).
    { clear -F. induction F as [|[[j s] x] m l ms (A & B & _) F IH]; constructor; auto. }
    assert (Sx : special (w ++ write_rest l) = false).
    { destruct (special (w ++ write_rest l)) eqn:E; [|reflexivity]. apply special_inv in E. exfalso.
      destruct E as [E|[E|E]].
      - apply NS. left. symmetry. exact E.
      - destruct l as [|[[j s] x] l]; [now apply El|]. inversion T; subst.
        assert (In "/"%char (lower (w ++ write_rest ((j, s, x) :: l))) \/ In " "%char (lower (w ++ write_rest ((j, s, x) :: l)))) as X.
        { rewrite lower_app. simpl write_rest. rewrite lower_app, !in_app_iff.
          match goal with X : tight_spelling _ _ |- _ => inversion X; subst end.
          - left. right. left. rewrite lower_app. now left.
          - right. right. left. now left.
          - right. right. left. now left. }
        rewrite E in X. simpl in X. intuition discriminate.
      - apply NS. right. left. symmetry. exact E. }
    unfold write_expr. rewrite validate_write by assumption.
    destruct (L w n Hw Vw Cw) as (r & -> & Er). cbn [bindR]. rewrite Er.
    assert (R : lookup_rest a (erase l) = Ok (combine (map (fun e => fst (fst e)) l) ns)).
    { clear -F L. induction F as [|[[j s] x] m l ms (A & B & C & D) F IH]; [reflexivity|].
      cbn [erase map fst snd lookup_rest combine] in *. destruct (L x m B C D) as (r & -> & Er). cbn [bindR].
      fold (erase l). rewrite Er. now rewrite IH. }
    rewrite R. reflexivity.
Qed.

Example C65_compound_hyp :
  let l := [(Quotient, txt "/  ", txt "km"); (Product, txt "  ", txt "nT")] in
  Forall2 (fun e m => tight_spelling (fst (fst e)) (snd (fst e)) /\ is_word (snd e) = true /\
                      validate_unit false (snd e) = Ok m /\
                      (lower (snd e) = txt "counts" -> snd e = txt "counts")) l [txt "kilometer"; txt "nanoTesla"] /\
  write_expr (txt "mV") l = txt "mV/  km  nT".
Proof.
  split; [|reflexivity]. repeat constructor; try (vm_compute; reflexivity); try (vm_compute; discriminate).
  - apply (ts_slash 2).
  - apply (ts_blank 1).
Qed.

(** Blanks before the slash turn the quotient into a product. *)
Theorem C65_compound_refuted :
  exists w s x n m, is_word w = true /\ is_word x = true /\ spelling Quotient s /\
    validate_unit false w = Ok n /\ validate_unit false x = Ok m /\
    validate_unit false (write_expr w [(Quotient, s, x)]) = Ok (spell_expr n [(Product, m)]).
Proof.
  exists (txt "V"), (txt " / "), (txt "m"), (txt "Volt"), (txt "meter").
  repeat split; try (vm_compute; reflexivity). apply (sp_slash 1 1).
Qed.

(** "COUNTS" alone is digital counts, but inside a compound it is unknown. *)
Theorem C65_counts_case_refuted :
  validate_unit true (txt "COUNTS") = Ok (txt "digital counts") /\
  validate_unit true (txt "COUNTS/s") = Ok (txt "unknown per second").
Proof. vm_compute. split; reflexivity. Qed.

(** Every unit's name in any case, and every unit's symbol except C, names that unit. *)
Theorem C65_name_any_case : forall allow_none r u,
  In r all_units -> lower u = lower (u_name r) -> validate_unit allow_none u = Ok (u_name r).
Proof.
  intros a r u Hr E.
  destruct (text_dec (u_name r) dc) as [D|D].
  - unfold validate_unit, get_unit_object. rewrite E, D.
    replace (existsb (text_eqb (lower dc)) [txt "digital counts"; txt "counts"; txt "digital count"]) with true
      by reflexivity.
    destruct a; vm_compute; reflexivity.
  - assert (K : known (u_name r)) by (exists r; auto).
    assert (Hw : is_word u = true).
    { pose proof (known_word _ K D) as W.
      assert (W2 : is_word (lower (u_name r)) = true).
      { assert (F : forallb (fun r => text_eqb (u_name r) dc || is_word (lower (u_name r))) all_units = true)
          by (vm_compute; reflexivity).
        rewrite forallb_forall in F. specialize (F r Hr). apply orb_true_iff in F.
        destruct F as [F|F]; [apply text_eqb_eq in F; congruence|assumption]. }
      rewrite <- E in W2. clear -W2. unfold is_word in *. rewrite !andb_true_iff in *. destruct W2 as [[A B] C].
      repeat split.
      - destruct u; [discriminate|reflexivity].
      - rewrite forallb_forall in *. intros c Hc. specialize (B (to_lower c) (in_map to_lower _ _ Hc)).
        assert (G : implb (word_char (to_lower c)) (word_char c) = true).
        { clear. revert c. apply ascii_forall. vm_compute. reflexivity. }
        rewrite B in G. exact G.
      - rewrite negb_true_iff in *. destruct (text_eqb u (txt "per")) eqn:X; [|reflexivity].
        apply text_eqb_eq in X. subst. discriminate. }
    assert (S : special (u ++ write_rest []) = false).
    { simpl write_rest. rewrite app_nil_r. unfold special. rewrite E.
      pose proof (special_spell (u_name r) [] K D) as X. unfold spell_expr, special in X. simpl spell_rest in X.
      now rewrite app_nil_r in X. }
    pose proof (validate_write a u [] Hw at_nil S) as V. simpl write_rest in V. rewrite app_nil_r in V. rewrite V.
    pose proof (lookup_name a r u Hr E) as exact_row.
    destruct exact_row as (r1 & -> & Er1). cbn [bindR erase map lookup_rest]. rewrite Er1. unfold spell_expr. simpl. now rewrite app_nil_r.
Qed.

Example C65_name_any_case_hyp :
  In (mkUnit (txt "milliVolt") (txt "mV")) all_units /\ lower (txt "MILLIvolt") = lower (txt "milliVolt").
Proof. split; [|reflexivity]. apply in_units. vm_compute. reflexivity. Qed.

Theorem C65_symbol : forall allow_none r,
  In r all_units -> r <> mkUnit (txt "Coulomb") (txt "C") -> validate_unit allow_none (u_symbol r) = Ok (u_name r).
Proof.
  intros a r Hr NC.
  destruct (text_dec (u_symbol r) (txt "C")) as [C|C].
  { assert (N : u_name r = txt "celsius").
    { assert (T : forallb (fun r => negb (text_eqb (u_symbol r) (txt "C")) || text_eqb (u_name r) (txt "celsius") ||
                                    text_eqb (u_name r) (txt "Coulomb")) all_units = true) by (vm_compute; reflexivity).
      rewrite forallb_forall in T. specialize (T r Hr). rewrite C, text_eqb_refl, !orb_true_iff in T.
      destruct T as [[T|T]|T]; [discriminate|now apply text_eqb_eq in T|].
      apply text_eqb_eq in T. exfalso. apply NC. destruct r as [n s]. cbn [u_name u_symbol] in *. now subst. }
    rewrite C, N. destruct a; vm_compute; reflexivity. }
  destruct (lookup_symbol a r Hr C) as (r' & Lk & Er).
  assert (T : forallb (fun r => special (u_symbol r) && text_eqb (u_symbol r) (txt "counts") && text_eqb (u_name r) dc ||
                (is_word (u_symbol r) && negb (special (u_symbol r)))) all_units = true) by (vm_compute; reflexivity).
  rewrite forallb_forall in T. specialize (T r Hr). rewrite orb_true_iff, !andb_true_iff, negb_true_iff in T.
  destruct T as [[[_ T] N]|[W S]].
  - apply text_eqb_eq in T, N. rewrite T, N. destruct a; vm_compute; reflexivity.
  - assert (S' : special (u_symbol r ++ write_rest []) = false) by (simpl write_rest; now rewrite app_nil_r).
    pose proof (validate_write a (u_symbol r) [] W at_nil S') as V. simpl write_rest in V. rewrite app_nil_r in V.
    rewrite V, Lk. cbn [bindR erase map lookup_rest]. rewrite Er. unfold spell_expr. simpl. now rewrite app_nil_r.
Qed.

Example C65_symbol_hyp : validate_unit false (txt "mV") = Ok (txt "milliVolt") /\ validate_unit false (txt "MV") = Ok (txt "megaVolt").
Proof. vm_compute. split; reflexivity. Qed.

Theorem C65_symbol_refuted : validate_unit false (txt "C") = Ok (txt "celsius") /\ In (mkUnit (txt "Coulomb") (txt "C")) all_units.
Proof. split; [vm_compute; reflexivity|]. apply in_units. vm_compute. reflexivity. Qed.

Print Assumptions C14_idempotent_partial.
Print Assumptions C65_compound_partial.
Print Assumptions C65_name_any_case.
