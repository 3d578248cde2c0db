(** Lemmas for C96. *)
From Coq Require Import QArith Qabs Reals Qreals Lra.
From Verif Require Import PyBase PyText TextFacts PyNum PyFloat Cplx TfModel TfSpec TfProofs TfEffects TfZmmModel TfZmmSpec.
From Verif Require ZmmModel ZmmSpec ZheadModel ZheadSpec ZheadFile ZheadProps ZrotModel ZrotSpec ZrotProps TfEmtfModel.
Local Open Scope nat_scope.

Definition cc (c : chan) : comp :=
  match c with Ex => ZheadModel.Ex | Ey => ZheadModel.Ey | Hx => ZheadModel.Hx | Hy => ZheadModel.Hy | Hz => ZheadModel.Hz end.
Lemma name_cc ns c : name_of ns (cc c) = name ns c.
Proof. destruct c; reflexivity. Qed.
Lemma names_cc ns l : map (name_of ns) (map cc l) = map (name ns) l.
Proof. rewrite map_map. apply map_ext. intros c. apply name_cc. Qed.
Lemma nth_cc l i : nth i (map cc l) ZheadModel.Ex = cc (nth i l Ex).
Proof. exact (map_nth cc l Ex i). Qed.
Lemma cc_onto c : exists c', c = cc c'.
Proof. destruct c; [exists Ex|exists Ey|exists Hx|exists Hy|exists Hz]; reflexivity. Qed.

Section Written.
Variable spr : cpair -> cpair -> cpair.
Notation cells := (TfEmtfModel.cells spr).
Notation tf := (tf cells).

(** ** The channels *)
Definition dict (ht hi : bool) : list (comp * Z) := match number_dict ht hi with Some d => d | None => [] end.
Fixpoint look (x : text) (run : list (text * (Q * Q))) : option (Q * Q) :=
  match run with [] => None | (y, a) :: r => if text_dec x y then Some a else look x r end.
Lemma look_In x run a : look x run = Some a -> In (x, a) run.
Proof. induction run as [|[y b] r IH]; cbn; [discriminate|]. destruct (text_dec x y) as [->|N]; [intros [= ->]; left; reflexivity|intros H; right; apply IH, H]. Qed.
Lemma In_look x run : In x (map fst run) -> exists a, look x run = Some a.
Proof. induction run as [|[y b] r IH]; cbn; [intros []|]. intros H; destruct (text_dec x y) as [E|N]; [eexists; reflexivity|]. destruct H as [E|H]; [symmetry in E; contradiction|apply IH, H]. Qed.
Lemma name_eqb ns a b : (forall c c', name ns c = name ns c' -> c = c') -> text_eqb (name ns a) (name ns b) = if chan_dec a b then true else false.
Proof. intros I. rewrite text_eqb_dec. destruct (text_dec _ _) as [E|N], (chan_dec a b) as [E'|N']; try reflexivity; [apply I in E; contradiction|subst; contradiction]. Qed.
Definition key (c : chan) : text := match c with Ex => txt "ex" | Ey => txt "ey" | Hx => txt "hx" | Hy => txt "hy" | Hz => txt "hz" end.
Lemma get_name ns c : (forall c c', name ns c = name ns c' -> c = c') -> dict_get (map (fun kv => (snd kv, fst kv)) (name_items ns)) (name ns c) = Some (key c).
Proof.
  intros I. change (map (fun kv => (snd kv, fst kv)) (name_items ns)) with [(name ns Hx, key Hx); (name ns Hy, key Hy); (name ns Hz, key Hz); (name ns Ex, key Ex); (name ns Ey, key Ey)].
  cbn [dict_get]. rewrite !(name_eqb ns _ _ I). destruct c; reflexivity.
Qed.
Lemma comp_key c : ZheadModel.comp_of (key c) = Some (cc c).
Proof. destruct c; reflexivity. Qed.
Lemma comp_eqb_cc a b : ZheadModel.comp_eqb (cc a) (cc b) = if chan_dec a b then true else false.
Proof. destruct a, b; reflexivity. Qed.

Definition seen (ns : names) (d : list (comp * Z)) (run : list (text * (Q * Q))) (f : comp -> option (ZheadModel.zchannel Q)) (c : chan) :=
  match (if contains (txt "rr") (name ns c) then None else look (name ns c) run), number_in d (cc c) with
  | Some (a, b), Some n => Some (ZheadModel.mkChannel (Some n) a b)
  | _, _ => f (cc c)
  end.
Lemma run_ok ns d : (forall c c', name ns c = name ns c' -> c = c') -> forall run f,
  NoDup (map fst run) -> (forall x, In x (map fst run) -> contains (txt "rr") x = true \/ exists c, x = name ns c) ->
  exists g, run_channels (map (fun kv => (snd kv, fst kv)) (name_items ns)) (Some d) run f = Ok g /\ forall c, g (cc c) = seen ns d run f c.
Proof.
  intros I. induction run as [|[x [a b]] r IH]; intros f ND HX.
  - exists f. split; [reflexivity|]. intros c. unfold seen. cbn [look]. destruct (contains _ _), (number_in d (cc c)); reflexivity.
  - cbn [map fst] in ND. inversion ND as [|? ? NI ND']; subst. assert (HX' : forall x, In x (map fst r) -> contains (txt "rr") x = true \/ exists c, x = name ns c) by (intros y Hy; apply HX; right; exact Hy).
    cbn [run_channels]. destruct (contains (txt "rr") x) eqn:RR.
    + destruct (IH f ND' HX') as (g & E & G). exists g. split; [exact E|]. intros c. rewrite G. unfold seen. cbn [look]. destruct (text_dec (name ns c) x) as [E'|N]; [|reflexivity]. rewrite E', RR. reflexivity.
    + destruct (HX x (or_introl eq_refl)) as [H|(c0 & E0)]; [congruence|]. subst x. rewrite (get_name ns c0 I), (comp_key c0).
      destruct (number_in d (cc c0)) as [n|] eqn:NB.
      * destruct (IH (fun c' => if ZheadModel.comp_eqb c' (cc c0) then Some (ZheadModel.mkChannel (Some n) a b) else f c') ND' HX') as (g & E & G). exists g. split; [exact E|].
        intros c. rewrite G. unfold seen. cbn [look]. rewrite comp_eqb_cc. destruct (chan_dec c c0) as [->|N].
        -- rewrite RR. destruct (text_dec (name ns c0) (name ns c0)) as [_|N]; [|contradiction]. rewrite NB. destruct (look (name ns c0) r) as [y|] eqn:L; [|reflexivity]. apply look_In in L. destruct NI. apply in_map_iff. exists (name ns c0, y). split; [reflexivity|exact L].
        -- destruct (text_dec (name ns c) (name ns c0)) as [E'|_]; [apply I in E'; contradiction|reflexivity].
      * destruct (IH f ND' HX') as (g & E & G). exists g. split; [exact E|]. intros c. rewrite G. unfold seen. cbn [look]. destruct (text_dec (name ns c) (name ns c0)) as [E'|N].
        -- apply I in E'. subst c0. rewrite NB. destruct (contains _ _); [reflexivity|]. destruct (look _ r) as [[? ?]|]; reflexivity.
        -- reflexivity.
Qed.

(** The channels of the object, with the azimuths given. *)
Definition channels_are (ht hi : bool) (f : comp -> option (ZheadModel.zchannel Q)) (az tilt : chan -> Q) : Prop :=
  forall c, f (cc c) = option_map (fun n => ZheadModel.mkChannel (Some n) (az c) (tilt c)) (number_in (dict ht hi) (cc c)).
Definition needed (ht hi : bool) : list chan := inputs ++ outputs ht hi.
Lemma dict_needed ht hi c n : (ht || hi)%bool = true -> number_in (dict ht hi) (cc c) = Some n -> In c (needed ht hi).
Proof. destruct ht, hi; cbn; try discriminate; intros _; destruct c; cbn; try discriminate; intros _; auto 10. Qed.

Lemma inverse_same (t : tf) : t_names cells (fst (inverse_names cells t)) = t_names cells t /\ t_data cells (fst (inverse_names cells t)) = t_data cells t.
Proof. unfold inverse_names. destruct (t_inverse cells t); split; reflexivity. Qed.
Lemma has_both_ok t ht hi : consistent cells t -> has_both spr t ht hi -> has_tipper cells t = Ok ht /\ has_impedance cells t = Ok hi.
Proof.
  intros C [H1 H2]. destruct (has_spec cells ATip t C) as (a & Ea & Ha). destruct (has_spec cells AImp t C) as (b & Eb & Hb). cbn in Ea, Eb. rewrite Ea, Eb.
  split; f_equal; [destruct a, ht|destruct b, hi]; try reflexivity; exfalso; intuition congruence.
Qed.
Lemma same_has (t t' : tf) : t_names cells t' = t_names cells t -> t_data cells t' = t_data cells t -> has_tipper cells t' = has_tipper cells t /\ has_impedance cells t' = has_impedance cells t.
Proof. intros E1 E2. unfold has_tipper, has_impedance. rewrite E1, E2. split; reflexivity. Qed.

Lemma to_zmm_ok t run ht hi : consistent cells t -> has_both spr t ht hi -> (ht || hi)%bool = true -> names_known spr t ->
  run = [] \/ described (t_names cells t) run (needed ht hi) ->
  exists f az tilt, to_zmm spr run t = Ok (mkObject spr (t_names cells t) (Some (Z.of_nat (2 + length (outputs ht hi)))) (Z.of_nat (length (periods cells t))) f (t_data cells t)) /\
    channels_are ht hi f az tilt /\ (run = [] -> forall c, az c = 0%Q) /\ (run <> [] -> forall c, In c (needed ht hi) -> In (name (t_names cells t) c, (az c, tilt c)) run).
Proof.
  intros C B O K R. destruct (has_both_ok t ht hi C B) as [E1 E2]. destruct (inverse_same t) as [N1 N2]. unfold names_known in K. unfold to_zmm. destruct (inverse_names cells t) as [t' inv] eqn:EI. cbn [fst snd] in *. subst inv.
  destruct (same_has t t' N1 N2) as [S1 S2]. rewrite S1, S2, E1, E2, N1, N2. cbn [bindR].
  assert (D : number_dict ht hi = Some (dict ht hi)) by (destruct ht, hi; try discriminate O; reflexivity).
  assert (LD : length (dict ht hi) = 2 + length (outputs ht hi)) by (destruct ht, hi; try discriminate O; reflexivity).
  rewrite D. cbn [option_map]. rewrite LD. unfold periods.
  destruct R as [->|(ND & HX & HN)].
  - exists (bare_channels (dict ht hi)), (fun _ => 0%Q), (fun _ => 0%Q). split; [reflexivity|]. split; [|split; [reflexivity|intros H; contradiction]].
    intros c. unfold bare_channels. destruct (number_in _ _); reflexivity.
  - destruct (run_ok (t_names cells t) (dict ht hi) (proj1 C) run (fun _ => None) ND HX) as (g & EG & G).
    assert (RN : run <> []). { destruct run; [|discriminate]. destruct (HN Hx ltac:(left; reflexivity)) as [[] _]. }
    exists g, (fun c => match look (name (t_names cells t) c) run with Some (a, _) => a | None => 0%Q end), (fun c => match look (name (t_names cells t) c) run with Some (_, b) => b | None => 0%Q end).
    split; [|split; [|split]].
    + destruct run; [contradiction|]. rewrite EG. reflexivity.
    + intros c. rewrite G. unfold seen. destruct (number_in (dict ht hi) (cc c)) as [n|] eqn:NB.
      * destruct (HN c (dict_needed ht hi c n O NB)) as [HI RR]. rewrite RR. destruct (In_look _ _ HI) as ([a b] & ->). reflexivity.
      * destruct (if contains _ _ then _ else _) as [[? ?]|]; reflexivity.
    + intros E; contradiction.
    + intros _ c Hc. destruct (HN c Hc) as [HI RR]. destruct (In_look _ _ HI) as ([a b] & L). rewrite L. apply look_In, L.
Qed.

Lemma recorded_ok {A} ht hi (f : comp -> option (ZheadModel.zchannel A)) : (ht || hi)%bool = true -> (forall c, ZheadSpec.number_of f c = number_in (dict ht hi) c) ->
  ZheadModel.input_channels f = map cc inputs /\ ZheadModel.output_channels f = map cc (outputs ht hi).
Proof.
  intros O H. unfold ZheadModel.input_channels, ZheadModel.output_channels, ZheadModel.channels_recorded.
  assert (X : fold_left (fun d c => match f c with Some ch => match ZheadModel.zn_number ch with Some n => ZheadModel.put_index (n - 1) c d | None => d end | None => d end) ZheadModel.comps [] =
              fold_left (fun d c => match number_in (dict ht hi) c with Some n => ZheadModel.put_index (n - 1) c d | None => d end) ZheadModel.comps []).
  { assert (Y : forall l d0, fold_left (fun d c => match f c with Some ch => match ZheadModel.zn_number ch with Some n => ZheadModel.put_index (n - 1) c d | None => d end | None => d end) l d0 =
              fold_left (fun d c => match number_in (dict ht hi) c with Some n => ZheadModel.put_index (n - 1) c d | None => d end) l d0).
    { induction l as [|c l IH]; intros d0; [reflexivity|]. cbn [fold_left]. rewrite <- (H c). unfold ZheadSpec.number_of. destruct (f c) as [x|]; [|apply IH]. destruct (ZheadModel.zn_number x); apply IH. }
    apply Y. }
  rewrite X. destruct ht, hi; try discriminate O; vm_compute; split; reflexivity.
Qed.
Lemma number_are ht hi f az tilt : channels_are ht hi f az tilt -> forall c, ZheadSpec.number_of f c = number_in (dict ht hi) c.
Proof. intros H c. destruct (cc_onto c) as (c' & ->). unfold ZheadSpec.number_of. rewrite H. destruct (number_in _ _); reflexivity. Qed.
Lemma own_are ht hi f az tilt : channels_are ht hi f az tilt -> ZheadSpec.own_numbers f.
Proof.
  intros H. split.
  - intros c x Hc. destruct (cc_onto c) as (c' & ->). rewrite H in Hc. destruct (number_in (dict ht hi) (cc c')) as [n|] eqn:E; [|discriminate]. injection Hc as <-. exists n. split; [reflexivity|]. destruct ht, hi, c'; cbn in E; try discriminate; injection E as <-; discriminate.
  - intros c d x y Hc Hd E. destruct (cc_onto c) as (c' & ->), (cc_onto d) as (d' & ->). rewrite H in Hc, Hd.
    destruct (number_in (dict ht hi) (cc c')) as [n|] eqn:E1; [|discriminate]. destruct (number_in (dict ht hi) (cc d')) as [m|] eqn:E2; [|discriminate]. injection Hc as <-. injection Hd as <-. cbn in E. injection E as ->.
    destruct ht, hi, c', d'; cbn in E1, E2; try discriminate; try reflexivity; congruence.
Qed.
End Written.
