(** Lemmas for C96: reading. *)
From Coq Require Import QArith Qabs Reals Qreals.
From Verif Require Import PyBase PyText TextFacts PyNum PyFloat Cplx TfModel TfSpec TfProofs TfEffects TfZmmModel TfZmmSpec TfZmmProofs TfZmmFile.
From Verif Require ZmmModel ZmmSpec ZmmFile ZheadModel ZheadSpec ZheadFile ZheadProps ZrotModel ZrotSpec ZrotProps TfEmtfModel.
From Coq Require Import Lra.
Local Open Scope nat_scope.

Notation ent := (entry cx).
Definition wrap (d : dataset cx) : tf cx := mkTf cx default_names [] d.
Definition nm (l : list chan) : list text := map (name default_names) l.
Lemma default_inj c c' : name default_names c = name default_names c' -> c = c'.
Proof. destruct c, c'; intros H; try reflexivity; discriminate H. Qed.
Lemma init_consistent inv periods : consistent cx (mkTf cx default_names inv (initialize cx default_names periods)).
Proof. split; [exact default_inj|]. intros c. destruct c; cbn; auto 10. Qed.
Lemma put_consistent d v outs ins f : consistent cx (wrap d) -> consistent cx (wrap (put_all d v outs ins f)).
Proof. intros [A B]. split; [exact A|exact B]. Qed.
Lemma put_entry d v outs ins f w p o i : consistent cx (wrap d) -> ent (wrap (put_all d v (nm outs) (nm ins) f)) w p o i =
  if var_dec w v then match at_place chan_dec o outs, at_place chan_dec i ins with
    | Some r, Some c => kept cx v (f p r c) | _, _ => ent (wrap d) w p o i end else ent (wrap d) w p o i.
Proof. intros C. exact (assign_entry cx (wrap d) v outs ins f w p o i C). Qed.

(** What is in the dataset of a file. *)
Definition filled (L : nat) (z : zfile) (outs : list chan) (tfs sig res : nat -> nat -> nat -> option Cx) : Prop :=
  zf_ins z = nm inputs /\ zf_outs z = nm outs /\ consistent cx (wrap (zf_data z)) /\
  (forall p o i r c, p < L -> at_place chan_dec o outs = Some r -> at_place chan_dec i inputs = Some c -> ent (wrap (zf_data z)) VTf p o i = tfs p r c) /\
  (forall p o i r c, at_place chan_dec o inputs = Some r -> at_place chan_dec i inputs = Some c -> ent (wrap (zf_data z)) VIsp p o i = sig p r c) /\
  (forall p o i r c, at_place chan_dec o outs = Some r -> at_place chan_dec i outs = Some c -> ent (wrap (zf_data z)) VRes p o i = res p r c).

Lemma finish_fill L d periods outs (tfs sig res : nat -> nat -> nat -> option Cx) : consistent cx (wrap d) ->
  (forall p o i r c, p < L -> at_place chan_dec o outs = Some r -> at_place chan_dec i inputs = Some c -> ent (wrap d) VTf p o i = tfs p r c) ->
  filled L (mkZfile periods (nm inputs) (nm outs) (put_all (put_all d VIsp (nm inputs) (nm inputs) sig) VRes (nm outs) (nm outs) res)) outs tfs sig res.
Proof.
  intros C T. unfold filled. cbn [zf_ins zf_outs zf_data]. split; [reflexivity|]. split; [reflexivity|].
  assert (C1 := put_consistent d VIsp (nm inputs) (nm inputs) sig C). split; [apply put_consistent; exact C1|].
  split; [|split].
  - intros p o i r c Hp Ho Hi. rewrite put_entry by exact C1. cbn [var_dec var_rec var_rect]. destruct (var_dec VTf VRes) as [E|_]; [discriminate E|]. rewrite put_entry by exact C. destruct (var_dec VTf VIsp) as [E|_]; [discriminate E|]. apply T; assumption.
  - intros p o i r c Ho Hi. rewrite put_entry by exact C1. destruct (var_dec VIsp VRes) as [E|_]; [discriminate E|]. rewrite put_entry by exact C. destruct (var_dec VIsp VIsp) as [_|E]; [|contradiction]. rewrite Ho, Hi. reflexivity.
  - intros p o i r c Ho Hi. rewrite put_entry by exact C1. destruct (var_dec VRes VRes) as [_|E]; [|contradiction]. rewrite Ho, Hi. reflexivity.
Qed.
Lemma fits_ok {A} ht hi (f : comp -> option (ZheadModel.zchannel A)) nc : (ht || hi)%bool = true -> (forall c, ZheadSpec.number_of f c = number_in (dict ht hi) c) -> nc = Z.of_nat (2 + length (outputs ht hi)) ->
  map default_label (ZheadModel.input_channels f) = nm inputs /\ map default_label (ZheadModel.output_channels f) = nm (outputs ht hi) /\ Z.to_nat (nc - 2) = length (outputs ht hi).
Proof.
  intros O N ->. destruct (recorded_ok ht hi f O N) as [-> ->]. split; [reflexivity|]. split; [exact (names_cc default_names (outputs ht hi))|]. lia.
Qed.

Lemma fits_true ht hi : ((length (nm inputs) =? 2) && (length (nm (outputs ht hi)) =? length (outputs ht hi)))%bool = true.
Proof. unfold nm. rewrite !map_length. destruct ht, hi; reflexivity. Qed.
Lemma fill_plain L angle g rows ht hi : (ht || hi)%bool = true -> (forall c, ZheadSpec.number_of (ZheadModel.zg_channel g) c = number_in (dict ht hi) c) ->
  ZheadModel.zg_channels g = Some (Z.of_nat (2 + length (outputs ht hi))) ->
  exists z, fill_dataset false angle g rows = Ok z /\ zf_periods z = map row_period rows /\
    filled L z (outputs ht hi) (row_at rows ZmmModel.zr_tf) (row_at rows ZmmModel.zr_sig) (row_at rows ZmmModel.zr_res).
Proof.
  intros O N NC. destruct (fits_ok ht hi (ZheadModel.zg_channel g) _ O N eq_refl) as (F1 & F2 & F3). unfold fill_dataset. rewrite NC, F1, F2, F3, fits_true. cbn [bindR].
  eexists. split; [reflexivity|]. split; [reflexivity|]. pose proof (init_consistent [] (map row_period rows)) as CI. fold (wrap (initialize cx default_names (map row_period rows))) in CI. apply finish_fill.
  - apply put_consistent. exact CI.
  - intros p o i r c _ Ho Hi. rewrite put_entry by exact CI. destruct (var_dec VTf VTf) as [_|E]; [|contradiction]. rewrite Ho, Hi. reflexivity.
Qed.

(** ** Copying *)
Lemma nth_place (l : list chan) o r : at_place chan_dec o l = Some r -> nth r (nm l) [] = name default_names o.
Proof. intros H. apply at_place_nth in H. apply nth_error_nth. unfold nm. apply map_nth_error. exact H. Qed.
Definition sibling (t t' : tf cx) : Prop := t_names cx t' = t_names cx t /\ periods cx t' = periods cx t /\ consistent cx t'.
Lemma copy_ok z v outs ins t : consistent cx t -> t_names cx t = default_names -> consistent cx (wrap (zf_data z)) ->
  exists t', copy z v (nm outs) (nm ins) t = (t', None) /\ sibling t t' /\
    forall w p o i, ent t' w p o i = if var_dec w v then match at_place chan_dec o outs, at_place chan_dec i ins with
      | Some _, Some _ => kept cx v (ent (wrap (zf_data z)) v p o i) | _, _ => ent t w p o i end else ent t w p o i.
Proof.
  intros C E CZ. unfold copy. assert (L1 : located cx (t_data cx t) (nm outs) (nm ins) = true). { unfold nm. rewrite <- E. apply located_names. exact (proj2 C). }
  rewrite L1. rewrite (located_names cx (zf_data z) default_names outs ins (proj2 CZ) : located cx (zf_data z) (nm outs) (nm ins) = true). cbn [andb].
  eexists. split; [reflexivity|]. split; [split; [reflexivity|split; [reflexivity|apply consistent_assign; exact C]]|].
  intros w p o i. match goal with |- context [assign _ _ _ _ _ ?F] => set (F0 := F) end.
  replace (nm outs) with (map (name (t_names cx t)) outs) by (rewrite E; reflexivity). replace (nm ins) with (map (name (t_names cx t)) ins) by (rewrite E; reflexivity). rewrite (assign_entry cx t v outs ins _ w p o i C). destruct (var_dec w v); [|reflexivity].
  destruct (at_place chan_dec o outs) as [r|] eqn:Ho; [|reflexivity]. destruct (at_place chan_dec i ins) as [c|] eqn:Hi; [|reflexivity].
  f_equal. unfold F0. rewrite (nth_place _ _ _ Ho), (nth_place _ _ _ Hi). reflexivity.
Qed.

(** Before the errors are computed. *)
Definition copied (z : zfile) (outs : list chan) (t : tf cx) : Prop :=
  t_names cx t = default_names /\ periods cx t = zf_periods z /\ consistent cx t /\
  forall v p o i, v <> VErr -> ent t v p o i =
    match v with VTf => match at_place chan_dec o outs, at_place chan_dec i inputs with Some _, Some _ => ent (wrap (zf_data z)) v p o i | _, _ => Some C0 end
    | VIsp => match at_place chan_dec o inputs, at_place chan_dec i inputs with Some _, Some _ => ent (wrap (zf_data z)) v p o i | _, _ => Some C0 end
    | VRes => match at_place chan_dec o outs, at_place chan_dec i outs with Some _, Some _ => ent (wrap (zf_data z)) v p o i | _, _ => Some C0 end
    | _ => Some C0 end.
Lemma from_zmm_copies z outs t0 : fresh t0 -> zf_ins z = nm inputs -> zf_outs z = nm outs -> consistent cx (wrap (zf_data z)) ->
  exists t, from_zmm z t0 = compute_errors cx t /\ copied z outs t.
Proof.
  intros (C & E & P) EI EO CZ. unfold from_zmm. rewrite EI, EO.
  assert (SP : set_period cx (zf_periods z) t0 = (mkTf cx default_names (t_inverse cx t0) (initialize cx default_names (zf_periods z)), None)).
  { unfold set_period. unfold periods in P. rewrite P. apply same_periods_length in P. cbn in P. rewrite P. cbn. rewrite E. reflexivity. }
  rewrite SP. set (t1 := mkTf _ _ _ _). assert (C1 : consistent cx t1) by apply init_consistent.
  assert (Z1 : forall v p o i, ent t1 v p o i = Some C0) by reflexivity. assert (N1 : t_names cx t1 = default_names) by reflexivity. assert (P1 : periods cx t1 = zf_periods z) by reflexivity.
  clearbody t1. cbn [andthen].
  destruct (copy_ok z VTf outs inputs t1 C1 N1 CZ) as (t2 & -> & (N2 & P2 & C2) & H2). cbn [andthen]. rewrite N1 in N2.
  destruct (copy_ok z VErr outs inputs t2 C2 N2 CZ) as (t3 & -> & (N3 & P3 & C3) & H3). cbn [andthen]. rewrite N2 in N3.
  destruct (copy_ok z VIsp inputs inputs t3 C3 N3 CZ) as (t4 & -> & (N4 & P4 & C4) & H4). cbn [andthen]. rewrite N3 in N4.
  destruct (copy_ok z VRes outs outs t4 C4 N4 CZ) as (t5 & -> & (N5 & P5 & C5) & H5). cbn [andthen]. rewrite N4 in N5.
  exists t5. split; [reflexivity|]. split; [exact N5|]. split; [congruence|]. split; [exact C5|].
  intros v p o i NE. rewrite H5. destruct (var_dec v VRes) as [->|V1].
  - rewrite H4, H3, H2, Z1. destruct (var_dec VRes VIsp) as [V|_]; [discriminate V|]. destruct (var_dec VRes VErr) as [V|_]; [discriminate V|]. destruct (var_dec VRes VTf) as [V|_]; [discriminate V|]. reflexivity.
  - rewrite H4. destruct (var_dec v VIsp) as [->|V2].
    + rewrite H3, H2, Z1. destruct (var_dec VIsp VErr) as [V|_]; [discriminate V|]. destruct (var_dec VIsp VTf) as [V|_]; [discriminate V|]. reflexivity.
    + rewrite H3. destruct (var_dec v VErr) as [->|V3]; [contradiction|]. rewrite H2, Z1. destruct (var_dec v VTf) as [->|V4]; [reflexivity|]. destruct v; try reflexivity; contradiction.
Qed.
