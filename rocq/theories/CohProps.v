(** C127: the stations of a coherence feature. *)
From Verif Require Import PyBase PyText TextFacts CohModel.
Local Open Scope list_scope.

(** ** Specification *)
Definition remote_channel (c : text) : Prop := exists r, c = "r"%char :: r \/ c = "R"%char :: r.
Definition known (loc : text) (remote : option text) (x : text) : Prop := x <> [] /\ (x = loc \/ remote = Some x).
(** The station [s'] that channel [c] with station [s] gets. *)
Inductive station_for (loc : text) (remote : option text) (c : text) (s s' : option text) : Prop :=
| stays x : s = Some x -> known loc remote x -> s' = Some x -> station_for loc remote c s s'
| gets_remote : (forall x, s = Some x -> ~ known loc remote x) -> remote_channel c -> s' = remote -> station_for loc remote c s s'
| gets_local : (forall x, s = Some x -> ~ known loc remote x) -> ~ remote_channel c -> s' = Some loc -> station_for loc remote c s s'.

Lemma lower_r c : Ascii.eqb "r" (to_lower c) = (Ascii.eqb "r" c || Ascii.eqb "R" c)%bool.
Proof. revert c. assert (H : forall c, Bool.eqb (Ascii.eqb "r" (to_lower c)) (Ascii.eqb "r" c || Ascii.eqb "R" c)%bool = true) by (apply ascii_forall; vm_compute; reflexivity). intros c. apply Bool.eqb_prop, H. Qed.
Lemma remote_dec c : prefix_of (txt "r") (lower c) = true <-> remote_channel c.
Proof.
  destruct c as [|a c]; [split; [discriminate|intros (r & [X|X]); discriminate X]|]. change (prefix_of (txt "r") (lower (a :: c))) with (Ascii.eqb "r" (to_lower a) && true)%bool. rewrite andb_true_r, lower_r, orb_true_iff, !Ascii.eqb_eq. split.
  - intros [<-|<-]; exists c; [left|right]; reflexivity.
  - intros (r & [X|X]); injection X as -> _; [left|right]; reflexivity.
Qed.
Lemma active_known loc remote x : x <> [] -> existsb (text_eqb x) (active loc remote) = true <-> known loc remote x.
Proof.
  intros N. rewrite existsb_exists. unfold active, known. split.
  - intros (y & I & E). apply text_eqb_eq in E. subst y. split; [exact N|]. destruct I as [->|I]; [left; reflexivity|right]. destruct remote as [[|a r]|]; cbn in I; [contradiction| |contradiction]. destruct I as [<-|[]]. reflexivity.
  - intros (_ & [->| ->]); [exists loc; split; [left; reflexivity|apply text_eqb_eq; reflexivity]|]. exists x. split; [|apply text_eqb_eq; reflexivity]. right. destruct x; [contradiction N; reflexivity|left; reflexivity].
Qed.
Lemma one_station loc remote c s : station_for loc remote c s (deduce loc remote c (forget loc remote s)).
Proof.
  assert (D : (forall x, s = Some x -> ~ known loc remote x) -> station_for loc remote c s (if prefix_of (txt "r") (lower c) then remote else Some loc)).
  { intros N. destruct (prefix_of (txt "r") (lower c)) eqn:P; [apply gets_remote; [exact N|apply remote_dec; exact P|reflexivity]|apply gets_local; [exact N| |reflexivity]]. intros R. apply remote_dec in R. rewrite R in P. discriminate P. }
  destruct s as [[|a x]|]; unfold forget, deduce; cbn [truthy].
  - apply D. intros x X (N & _). injection X as <-. apply N. reflexivity.
  - destruct (existsb (text_eqb (a :: x)) (active loc remote)) eqn:E; cbn [truthy].
    + apply (stays _ _ _ _ _ (a :: x)); [reflexivity| |reflexivity]. apply active_known in E; [exact E|discriminate].
    + apply D. intros y Y K. injection Y as <-. apply active_known in K; [rewrite K in E; discriminate E|discriminate].
  - apply D. intros x X. discriminate X.
Qed.
Lemma station_unique loc remote c s a b : station_for loc remote c s a -> station_for loc remote c s b -> a = b.
Proof. intros [x E K ->|N R ->|N R ->] [y E' K' ->|N' R' ->|N' R' ->]; try congruence; try contradiction; exfalso; match goal with H : ?s = Some ?x, N : forall z, ?s = Some z -> ~ _, K : known _ _ ?x |- _ => exact (N x H K) end. Qed.

(** Channels keep known stations; others are taken from the channel. *)
Theorem C127_stations loc remote f f' : validate_station_ids loc remote f = f' <->
  channel_1 f' = channel_1 f /\ channel_2 f' = channel_2 f /\ station_for loc remote (channel_1 f) (station_1 f) (station_1 f') /\ station_for loc remote (channel_2 f) (station_2 f) (station_2 f').
Proof.
  split.
  - intros <-. unfold validate_station_ids. cbn [channel_1 channel_2 station_1 station_2]. split; [reflexivity|]. split; [reflexivity|]. split; apply one_station.
  - destruct f' as [c1 s1 c2 s2]. cbn [channel_1 channel_2 station_1 station_2]. intros (-> & -> & A & B). unfold validate_station_ids. f_equal; [eapply station_unique; [apply one_station|exact A]|eapply station_unique; [apply one_station|exact B]].
Qed.
Lemma again loc remote c s s' s'' : station_for loc remote c s s' -> station_for loc remote c s' s'' -> s'' = s'.
Proof.
  intros [x E K ->|N R ->|N R ->] [y E' K' ->|N' R' ->|N' R' ->]; try congruence; try contradiction; exfalso; exact (N' x eq_refl K).
Qed.
Theorem C127_again loc remote f : validate_station_ids loc remote (validate_station_ids loc remote f) = validate_station_ids loc remote f.
Proof.
  apply C127_stations. split; [reflexivity|]. split; [reflexivity|].
  assert (G : forall c s, station_for loc remote c (deduce loc remote c (forget loc remote s)) (deduce loc remote c (forget loc remote s))).
  { intros c s. pose proof (one_station loc remote c s) as A. pose proof (one_station loc remote c (deduce loc remote c (forget loc remote s))) as B. pose proof (again _ _ _ _ _ _ A B) as E. rewrite E in B. exact B. }
  split; apply G.
Qed.
(** Every station is one of the two, or missing like the remote one. *)
Theorem C127_named loc r f : loc <> [] -> r <> [] -> let f' := validate_station_ids loc (Some r) f in
  (station_1 f' = Some loc \/ station_1 f' = Some r) /\ (station_2 f' = Some loc \/ station_2 f' = Some r).
Proof.
  intros L R. cbv zeta. assert (G : forall c s s', station_for loc (Some r) c s s' -> s' = Some loc \/ s' = Some r). { intros c s s' [x E (N & [->|K]) ->|N K ->|N K ->]; [left; reflexivity|right; injection K as ->; reflexivity|right; reflexivity|left; reflexivity]. }
  destruct (proj1 (C127_stations loc (Some r) f _) eq_refl) as (_ & _ & A & B). split; [exact (G _ _ _ A)|exact (G _ _ _ B)].
Qed.
(** Without a remote station, a remote channel has no station, and no error says so. *)
Theorem C127_unset_refuted loc c d : remote_channel c -> station_1 (validate_station_ids loc None (mkPair c None d None)) = None.
Proof.
  intros R. destruct (proj1 (C127_stations loc None (mkPair c None d None) _) eq_refl) as (_ & _ & A & _). cbn [channel_1 station_1] in A. destruct A as [x E _ _|_ _ E|_ N _]; [discriminate E|exact E|contradiction].
Qed.
(** A station that was deduced stays when the two stations change their roles. *)
Theorem C127_roles_refuted a b c d : a <> [] -> b <> [] -> ~ remote_channel c -> station_1 (validate_station_ids b (Some a) (validate_station_ids a (Some b) (mkPair c None d None))) = Some a.
Proof.
  intros A B C. destruct (proj1 (C127_stations a (Some b) (mkPair c None d None) _) eq_refl) as (E & _ & X & _). set (f := validate_station_ids a (Some b) (mkPair c None d None)) in *. cbn [channel_1 station_1] in X. destruct X as [x X _ _|_ R _|_ _ X]; [discriminate X|contradiction|].
  destruct (proj1 (C127_stations b (Some a) f _) eq_refl) as (_ & _ & Y & _). rewrite X in Y. destruct Y as [y Y _ Z|N _ _|N _ _]; [rewrite Z; symmetry; exact Y| |]; exfalso; apply (N a eq_refl); (split; [exact A|right; reflexivity]).
Qed.
(** The station of a channel can contradict its name. *)
Theorem C127_contradiction_refuted loc r c d : r <> [] -> ~ remote_channel c -> station_1 (validate_station_ids loc (Some r) (mkPair c (Some r) d None)) = Some r.
Proof.
  intros R C. destruct (proj1 (C127_stations loc (Some r) (mkPair c (Some r) d None) _) eq_refl) as (_ & _ & A & _). cbn [channel_1 station_1] in A. destruct A as [x E _ X|N _ _|N _ _]; [rewrite X; symmetry; exact E| |]; exfalso; apply (N r eq_refl); (split; [exact R|right; reflexivity]).
Qed.
Example C127_hyp : remote_channel (txt "rrhx") /\ ~ remote_channel (txt "hx") /\ txt "PKD" <> [] /\
  validate_station_ids (txt "PKD") (Some (txt "SAO")) (mkPair (txt "hx") (Some (txt "XYZ")) (txt "Rx") None) = mkPair (txt "hx") (Some (txt "PKD")) (txt "Rx") (Some (txt "SAO")).
Proof. split; [exists (txt "rhx"); left; reflexivity|]. split; [intros (r & [X|X]); discriminate X|]. split; [discriminate|reflexivity]. Qed.
