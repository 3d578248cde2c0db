(** C101: every channel of a network keeps its own filters. *)
From Coq Require Import Lia.
From Verif Require Import PyBase PyFacts PyText TextFacts PyFloat JfileModel ZmmModel FnameModel FnameSpec FnameProofs.
Local Open Scope nat_scope.

(** Under the names listed by a channel there are its filters, both at once and among the filters of the survey
    after all channels have been read; no name is of anything else. *)
Theorem C101_filters : forall chs ex l,
  known_types chs -> names_tell chs -> sizes_tell chs -> undecimated chs -> names_without_type chs -> at_most_hundred chs ->
  read_network [] chs = (ex, l) ->
  Forall2 (fun stages ch =>
    (forall f, In f stages -> exists k, In k (map fst ch) /\ finds ch k f /\ finds ex k f) /\
    (forall k, In k (map fst ch) -> exists f, In f stages /\ finds ch k f /\ finds ex k f)) chs l.
Proof.
  intros chs ex l A B C D E F R. destruct (network_kept chs A B C D E F chs [] ex l (Inv_nil chs) (fun c H => H) R) as (_ & _ & K).
  clear -K. induction K as [|s ch cs l (X & Y & _) K IH]; constructor; [split; assumption|exact IH].
Qed.
(** A channel with pairwise different filters lists them all, in the order of its stages. *)
Theorem C101_order : forall chs ex l,
  known_types chs -> names_tell chs -> sizes_tell chs -> undecimated chs -> names_without_type chs -> at_most_hundred chs ->
  read_network [] chs = (ex, l) ->
  Forall2 (fun stages ch => all_different stages -> Forall2 (fun f k => finds ex k f) stages (map fst ch)) chs l.
Proof.
  intros chs ex l A B C D E F R. destruct (network_kept chs A B C D E F chs [] ex l (Inv_nil chs) (fun c H => H) R) as (_ & _ & K).
  clear -K. induction K as [|s ch cs l (_ & _ & X) K IH]; constructor; [|exact IH]. intros T. specialize (X T). clear -X.
  induction X as [|f kv s ch [_ Y] X IH]; constructor; assumption.
Qed.

(** A network as in practice: named and unnamed filters, shared between channels. *)
Definition zpk_1 : fil := mkFil (txt "zpk") (txt "nT/mV_3_pole") None 25 (txt "poles 1").
Definition zpk_2 : fil := mkFil (txt "zpk") [] None 7 (txt "poles 2").
Definition coef_1 : fil := mkFil (txt "coefficient") [] None 100 (txt "gain 100").
Definition coef_2 : fil := mkFil (txt "coefficient") [] None 92 (txt "gain 92").
Definition delay_1 : fil := mkFil (txt "time delay") [] None 1 (txt "delay -0.25").
Definition fir_1 : fil := mkFil (txt "fir") (txt "Antialias") (Some (txt "1000.0")) 1 (txt "coefficients 1").
Definition net : list (list fil) := [[zpk_1; coef_1; delay_1]; [zpk_2; fir_1; coef_2; delay_1]; [coef_1; zpk_1]].
Example C101_read : map (map fst) (snd (read_network [] net)) =
  [[txt "nt per mv_3_pole"; txt "coefficient_00"; txt "time delay_00"];
   [txt "zpk_00"; txt "antialias_1000.0"; txt "coefficient_01"; txt "time delay_00"]; [txt "coefficient_00"; txt "nt per mv_3_pole"]].
Proof. vm_compute. reflexivity. Qed.
Lemma net_stages f : stage_of net f -> In f [zpk_1; zpk_2; coef_1; coef_2; delay_1; fir_1].
Proof. intros (c & Hc & Hf). cbn in *. repeat (destruct Hc as [<-|Hc]; [cbn in Hf; intuition|]). destruct Hc. Qed.
Ltac each H := apply net_stages in H; cbn in H; repeat (destruct H as [<-|H]); try (destruct H).
Example C101_hyp : known_types net /\ names_tell net /\ sizes_tell net /\ undecimated net /\ names_without_type net /\ at_most_hundred net /\
  Forall all_different net.
Proof.
  split; [intros f H; each H; cbn; auto 10|]. split.
  { intros f g H K U V E. each H; each K; try (now destruct U); try (now destruct V); try apply content_refl; vm_compute in E; discriminate. }
  split; [intros f g H K U T Z; each H; each K; try discriminate U; try apply content_refl; try discriminate T; discriminate Z|].
  split; [intros f H U; each H; try discriminate U; reflexivity|].
  split; [intros f g H K U V; each H; each K; try discriminate U; try (now destruct V); reflexivity|]. split.
  - intros t l N H. assert (I : incl l [7%Z; 100%Z; 92%Z; 1%Z]).
    { intros z Hz. destruct (H z Hz) as (f & S & U & _ & <-). each S; try discriminate U; cbn; auto. }
    pose proof (NoDup_incl_length N I) as L. cbn in L. lia.
  - assert (D : forall f g, (fl_data f <> fl_data g) -> ~ same_content f g) by (intros f g Q (_ & _ & _ & W); contradiction).
    repeat constructor; apply D; discriminate.
Qed.

(** Not so in general.  Filters without a name are one if type and rounded amplitude are: gains of 1.1 and 1.3, or
    any two delays. *)
Theorem C101_same_size_refuted : ~ (forall chs ex l f,
  known_types chs -> names_tell chs -> undecimated chs -> names_without_type chs -> at_most_hundred chs ->
  read_network [] chs = (ex, l) -> stage_of chs f -> exists k, finds ex k f).
Proof.
  intros H. pose (d2 := mkFil (txt "time delay") [] None 1 (txt "delay 0.5")). pose (chs := [[delay_1]; [d2]]).
  assert (S : forall f, stage_of chs f -> f = delay_1 \/ f = d2) by (intros f (c & [<-|[<-|[]]] & [<-|[]]); auto).
  destruct (H chs _ _ delay_1 ltac:(intros f Q; destruct (S f Q) as [-> | ->]; cbn; auto)
    ltac:(intros f g Q _ U; destruct (S f Q) as [-> | ->]; now destruct U) ltac:(intros f Q _; destruct (S f Q) as [-> | ->]; reflexivity)
    ltac:(intros f g _ Q _ U; destruct (S g Q) as [-> | ->]; now destruct U)
    ltac:(intros t l N Q; assert (I : incl l [1%Z]) by (intros z Hz; destruct (Q z Hz) as (f & W & _ & _ & <-); destruct (S f W) as [-> | ->]; now left);
      pose proof (NoDup_incl_length N I) as L; cbn in L; lia) eq_refl
    ltac:(exists [delay_1]; split; now left)) as (k & g & Hg & (_ & _ & _ & C)).
  apply fget_In in Hg. vm_compute in Hg. destruct Hg as [E|[]]. injection E as _ <-. vm_compute in C. discriminate.
Qed.
(** A name with the type in it, last in the order of names, starts the numbers anew: the first filter is lost. *)
Theorem C101_type_in_name_refuted : ~ (forall chs ex l f,
  known_types chs -> names_tell chs -> sizes_tell chs -> undecimated chs -> at_most_hundred chs ->
  read_network [] chs = (ex, l) -> stage_of chs f -> exists k, finds ex k f).
Proof.
  intros H. pose (n1 := mkFil (txt "coefficient") (txt "coefficient_electric_ex") None 5 (txt "gain 5")). pose (chs := [[coef_1; n1]; [coef_2]]).
  assert (S : forall f, stage_of chs f -> f = coef_1 \/ f = n1 \/ f = coef_2).
  { intros f (c & [<-|[<-|[]]] & Hf); cbn in Hf; intuition. }
  destruct (H chs _ _ coef_1 ltac:(intros f Q; destruct (S f Q) as [-> | [-> | ->]]; cbn; auto)
    ltac:(intros f g Q W U V _; destruct (S f Q) as [-> | [-> | ->]]; try (now destruct U); destruct (S g W) as [-> | [-> | ->]]; try (now destruct V); apply content_refl)
    ltac:(intros f g Q W U _ Z; destruct (S f Q) as [-> | [-> | ->]]; destruct (S g W) as [-> | [-> | ->]]; try apply content_refl; discriminate Z)
    ltac:(intros f Q _; destruct (S f Q) as [-> | [-> | ->]]; reflexivity)
    ltac:(intros t l N Q; assert (I : incl l [100%Z; 5%Z; 92%Z]) by (intros z Hz; destruct (Q z Hz) as (f & W & _ & _ & <-); destruct (S f W) as [-> | [-> | ->]]; cbn; auto);
      pose proof (NoDup_incl_length N I) as L; cbn in L; lia) eq_refl
    ltac:(exists [coef_1; n1]; split; now left)) as (k & g & Hg & (_ & _ & _ & C)).
  apply fget_In in Hg. vm_compute in Hg. destruct Hg as [E|[E|[]]]; injection E as _ <-; vm_compute in C; discriminate.
Qed.
(** Unnamed filters that decimate: the name has the rate once more each time it is read, and its last two characters
    are no number, so that the next filter of the type gets the first name again. *)
Theorem C101_decimating_refuted : ~ (forall chs ex l f,
  known_types chs -> names_tell chs -> sizes_tell chs -> names_without_type chs -> at_most_hundred chs ->
  read_network [] chs = (ex, l) -> stage_of chs f -> exists k, finds ex k f) /\
  (let f := mkFil (txt "fir") [] (Some (txt "1000.0")) 1 (txt "fir 1") in
   map (map fst) (snd (read_network [] [[f]; [f]])) = [[txt "fir_00_1000.0"]; [txt "fir_00_1000.0_1000.0"]]).
Proof.
  split; [|vm_compute; reflexivity].
  intros H. pose (f1 := mkFil (txt "fir") [] (Some (txt "8.0")) 1 (txt "fir 1")). pose (f2 := mkFil (txt "fir") [] (Some (txt "8.0")) 2 (txt "fir 2")). pose (chs := [[f1]; [f2]]).
  assert (S : forall f, stage_of chs f -> f = f1 \/ f = f2) by (intros f (c & [<-|[<-|[]]] & [<-|[]]); auto).
  destruct (H chs _ _ f1 ltac:(intros f Q; destruct (S f Q) as [-> | ->]; cbn; auto 10)
    ltac:(intros f g Q _ U; destruct (S f Q) as [-> | ->]; now destruct U)
    ltac:(intros f g Q W _ _ Z; destruct (S f Q) as [-> | ->]; destruct (S g W) as [-> | ->]; try apply content_refl; discriminate Z)
    ltac:(intros f g _ Q _ U; destruct (S g Q) as [-> | ->]; now destruct U)
    ltac:(intros t l N Q; assert (I : incl l [1%Z; 2%Z]) by (intros z Hz; destruct (Q z Hz) as (f & W & _ & _ & <-); destruct (S f W) as [-> | ->]; cbn; auto);
      pose proof (NoDup_incl_length N I) as L; cbn in L; lia) eq_refl
    ltac:(exists [f1]; split; now left)) as (k & g & Hg & (_ & _ & _ & C)).
  apply fget_In in Hg. vm_compute in Hg. repeat (destruct Hg as [E|Hg]; [injection E as _ <-; vm_compute in C; discriminate|]). destruct Hg.
Qed.
(** A filter named alike in two channels is the last one read in both. *)
Theorem C101_same_name_refuted : ~ (forall chs ex l f,
  known_types chs -> (forall g, stage_of chs g -> ~ unnamed g) ->
  read_network [] chs = (ex, l) -> stage_of chs f -> exists k, finds ex k f).
Proof.
  intros H. pose (f1 := mkFil (txt "zpk") (txt "Coil") None 3 (txt "poles 1")). pose (f2 := mkFil (txt "zpk") (txt "coil") None 4 (txt "poles 2")).
  assert (S : forall f, stage_of [[f1]; [f2]] f -> f = f1 \/ f = f2) by (intros f (c & [<-|[<-|[]]] & [<-|[]]); auto).
  destruct (H [[f1]; [f2]] _ _ f1 ltac:(intros f Q; destruct (S f Q) as [-> | ->]; cbn; auto) ltac:(intros f Q; destruct (S f Q) as [-> | ->]; discriminate) eq_refl
    ltac:(exists [f1]; split; now left)) as (k & g & Hg & (_ & _ & _ & C)).
  apply fget_In in Hg. vm_compute in Hg. destruct Hg as [E|[]]. injection E as _ <-. vm_compute in C. discriminate.
Qed.
(** The hundred-and-first unnamed filter of a type is number 100, whose last two digits are 00: the filter after it
    gets the number 100 too (names are sorted as texts: 99 is last). *)
Definition gain (m : nat) : fil := mkFil (txt "coefficient") [] None (Z.of_nat m) (show_int (Z.of_nat m)).
Theorem C101_hundred_refuted : ~ (forall chs ex l f,
  known_types chs -> names_tell chs -> sizes_tell chs -> undecimated chs -> names_without_type chs ->
  read_network [] chs = (ex, l) -> stage_of chs f -> exists k, finds ex k f).
Proof.
  intros H. pose (chs := [map gain (seq 0 102)]).
  assert (S : forall f, stage_of chs f -> exists m, f = gain m).
  { intros f (c & [<-|[]] & Hf). apply in_map_iff in Hf as (m & <- & _). now exists m. }
  destruct (H chs _ _ (gain 100) ltac:(intros f Q; destruct (S f Q) as [m ->]; cbn; auto)
    ltac:(intros f g Q _ U; destruct (S f Q) as [m ->]; now destruct U)
    ltac:(intros f g Q W _ _ Z; destruct (S f Q) as [m ->]; destruct (S g W) as [n ->]; cbn in Z; apply Nat2Z.inj in Z; subst; apply content_refl)
    ltac:(intros f Q _; destruct (S f Q) as [m ->]; reflexivity)
    ltac:(intros f g _ Q _ U; destruct (S g Q) as [m ->]; now destruct U) (surjective_pairing (read_network [] chs))
    ltac:(exists (map gain (seq 0 102)); split; [now left|apply in_map, in_seq; lia])) as (k & g & Hg & (_ & _ & C & _)).
  apply fget_In in Hg.
  assert (B : forallb (fun kv => negb (fl_size (snd kv) =? 100)%Z) (fst (read_network [] chs)) = true) by (vm_compute; reflexivity).
  rewrite forallb_forall in B. specialize (B _ Hg). cbn [snd] in B. rewrite C in B. discriminate.
Qed.

Print Assumptions C101_filters.
Print Assumptions C101_order.
Print Assumptions C101_same_size_refuted.
Print Assumptions C101_hundred_refuted.
