(** Proofs for C101. *)
From Coq Require Import Lia Permutation Sorted.
From Verif Require Import PyBase PyFacts PyText TextFacts PyFloat JfileModel JfileData ZmmModel FnameModel FnameSpec.
Local Open Scope nat_scope.

(** ** Numbers in names *)
Lemma below100 (p : nat -> bool) : forallb p (seq 0 100) = true -> forall m, m < 100 -> p m = true.
Proof. intros H m L. rewrite forallb_forall in H. apply H, in_seq. lia. Qed.
Definition num (t : text) (m : nat) : text := number_name t (Z.of_nat m).
Definition num_ok (m : nat) : bool :=
  match pad2 (Z.of_nat m) with
  | [a; b] => N.eqb (code a) (N.of_nat (48 + m / 10)) && N.eqb (code b) (N.of_nat (48 + m mod 10))
              && match read_int [a; b] with Some z => Z.eqb z (Z.of_nat m) | None => false end
              && text_eqb (key_of [a; b]) [a; b]
  | _ => false
  end.
Lemma pad2_spec m : m < 100 -> exists a b, pad2 (Z.of_nat m) = [a; b] /\ code a = N.of_nat (48 + m / 10) /\
  code b = N.of_nat (48 + m mod 10) /\ read_int [a; b] = Some (Z.of_nat m) /\ key_of [a; b] = [a; b].
Proof.
  intros L. pose proof (below100 num_ok ltac:(vm_compute; reflexivity) m L) as H. unfold num_ok in H.
  destruct (pad2 (Z.of_nat m)) as [|a [|b [|c r]]]; try discriminate. apply andb_true_iff in H as [H H4]. apply andb_true_iff in H as [H H3].
  apply andb_true_iff in H as [H1 H2]. apply N.eqb_eq in H1. apply N.eqb_eq in H2. exists a, b. repeat split; auto.
  - destruct (read_int [a; b]) as [z|]; [|discriminate]. apply Z.eqb_eq in H3. now subst.
  - now apply text_eqb_eq in H4.
Qed.
Lemma num_last t m : m < 100 -> read_int (last_two (num t m)) = Some (Z.of_nat m).
Proof.
  intros L. destruct (pad2_spec m L) as (a & b & E & _ & _ & R & _). unfold num, number_name. rewrite E. unfold last_two.
  replace (length (t ++ txt "_" ++ [a; b]) - 2) with (length (t ++ txt "_")) by (rewrite !app_length; cbn; lia).
  rewrite app_assoc, skipn_app, skipn_all, Nat.sub_diag. exact R.
Qed.
Lemma num_inj t m n : m < 100 -> n < 100 -> num t m = num t n -> m = n.
Proof. intros A B E. pose proof (num_last t m A) as H. rewrite E, (num_last t n B) in H. injection H as H. lia. Qed.
Lemma leb_app p a b : text_leb (p ++ a) (p ++ b) = text_leb a b.
Proof. induction p as [|x p IH]; [reflexivity|]. cbn [app text_leb]. rewrite N.ltb_irrefl. exact IH. Qed.
Lemma num_order t m n : m < n -> n < 100 -> text_leb (num t n) (num t m) = false.
Proof.
  intros A B. destruct (pad2_spec m ltac:(lia)) as (a & b & E & Ca & Cb & _). destruct (pad2_spec n B) as (c & d & F & Cc & Cd & _).
  unfold num, number_name. rewrite E, F, !leb_app. cbn [text_leb]. rewrite Ca, Cb, Cc, Cd.
  assert (D : n / 10 >= m / 10) by (apply Nat.div_le_mono; lia).
  pose proof (Nat.div_mod m 10 ltac:(lia)). pose proof (Nat.div_mod n 10 ltac:(lia)).
  destruct (N.ltb_spec (N.of_nat (48 + n / 10)) (N.of_nat (48 + m / 10))); [lia|].
  destruct (N.ltb_spec (N.of_nat (48 + m / 10)) (N.of_nat (48 + n / 10))); [reflexivity|].
  destruct (N.ltb_spec (N.of_nat (48 + n mod 10)) (N.of_nat (48 + m mod 10))); [lia|].
  destruct (N.ltb_spec (N.of_nat (48 + m mod 10)) (N.of_nat (48 + n mod 10))); [reflexivity|]. lia.
Qed.
Lemma key_of_app a b : key_of (a ++ b) = key_of a ++ key_of b.
Proof. unfold key_of, replace_char. rewrite flat_map_app. unfold lower. apply map_app. Qed.
Lemma types_key t : In t types -> key_of t = t.
Proof. intros H. repeat (destruct H as [<-|H]; [reflexivity|]). destruct H. Qed.
Lemma num_key t m : In t types -> m < 100 -> key_of (num t m) = num t m.
Proof.
  intros T L. destruct (pad2_spec m L) as (a & b & E & _ & _ & _ & K). unfold num, number_name. rewrite E, !key_of_app, K, (types_key t T). reflexivity.
Qed.
Lemma find_prefix p x : find p (p ++ x) = Some 0.
Proof.
  assert (H : prefix_of p (p ++ x) = true) by (induction p as [|a p IH]; [reflexivity|]; cbn; rewrite Ascii.eqb_refl; exact IH).
  destruct (p ++ x); cbn [find]; rewrite H; reflexivity.
Qed.
Lemma num_contains t m : contains t (num t m) = true.
Proof. unfold contains, num, number_name. now rewrite find_prefix. Qed.
Lemma num_type t u m : In t types -> In u types -> m < 100 -> contains t (num u m) = true -> t = u.
Proof.
  intros T U L C.
  assert (H : forallb (fun m => forallb (fun t => forallb (fun u => negb (contains t (num u m)) || text_eqb t u) types) types) (seq 0 100) = true)
    by (vm_compute; reflexivity).
  pose proof (below100 _ H m L) as A. cbv beta in A. rewrite forallb_forall in A. specialize (A t T). cbv beta in A. rewrite forallb_forall in A. specialize (A u U).
  cbv beta in A. rewrite C in A. cbn [negb orb] in A. now apply text_eqb_eq in A.
Qed.

(** ** The last of sorted texts *)
Lemma sort_last l x r : rev (sort_texts l) = x :: r -> In x l /\ forall y, In y l -> text_leb y x = true.
Proof.
  intros E. assert (S : sort_texts l = rev r ++ [x]) by (rewrite <- (rev_involutive (sort_texts l)), E; reflexivity).
  assert (I : forall y, In y l <-> In y (rev r ++ [x])) by (intros y; rewrite <- S; split; intros H; [eapply Permutation_in; [apply Permutation_sym, sort_perm|exact H]|eapply Permutation_in; [apply sort_perm|exact H]]).
  split; [apply I, in_app_iff; right; now left|]. intros y Hy. apply I in Hy. pose proof (sort_sorted l) as O. rewrite S in O. clear -O Hy.
  assert (R : text_leb x x = true) by (destruct (text_leb x x) eqn:K; [reflexivity|]; pose proof (text_leb_total _ _ K); congruence).
  apply in_app_iff in Hy as [Hy|[<-|[]]]; [|exact R]. induction (rev r) as [|a q IH]; [destruct Hy|]. cbn in O. inversion O as [|? ? O' F]; subst.
  destruct Hy as [<-|Hy]; [|now apply IH]. rewrite Forall_forall in F. apply F, in_app_iff. right. now left.
Qed.
Lemma next_name_num (d : fdict) t n : n < 100 ->
  (forall k, In k (map fst d) -> contains t k = true -> exists m, m < n /\ k = num t m) ->
  (forall m, m < n -> In (num t m) (map fst d)) -> next_name d t = num t n.
Proof.
  intros L A B. unfold next_name. destruct (rev (sort_texts (filter (contains t) (map fst d)))) as [|x r] eqn:E.
  - destruct n as [|n]; [reflexivity|]. exfalso.
    assert (I : In (num t 0) (filter (contains t) (map fst d))) by (apply filter_In; split; [apply B; lia|apply num_contains]).
    apply (Permutation_in _ (Permutation_sym (sort_perm _))) in I. apply in_rev in I. rewrite E in I. destruct I.
  - destruct (sort_last _ _ _ E) as [Ix Lx]. apply filter_In in Ix as [Ix Cx]. destruct (A x Ix Cx) as (m & Lm & ->).
    assert (m = n - 1).
    { destruct (Nat.eq_dec m (n - 1)) as [|Ne]; [assumption|]. exfalso.
      assert (text_leb (num t (n - 1)) (num t m) = true) by (apply Lx, filter_In; split; [apply B; lia|apply num_contains]).
      rewrite num_order in H by lia. discriminate. }
    rewrite num_last by lia. subst m. unfold num. f_equal. lia.
Qed.

(** ** Contents *)
Lemma content_refl f : same_content f f. Proof. unfold same_content. auto. Qed.
Lemma content_sym f g : same_content f g -> same_content g f. Proof. unfold same_content. intuition. Qed.
Lemma content_trans f g h : same_content f g -> same_content g h -> same_content f h.
Proof. unfold same_content. intuition congruence. Qed.
Lemma content_named n f : same_content (named n f) f. Proof. unfold same_content. auto. Qed.

Lemma fget_In k g d : fget k d = Some g -> In (k, g) d. Proof. apply dget_In. Qed.
Lemma In_fget k g d : NoDup (map fst d) -> In (k, g) d -> fget k d = Some g. Proof. intros N H. now apply In_dget. Qed.
Lemma fget_fset k k' v d : fget k (fset k' v d) = if text_dec k k' then Some v else fget k d. Proof. apply dget_dset. Qed.
Lemma NoDup_fset k v d : NoDup (map fst d) -> NoDup (map fst (fset k v d)). Proof. apply NoDup_dset. Qed.
Lemma fset_keys k v d x : In x (map fst (fset k v d)) <-> x = k \/ In x (map fst d).
Proof. unfold fset. induction d as [|[a b] d IH]; cbn; [intuition|]. destruct (text_dec k a) as [->|]; cbn; [intuition|]. rewrite IH. intuition. Qed.
Lemma NoDup_app_snoc {A} (l : list A) x : NoDup l -> ~ In x l -> NoDup (l ++ [x]).
Proof. intros N H. apply NoDup_rev in N. rewrite <- (rev_involutive (l ++ [x])), rev_app_distr. apply NoDup_rev. cbn. constructor; [now rewrite <- in_rev|exact N]. Qed.
Lemma fget_key k d : In k (map fst d) <-> exists g, fget k d = Some g.
Proof.
  unfold fget. destruct (dget text_dec k d) eqn:E.
  - split; [eauto|]. intros _. apply dget_In in E. apply in_map_iff. now exists (k, f).
  - apply dget_None in E. split; [contradiction|]. intros [g G]. discriminate.
Qed.
Lemma same_filter_Some d f n : same_filter d f = Some n ->
  exists k g, In (k, g) d /\ fl_name g = n /\ fl_type g = fl_type f /\ fl_size g = fl_size f.
Proof.
  induction d as [|[k g] d IH]; cbn [same_filter]; [discriminate|]. destruct (text_eqb (fl_type g) (fl_type f) && (fl_size g =? fl_size f)%Z) eqn:E.
  - intros H. injection H as <-. apply andb_true_iff in E as [E1 E2]. apply text_eqb_eq in E1. apply Z.eqb_eq in E2. exists k, g. repeat split; auto. now left.
  - intros H. destruct (IH H) as (k' & g' & I & R). exists k', g'. split; [now right|exact R].
Qed.
Lemma same_filter_None d f : same_filter d f = None -> forall k g, In (k, g) d -> fl_type g = fl_type f -> fl_size g = fl_size f -> False.
Proof.
  induction d as [|[k g] d IH]; cbn [same_filter]; [intros _ ? ? []|]. destruct (text_eqb (fl_type g) (fl_type f) && (fl_size g =? fl_size f)%Z) eqn:E; [discriminate|].
  intros H k' g' [I|I] A B; [|exact (IH H k' g' I A B)]. injection I as -> ->. rewrite (proj2 (text_eqb_eq _ _) A), B, Z.eqb_refl in E. discriminate.
Qed.

(** ** The network *)
Section Net.
Variable chs : list (list fil).
Hypothesis KT : known_types chs.
Hypothesis NT : names_tell chs.
Hypothesis ST : sizes_tell chs.
Hypothesis UD : undecimated chs.
Hypothesis NW : names_without_type chs.
Hypothesis AH : at_most_hundred chs.

Definition by_name (k : text) (g : fil) : Prop :=
  exists s, stage_of chs s /\ ~ unnamed s /\ k = key_of (full_name s) /\ same_content g s.
Definition by_number (k : text) (g : fil) : Prop :=
  exists s m, stage_of chs s /\ unnamed s /\ same_content g s /\ m < 100 /\ k = num (fl_type s) m.
Definition numbered (E : fdict) (t : text) : Prop :=
  exists zs : list Z, NoDup zs /\ (forall z, In z zs -> exists f, stage_of chs f /\ unnamed f /\ fl_type f = t /\ fl_size f = z) /\
    (forall m, m < length zs -> exists g, fget (num t m) E = Some g /\ fl_type g = t /\ fl_size g = nth m zs 0%Z) /\
    (forall k, In k (map fst E) -> contains t k = true -> exists m, m < length zs /\ k = num t m).
Definition Inv (E : fdict) : Prop :=
  NoDup (map fst E) /\ (forall k g, In (k, g) E -> (by_name k g \/ by_number k g) /\ key_of (fl_name g) = k) /\
  (forall s, stage_of chs s -> unnamed s -> numbered E (fl_type s)).
Definition grows (E E' : fdict) : Prop := forall k g, fget k E = Some g -> exists g', fget k E' = Some g' /\ same_content g' g.
Definition holds (E : fdict) (k : text) (g : fil) : Prop := by_name k g \/ exists g', fget k E = Some g' /\ same_content g' g.

Lemma grows_refl E : grows E E. Proof. intros k g H. exists g. split; [exact H|apply content_refl]. Qed.
Lemma grows_trans A B C : grows A B -> grows B C -> grows A C.
Proof. intros X Y k g H. destruct (X k g H) as (g1 & H1 & C1). destruct (Y k g1 H1) as (g2 & H2 & C2). exists g2. split; [exact H2|]. eapply content_trans; eassumption. Qed.
Lemma holds_grows E E' k g : grows E E' -> holds E k g -> holds E' k g.
Proof. intros G [H|(g' & H & C)]; [now left|]. destruct (G k g' H) as (g2 & H2 & C2). right. exists g2. split; [exact H2|]. eapply content_trans; eassumption. Qed.
Lemma name_number k g h : by_name k g -> by_number k h -> False.
Proof.
  intros (s & S & N & -> & _) (u & m & U & Un & _ & L & E). pose proof (NW u s U S Un N) as C. rewrite E, num_contains in C. discriminate.
Qed.
Lemma by_name_unique k g h : by_name k g -> by_name k h -> same_content g h.
Proof.
  intros (s & S & N & E & C) (u & U & M & F & D). subst k. eapply content_trans; [exact C|]. apply content_sym in D. eapply content_trans; [|exact D]. now apply NT.
Qed.
Lemma holds_unique E k g h : Inv E -> holds E k g -> holds E k h -> same_content g h.
Proof.
  intros (ND & O & _) [A|(a & A & CA)] [B|(b & B & CB)].
  - exact (by_name_unique k g h A B).
  - destruct (O k b (fget_In _ _ _ B)) as [[H|H] _]; [|now destruct (name_number k g b A H)].
    eapply content_trans; [exact (by_name_unique k g b A H)|exact CB].
  - destruct (O k a (fget_In _ _ _ A)) as [[H|H] _]; [|now destruct (name_number k h a B H)].
    apply content_sym in CA. eapply content_trans; [exact CA|exact (by_name_unique k a h H B)].
  - rewrite A in B. injection B as <-. apply content_sym in CA. eapply content_trans; eassumption.
Qed.

(** Putting in a filter under a key it has. *)
Lemma put_Inv E k g : Inv E -> holds E k g -> (by_name k g \/ by_number k g) -> key_of (fl_name g) = k -> Inv (fset k g E) /\ grows E (fset k g E) /\ fget k (fset k g E) = Some g.
Proof.
  intros I H O K. pose proof I as (ND & IO & IN). assert (G : grows E (fset k g E)).
  { intros k' g' Hg. rewrite fget_fset. destruct (text_dec k' k) as [->|]; [|exists g'; split; [exact Hg|apply content_refl]].
    exists g. split; [reflexivity|]. apply (holds_unique E k); [exact I|exact H|]. right. exists g'. split; [exact Hg|apply content_refl]. }
  split; [|split; [exact G|rewrite fget_fset; destruct (text_dec k k); [reflexivity|contradiction]]].
  split; [now apply NoDup_fset|]. split.
  - intros k' g' Hi. apply (In_fget _ _ _ (NoDup_fset k g E ND)) in Hi. rewrite fget_fset in Hi. destruct (text_dec k' k) as [->|].
    + injection Hi as <-. split; assumption.
    + apply IO. now apply fget_In.
  - intros s S U. destruct (IN s S U) as (zs & N1 & N2 & N3 & N4). exists zs. split; [exact N1|]. split; [exact N2|]. split.
    + intros m Hm. destruct (N3 m Hm) as (g0 & G0 & T0 & S0). destruct (G _ _ G0) as (g1 & G1 & C1). exists g1. split; [exact G1|].
      destruct C1 as (C1 & _ & C2 & _). split; congruence.
    + intros k' Hk C. apply fset_keys in Hk as [->|Hk]; [|now apply N4].
      destruct H as [(q & Q & Qn & -> & _)|(g' & Hg & _)].
      * rewrite (NW s q S Q U Qn) in C. discriminate.
      * apply N4; [|exact C]. apply fget_key. now exists g'.
Qed.
(** The filters of a channel are added. *)
Definition chan_ok (E ch : fdict) : Prop :=
  NoDup (map fst ch) /\ forall k g, In (k, g) ch -> holds E k g /\ (by_name k g \/ by_number k g) /\ key_of (fl_name g) = k.
Lemma update_Inv ch : forall E, Inv E -> (forall k g, In (k, g) ch -> holds E k g /\ (by_name k g \/ by_number k g) /\ key_of (fl_name g) = k) ->
  Inv (fupdate E ch) /\ grows E (fupdate E ch) /\ forall k g, In (k, g) ch -> exists g', fget k (fupdate E ch) = Some g' /\ same_content g' g.
Proof.
  induction ch as [|[k g] ch IH]; intros E I H; cbn [fupdate fold_left fst snd]; [split; [exact I|split; [apply grows_refl|intros k g []]]|].
  destruct (H k g (or_introl eq_refl)) as (H1 & H2 & H3). destruct (put_Inv E k g I H1 H2 H3) as (I1 & G1 & F1).
  destruct (IH (fset k g E) I1) as (I2 & G2 & F2).
  { intros k' g' Hi. destruct (H k' g' (or_intror Hi)) as (A & B & C). split; [exact (holds_grows _ _ _ _ G1 A)|split; assumption]. }
  split; [exact I2|]. split; [exact (grows_trans _ _ _ G1 G2)|]. intros k' g' [Hi|Hi]; [|now apply F2].
  injection Hi as <- <-. exact (G2 k g F1).
Qed.

(** One stage. *)
Lemma stage_step E ch f E' ch' : Inv E -> chan_ok E ch -> stage_of chs f -> read_stage E ch f = (E', ch') ->
  Inv E' /\ grows E E' /\ chan_ok E' ch' /\ exists k g, ch' = fset k g ch /\ same_content g f /\ holds E' k g.
Proof.
  intros I C S R. pose proof I as (ND & IO & IN). unfold read_stage in R.
  assert (Put : forall E1 k g, Inv E1 -> grows E E1 -> holds E1 k g -> (by_name k g \/ by_number k g) -> key_of (fl_name g) = k -> chan_ok E1 (fset k g ch)).
  { intros E1 k g I1 G H O K. destruct C as [C1 C2]. split; [now apply NoDup_fset|]. intros k' g' Hi.
    apply (In_fget _ _ _ (NoDup_fset k g ch C1)) in Hi. rewrite fget_fset in Hi. destruct (text_dec k' k) as [->|].
    - injection Hi as <-. repeat split; assumption.
    - destruct (C2 k' g' (fget_In _ _ _ Hi)) as (A & B & D). split; [exact (holds_grows _ _ _ _ G A)|split; assumption]. }
  destruct (fl_name f) as [|c0 n0] eqn:Nm.
  - assert (U : unnamed f) by exact Nm. unfold add_filter_number in R. destruct (same_filter E f) as [n|] eqn:SF.
    + destruct (same_filter_Some E f n SF) as (k & g & Ig & Hn & Ht & Hs). destruct (IO k g Ig) as [O K].
      assert (CG : same_content g f).
      { destruct O as [(s & Ss & _ & _ & Cs)|(s & m & Ss & _ & Cs & _)]; apply content_sym; eapply content_trans; try (apply content_sym; exact Cs);
          apply ST; auto; destruct Cs as (Q1 & _ & Q2 & _); congruence. }
      assert (FR : fl_rate f = None) by (now apply UD). unfold full_name in R. cbn [fl_rate named fl_name] in R. rewrite FR in R. cbn [fl_name named] in R.
      rewrite <- Hn, K in R. injection R as <- <-. set (f2 := named (fl_name g) (named (fl_name g) f)) in *.
      assert (C2 : same_content f2 f) by (unfold same_content; auto).
      assert (C3 : same_content g f2) by (eapply content_trans; [exact CG|now apply content_sym]).
      assert (H2 : holds E k f2) by (right; exists g; split; [now apply In_fget|exact C3]).
      assert (O2 : by_name k f2 \/ by_number k f2).
      { destruct O as [(s & Ss & Sn & Ek & Cs)|(s & m & Ss & Sn & Cs & Lm & Ek)]; [left; exists s|right; exists s, m]; repeat split; auto;
          try (apply content_sym in C3; pose proof (content_trans _ _ _ C3 Cs) as (Q1 & Q2 & Q3 & Q4); congruence). }
      split; [exact I|]. split; [apply grows_refl|]. split; [apply Put; auto using grows_refl|]. exists k, f2. repeat split; auto.
    + pose proof (same_filter_None E f SF) as NF. destruct (IN f S U) as (zs & Z1 & Z2 & Z3 & Z4).
      assert (New : ~ In (fl_size f) zs).
      { intros Hz. apply (In_nth _ _ 0%Z) in Hz as (m & Lm & Em). destruct (Z3 m Lm) as (g & Hg & Tg & Sg). apply (NF (num (fl_type f) m) g); [now apply fget_In|exact Tg|congruence]. }
      assert (LZ : length zs < 100).
      { pose proof (AH (fl_type f) (fl_size f :: zs)) as L. cbn [length] in L. apply L; [now constructor|]. intros z [<-|Hz]; [exists f; auto|now apply Z2]. }
      assert (NN : next_name E (fl_type f) = num (fl_type f) (length zs)).
      { apply next_name_num; [exact LZ|exact Z4|]. intros m Hm. apply fget_key. destruct (Z3 m Hm) as (g & Hg & _). now exists g. }
      rewrite NN in R. assert (FR : fl_rate f = None) by (now apply UD). unfold full_name in R. cbn [fl_rate named fl_name] in R. rewrite FR in R. cbn [fl_name named] in R.
      set (k := num (fl_type f) (length zs)) in *. assert (Kk : key_of k = k) by (apply num_key; [now apply KT|exact LZ]). rewrite Kk in R. injection R as <- <-.
      set (f2 := named k (named k f)) in *. assert (C2 : same_content f2 f) by (unfold same_content; auto).
      assert (Fresh : ~ In k (map fst E)).
      { intros Hk. destruct (Z4 k Hk (num_contains _ _)) as (m & Lm & Em). apply num_inj in Em; lia. }
      assert (O2 : by_number k f2) by (exists f, (length zs); repeat split; auto; try apply C2).
      assert (G : grows E (fset k f2 E)).
      { intros k' g' Hg. rewrite fget_fset. destruct (text_dec k' k) as [->|]; [destruct Fresh; apply fget_key; now exists g'|]. exists g'. split; [exact Hg|apply content_refl]. }
      assert (Fk : fget k (fset k f2 E) = Some f2) by (rewrite fget_fset; destruct (text_dec k k); [reflexivity|contradiction]).
      assert (I2 : Inv (fset k f2 E)).
      { split; [now apply NoDup_fset|]. split.
        - intros k' g' Hi. apply (In_fget _ _ _ (NoDup_fset k f2 E ND)) in Hi. rewrite fget_fset in Hi. destruct (text_dec k' k) as [->|].
          + injection Hi as <-. split; [now right|exact Kk].
          + apply IO. now apply fget_In.
        - intros s Ss Us. destruct (text_dec (fl_type s) (fl_type f)) as [Et|Nt].
          + rewrite Et. exists (zs ++ [fl_size f]). split; [apply NoDup_app_snoc; assumption|]. split.
            { intros z Hz. apply in_app_iff in Hz as [Hz|[<-|[]]]; [now apply Z2|exists f; auto]. }
            rewrite app_length. cbn [length]. split.
            * intros m Hm. destruct (Nat.eq_dec m (length zs)) as [->|Ne].
              { exists f2. split; [exact Fk|]. split; [reflexivity|]. rewrite app_nth2, Nat.sub_diag by lia. reflexivity. }
              destruct (Z3 m ltac:(lia)) as (g & Hg & Tg & Sg). exists g. rewrite fget_fset.
              destruct (text_dec (num (fl_type f) m) k) as [Ek|_]; [apply num_inj in Ek; lia|]. split; [exact Hg|]. split; [exact Tg|]. rewrite app_nth1 by lia. exact Sg.
            * intros k' Hk Ck. apply fset_keys in Hk as [->|Hk]; [exists (length zs); split; [lia|reflexivity]|].
              destruct (Z4 k' Hk Ck) as (m & Lm & Em). exists m. split; [lia|exact Em].
          + destruct (IN s Ss Us) as (ys & Y1 & Y2 & Y3 & Y4). exists ys. split; [exact Y1|]. split; [exact Y2|]. split.
            * intros m Hm. destruct (Y3 m Hm) as (g & Hg & Rg). exists g. split; [|exact Rg]. rewrite fget_fset. destruct (text_dec (num (fl_type s) m) k) as [Ek|_]; [|exact Hg].
              destruct Fresh. rewrite <- Ek. apply fget_key. now exists g.
            * intros k' Hk Ck. apply fset_keys in Hk as [->|Hk]; [|now apply Y4]. destruct Nt. apply (num_type _ _ (length zs)); auto. }
      split; [exact I2|]. split; [exact G|]. assert (H2 : holds (fset k f2 E) k f2) by (right; exists f2; split; [exact Fk|apply content_refl]).
      split; [apply Put; auto|]. exists k, f2. repeat split; auto.
  - assert (U : ~ unnamed f) by (unfold unnamed; rewrite Nm; discriminate). injection R as <- <-. set (f2 := named (full_name f) f).
    assert (C2 : same_content f2 f) by apply content_named. assert (O2 : by_name (key_of (full_name f)) f2) by (exists f; auto).
    split; [exact I|]. split; [apply grows_refl|]. split; [apply Put; auto using grows_refl; now left|].
    exists (key_of (full_name f)), f2. split; [reflexivity|]. split; [exact C2|now left].
Qed.

(** The stages of a channel. *)
Definition puts (ch : fdict) (f : fil) : Prop := exists k g, In (k, g) ch /\ same_content g f.
Lemma stages_Inv l : forall E ch E' ch', Inv E -> chan_ok E ch -> (forall f, In f l -> stage_of chs f) -> read_stages E ch l = (E', ch') ->
  Inv E' /\ grows E E' /\ chan_ok E' ch' /\
  (forall f, In f l \/ puts ch f -> puts ch' f) /\
  (forall k g, In (k, g) ch' -> (exists k' g', In (k', g') ch /\ same_content g' g) \/ exists f, In f l /\ same_content g f) /\
  (forall done, Forall2 (fun f kv => same_content (snd kv) f) done ch -> all_different (done ++ l) ->
     Forall2 (fun f kv => same_content (snd kv) f) (done ++ l) ch').
Proof.
  induction l as [|f l IH]; intros E ch E' ch' I C S R; cbn [read_stages] in R.
  - injection R as <- <-. split; [exact I|]. split; [apply grows_refl|]. split; [exact C|]. split; [intros f [[]|H]; exact H|].
    split; [intros k g H; left; exists k, g; split; [exact H|apply content_refl]|]. intros done F _. now rewrite app_nil_r.
  - destruct (read_stage E ch f) as [E1 ch1] eqn:Q. destruct (stage_step E ch f E1 ch1 I C (S f (or_introl eq_refl)) Q) as (I1 & G1 & C1 & k & g & -> & Cg & Hg).
    destruct (IH E1 (fset k g ch) E' ch' I1 C1 (fun x H => S x (or_intror H)) R) as (I2 & G2 & C2 & P2 & B2 & O2).
    assert (Old : forall k' g', In (k', g') ch -> k' = k -> same_content g' g).
    { intros k' g' Hi ->. destruct C as [_ C]. destruct (C k g' Hi) as (Hh & _). apply (holds_unique E1 k); [exact I1|exact (holds_grows _ _ _ _ G1 Hh)|exact Hg]. }
    assert (NC : NoDup (map fst ch)) by apply C. assert (NC1 : NoDup (map fst (fset k g ch))) by apply C1.
    assert (Ing : In (k, g) (fset k g ch)) by (apply fget_In; rewrite fget_fset; destruct (text_dec k k); [reflexivity|contradiction]).
    assert (Bk : forall k' g', In (k', g') (fset k g ch) -> (k', g') = (k, g) \/ In (k', g') ch).
    { intros k' g' Hi. apply (In_fget _ _ _ NC1) in Hi. rewrite fget_fset in Hi. destruct (text_dec k' k) as [->|]; [left; congruence|right; now apply fget_In]. }
    split; [exact I2|]. split; [exact (grows_trans _ _ _ G1 G2)|]. split; [exact C2|]. split; [|split].
    + intros x [[<-|H]|(k' & g' & Hi & Cx)].
      * apply P2. right. exists k, g. auto.
      * apply P2. now left.
      * apply P2. right. destruct (text_dec k' k) as [Ek|Nk].
        -- exists k, g. split; [exact Ing|]. eapply content_trans; [|exact Cx]. apply content_sym. exact (Old k' g' Hi Ek).
        -- exists k', g'. split; [|exact Cx]. apply fget_In. rewrite fget_fset. destruct (text_dec k' k); [contradiction|]. now apply In_fget.
    + intros k' g' Hi. destruct (B2 k' g' Hi) as [(k2 & g2 & H2 & Cg2)|(x & Hx & Cx)]; [|right; exists x; split; [now right|exact Cx]].
      destruct (Bk k2 g2 H2) as [Eq|H3]; [|left; exists k2, g2; auto]. injection Eq as -> ->. right. exists f. split; [now left|].
      apply content_sym in Cg2. eapply content_trans; eassumption.
    + intros done F T. replace (done ++ f :: l) with ((done ++ [f]) ++ l) in * by (rewrite <- app_assoc; reflexivity). apply O2; [|exact T].
      assert (Fr : ~ In k (map fst ch)).
      { intros Hk. apply fget_key in Hk as [g' Hg']. apply fget_In in Hg'. pose proof (Old k g' Hg' eq_refl) as Cc.
        assert (X : exists x, In x done /\ same_content g' x).
        { clear -F Hg'. induction F as [|x kv done ch Cx F IH]; [destruct Hg'|]. destruct Hg' as [->|H]; [exists x; split; [now left|exact Cx]|].
          destruct (IH H) as (y & Hy & Cy). exists y. split; [now right|exact Cy]. }
        destruct X as (x & Hx & Cx). unfold all_different in T. rewrite <- app_assoc in T. clear -T Hx Cx Cc Cg. induction done as [|d done IH]; [destruct Hx|]. cbn in T. inversion T as [|? ? F T']; subst.
        destruct Hx as [->|Hx]; [|now apply IH]. rewrite Forall_forall in F. apply (F f); [apply in_app_iff; right; now left|].
        apply content_sym in Cx. eapply content_trans; [exact Cx|]. eapply content_trans; eassumption. }
      assert (Eq : fset k g ch = ch ++ [(k, g)]) by (unfold fset; apply dset_notin; exact Fr). rewrite Eq. apply Forall2_app; [exact F|]. constructor; [exact Cg|constructor].
Qed.
(** The channels of a network. *)
Definition kept (E : fdict) (stages : list fil) (ch : fdict) : Prop :=
  (forall f, In f stages -> exists k, In k (map fst ch) /\ finds ch k f /\ finds E k f) /\
  (forall k, In k (map fst ch) -> exists f, In f stages /\ finds ch k f /\ finds E k f) /\
  (all_different stages -> Forall2 (fun f kv => same_content (snd kv) f /\ finds E (fst kv) f) stages ch).
Lemma kept_grows E E' st ch : grows E E' -> kept E st ch -> kept E' st ch.
Proof.
  intros G (A & B & C). assert (F : forall k f, finds E k f -> finds E' k f).
  { intros k f (g & Hg & Cg). destruct (G k g Hg) as (g' & Hg' & Cg'). exists g'. split; [exact Hg'|]. eapply content_trans; eassumption. }
  split; [intros f Hf; destruct (A f Hf) as (k & K1 & K2 & K3); exists k; auto|]. split; [intros k Hk; destruct (B k Hk) as (f & K1 & K2 & K3); exists f; auto|].
  intros T. specialize (C T). clear -C F. induction C as [|f kv st ch [X Y] C IH]; constructor; auto.
Qed.
Lemma channel_kept E st E' ch : Inv E -> (forall f, In f st -> stage_of chs f) -> read_channel E st = (E', ch) ->
  Inv E' /\ grows E E' /\ kept E' st ch.
Proof.
  intros I S R. unfold read_channel in R. destruct (read_stages E [] st) as [E1 ch1] eqn:Q. injection R as <- <-.
  assert (C0 : chan_ok E []) by (split; [constructor|intros k g []]).
  destruct (stages_Inv st E [] E1 ch1 I C0 S Q) as (I1 & G1 & C1 & P1 & B1 & O1). pose proof C1 as [N1 H1].
  destruct (update_Inv ch1 E1 I1 H1) as (I2 & G2 & F2). split; [exact I2|]. split; [exact (grows_trans _ _ _ G1 G2)|].
  assert (Fd : forall k g f, In (k, g) ch1 -> same_content g f -> finds ch1 k f /\ finds (fupdate E1 ch1) k f).
  { intros k g f Hi Cf. split; [exists g; split; [now apply In_fget|exact Cf]|]. destruct (F2 k g Hi) as (g' & Hg' & Cg'). exists g'. split; [exact Hg'|]. eapply content_trans; eassumption. }
  split; [|split].
  - intros f Hf. destruct (P1 f (or_introl Hf)) as (k & g & Hi & Cf). exists k. split; [apply in_map_iff; now exists (k, g)|]. exact (Fd k g f Hi Cf).
  - intros k Hk. apply in_map_iff in Hk as ([k' g] & <- & Hi). cbn [fst]. destruct (B1 k' g Hi) as [(? & ? & [] & _)|(f & Hf & Cf)]. exists f. split; [exact Hf|]. exact (Fd k' g f Hi Cf).
  - intros T. pose proof (O1 [] (Forall2_nil _) T) as O. cbn [app] in O.
    assert (A : forall kv, In kv ch1 -> forall f, same_content (snd kv) f -> finds (fupdate E1 ch1) (fst kv) f) by (intros [k g] Hi f Cf; exact (proj2 (Fd k g f Hi Cf))).
    revert A. clear -O. generalize (fupdate E1 ch1). intros E. induction O as [|f kv st ch Cf O IH]; intros A; constructor; [split; [exact Cf|apply A; [now left|exact Cf]]|].
    apply IH. intros kv' Hi. apply A. now right.
Qed.
Lemma network_kept cs : forall E E' l, Inv E -> (forall c, In c cs -> In c chs) -> read_network E cs = (E', l) ->
  Inv E' /\ grows E E' /\ Forall2 (kept E') cs l.
Proof.
  induction cs as [|c cs IH]; intros E E' l I S R; cbn [read_network] in R.
  - injection R as <- <-. split; [exact I|]. split; [apply grows_refl|constructor].
  - destruct (read_channel E c) as [E1 ch] eqn:Q1. destruct (read_network E1 cs) as [E2 l2] eqn:Q2. injection R as <- <-.
    destruct (channel_kept E c E1 ch I (fun f H => ex_intro _ c (conj (S c (or_introl eq_refl)) H)) Q1) as (I1 & G1 & K1).
    destruct (IH E1 E2 l2 I1 (fun x H => S x (or_intror H)) Q2) as (I2 & G2 & K2). split; [exact I2|]. split; [exact (grows_trans _ _ _ G1 G2)|].
    constructor; [exact (kept_grows _ _ _ _ G2 K1)|exact K2].
Qed.
Lemma Inv_nil : Inv [].
Proof.
  split; [constructor|]. split; [intros k g []|]. intros s _ _. exists []. split; [constructor|]. split; [intros z []|]. split; [cbn; lia|]. intros k [].
Qed.
End Net.
