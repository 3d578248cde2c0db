From Verif Require Import PyBase PyFacts PyText TextFacts EnumModel EnumSpec LicenseData.

Lemma find_Some_first {A} (f : A -> bool) l x : List.find f l = Some x -> In x l /\ f x = true.
Proof. apply find_some. Qed.
Lemma find_ext' {A} (f g : A -> bool) l : (forall x, f x = g x) -> List.find f l = List.find g l.
Proof. intros H. induction l as [|x l IH]; cbn; [reflexivity|]. now rewrite H, IH. Qed.
Lemma existsb_text m l : existsb (text_eqb m) l = true <-> In m l.
Proof.
  rewrite existsb_exists. split.
  - intros (x & I & E). apply text_eqb_eq in E. now subst.
  - intros I. exists m. split; [assumption|apply text_eqb_refl].
Qed.

Lemma same_letter_lower a b : same_letter a b <-> to_lower a = to_lower b.
Proof.
  assert (G : forall a b, Bool.eqb (Ascii.eqb a b || (is_upper a && (code b =? code a + 32)%N) || (is_upper b && (code a =? code b + 32)%N))
     (Ascii.eqb (to_lower a) (to_lower b)) = true).
  { intros x. apply (ascii_forall (fun y => Bool.eqb (Ascii.eqb x y || (is_upper x && (code y =? code x + 32)%N) || (is_upper y && (code x =? code y + 32)%N))
     (Ascii.eqb (to_lower x) (to_lower y)))). revert x.
    apply (ascii_forall (fun x => forallb (fun y => Bool.eqb (Ascii.eqb x y || (is_upper x && (code y =? code x + 32)%N) || (is_upper y && (code x =? code y + 32)%N))
     (Ascii.eqb (to_lower x) (to_lower y))) all_ascii)). vm_compute. reflexivity. }
  specialize (G a b). apply eqb_prop in G. rewrite <- Ascii.eqb_eq, <- G.
  rewrite !orb_true_iff, !andb_true_iff, !N.eqb_eq, Ascii.eqb_eq. unfold same_letter. tauto.
Qed.
Lemma case_variant_lower s t : case_variant s t <-> lower s = lower t.
Proof.
  unfold case_variant, lower. split.
  - induction 1 as [|a b s t H _ IH]; cbn; [reflexivity|]. apply same_letter_lower in H. now rewrite H, IH.
  - revert t. induction s as [|a s IH]; intros [|b t] H; cbn in H; try discriminate; constructor.
    + apply same_letter_lower. now injection H.
    + apply IH. now injection H.
Qed.

Lemma find_unique s m l : NoDup (map lower l) -> In m l -> lower s = lower m -> List.find (matches s) l = Some m.
Proof.
  induction l as [|x l IH]; intros N I E; [destruct I|]. cbn [List.find]. inversion N as [|? ? N1 N2]; subst.
  unfold matches at 1. destruct (text_eqb (lower s) (lower x)) eqn:B.
  - apply text_eqb_eq in B. destruct I as [->|I]; [reflexivity|].
    exfalso. apply N1. rewrite <- B, E. now apply in_map.
  - destruct I as [->|I]; [|now apply IH]. rewrite E, text_eqb_refl in B. discriminate.
Qed.

Fixpoint nodupb (l : list text) : bool :=
  match l with [] => true | x :: r => negb (existsb (text_eqb x) r) && nodupb r end.
Lemma nodupb_NoDup l : nodupb l = true -> NoDup l.
Proof.
  induction l as [|x l IH]; cbn; intros H; [constructor|]. apply andb_true_iff in H. destruct H as [A B].
  constructor; [|auto]. apply negb_true_iff in A. intros I. apply existsb_text in I. congruence.
Qed.
Lemma enumerations_distinct : forallb (fun l => nodupb (map lower l)) enumerations = true.
Proof. vm_compute. reflexivity. Qed.

(** *** licences *)
Lemma under_sep a b : under a = under b <-> a = b \/ (separator a /\ separator b).
Proof.
  assert (S : forall c, separator c <-> existsb (Ascii.eqb c) ["-"%char; " "%char; "."%char; "("%char; ")"%char; "/"%char; ":"%char; "_"%char] = true).
  { intros c. rewrite existsb_exists. unfold separator. split.
    - intros I. exists c. split; [assumption|apply Ascii.eqb_refl].
    - intros (x & I & E). apply Ascii.eqb_eq in E. now subst. }
  rewrite !S.
  assert (G : forall a b, Bool.eqb (Ascii.eqb (under a) (under b))
    (Ascii.eqb a b || (existsb (Ascii.eqb a) ["-"%char; " "%char; "."%char; "("%char; ")"%char; "/"%char; ":"%char; "_"%char] &&
       existsb (Ascii.eqb b) ["-"%char; " "%char; "."%char; "("%char; ")"%char; "/"%char; ":"%char; "_"%char])) = true).
  { intros x y.
    pose proof (ascii_forall (fun x => forallb (fun y => Bool.eqb (Ascii.eqb (under x) (under y))
    (Ascii.eqb x y || (existsb (Ascii.eqb x) ["-"%char; " "%char; "."%char; "("%char; ")"%char; "/"%char; ":"%char; "_"%char] &&
       existsb (Ascii.eqb y) ["-"%char; " "%char; "."%char; "("%char; ")"%char; "/"%char; ":"%char; "_"%char]))) all_ascii)
       ltac:(vm_compute; reflexivity) x) as H. rewrite forallb_forall in H. apply H, all_ascii_In. }
  specialize (G a b). apply eqb_prop in G. rewrite <- Ascii.eqb_eq, G, orb_true_iff, andb_true_iff, Ascii.eqb_eq. tauto.
Qed.
Lemma same_spelling_name s t : same_spelling s t <-> license_name s = license_name t.
Proof.
  unfold same_spelling, license_name. split.
  - induction 1 as [|a b s t H _ IH]; cbn; [reflexivity|]. apply under_sep in H. now rewrite H, IH.
  - revert t. induction s as [|a s IH]; intros [|b t] H; cbn in H; try discriminate; constructor.
    + apply under_sep. now injection H.
    + apply IH. now injection H.
Qed.

Lemma dupdate_snoc {K V} eqd (d : list (K * V)) l k v :
  dupdate eqd d (l ++ [(k, v)]) = dset eqd k v (dupdate eqd d l).
Proof. unfold dupdate. now rewrite fold_left_app. Qed.

Lemma base_names_of : map fst base_licenses =
  map license_name [txt "CC-0"; txt "CC0"; txt "CC BY"; txt "CC BY-SA"; txt "CC BY-NC"; txt "CC BY-NA-SA"; txt "CC BY-ND"; txt "CC BY-NC-ND"].
Proof. vm_compute. reflexivity. Qed.
Lemma base_NoDup : NoDup (map fst base_licenses).
Proof. apply nodupb_NoDup. vm_compute. reflexivity. Qed.
Lemma names_NoDup ids : distinct_spellings ids -> NoDup (map license_name ids).
Proof.
  intros (A & N & _). assert (G : forall l, incl l ids -> NoDup l -> NoDup (map license_name l)).
  { induction l as [|x l IH]; intros I D; cbn; [constructor|]. inversion D as [|? ? D1 D2]; subst. constructor.
    - intros C. apply in_map_iff in C. destruct C as (y & E & Y). apply D1.
      assert (x = y); [|now subst]. apply A; [apply I; now left|apply I; now right|]. apply same_spelling_name. congruence.
    - apply IH; [intros z Z; apply I; now right|assumption]. }
  now apply G.
Qed.
Lemma license_members_eq ids : distinct_spellings ids ->
  license_members ids = base_licenses ++ map (fun i => (license_name i, i)) ids.
Proof.
  intros D. unfold license_members. rewrite (dupdate_nil text_dec base_licenses base_NoDup).
  apply dupdate_fresh; unfold dkeys; rewrite map_map; cbn [fst].
  - now apply names_NoDup.
  - intros k Hk C. destruct D as (_ & _ & B & _). apply in_map_iff in Hk. destruct Hk as (i & <- & I).
    rewrite base_names_of in C. apply in_map_iff in C. destruct C as (b & E & Bb).
    apply (B i b I); [|apply same_spelling_name; congruence].
    cbn [In] in *. tauto.
Qed.
