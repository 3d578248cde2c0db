(** C129: a text given for an array becomes the numbers in it. *)
From Verif Require Import PyBase PyFacts PyText TextFacts PyNum PyFloat PyFloatFacts IsoModel AvgText ArrModel ArrSpec ArrProofs.
From Coq Require Import Lia.
Local Open Scope nat_scope.
Local Open Scope list_scope.

Lemma after_numerals r l : after r l -> Forall numeral l.
Proof. induction 1 as [|s n r l _ N _ IH]; constructor; assumption. Qed.
Lemma floats_numerals l : Forall numeral l -> exists xs, Forall2 (fun n x => read_float n = Some (Fin x)) l xs /\ floats l = map Fin xs.
Proof.
  induction 1 as [|n l N _ (xs & F & E)]; [exists []; split; [constructor|reflexivity]|]. destruct (numeral_reads n N) as (q & Q). exists (q :: xs). split; [constructor; assumption|]. cbn [floats map]. rewrite Q, E. reflexivity.
Qed.
Lemma text_cases s l : holds_numbers s l -> read_float s = None \/ exists n, l = [n] /\ read_float s = read_float n.
Proof.
  intros [s0 n r l0 A0 F0 N R]. destruct (numeral_digit n N) as (d & DI & DD). assert (DS : exists d, In d (s0 ++ n ++ r) /\ is_digit d = true) by (exists d; split; [rewrite !in_app_iff; tauto|exact DD]).
  destruct A0 as (D0 & A0). destruct R as [tl (D1 & A1)|s1 n2 r l1 (D1 & (c & CI & CF) & _) N2 R].
  - destruct A0 as [B0|(c & CI & CF & CS)]; [|left; apply (foreign_not_float _ c); [apply in_strip; [rewrite !in_app_iff; tauto|exact CS]|exact CF|exact DS]].
    destruct A1 as [B1|(c & CI & CF & CS)]; [|left; apply (foreign_not_float _ c); [apply in_strip; [rewrite !in_app_iff; tauto|exact CS]|exact CF|exact DS]].
    right. exists n. split; [reflexivity|]. rewrite <- (read_strip (s0 ++ n ++ tl)), <- (read_strip n). f_equal.
    rewrite (strip_number n (numeral_chars n N)). unfold strip. rewrite (lstrip_spaces _ _ B0). destruct (numeral_nonempty n N) as (x & t & ->). pose proof (numeral_chars _ N) as C. cbn [forallb] in C. apply andb_true_iff in C. destruct C as (X & _). change ((x :: t) ++ tl) with (x :: t ++ tl). cbn [lstrip]. rewrite (number_char_space x X). change (x :: t ++ tl) with ((x :: t) ++ tl). rewrite (rstrip_spaces _ _ B1). pose proof (strip_number (x :: t) (numeral_chars _ N)) as E. unfold strip in E. cbn [lstrip] in E. rewrite (number_char_space x X) in E. exact E.
  - left. destruct (numeral_digit n2 N2) as (d2 & DI2 & DD2). apply (foreign_not_float _ c); [|exact CF|exact DS].
    rewrite (app_assoc s0 n). apply (in_strip_mid (s0 ++ n) s1 (n2 ++ r) c d d2); [rewrite in_app_iff; tauto|exact (digit_space d DD)|rewrite in_app_iff; tauto|exact (digit_space d2 DD2)|exact CI].
Qed.
Lemma holds_digit s l : holds_numbers s l -> has_numbers s = true /\ existsb (text_eqb s) [[]; txt "none"; txt "None"] = false /\ nonempty (strip s) = true.
Proof.
  intros [s0 n r l0 _ _ N _]. destruct (numeral_digit n N) as (d & DI & DD). assert (I : In d (s0 ++ n ++ r)) by (rewrite !in_app_iff; tauto). split; [|split].
  - apply existsb_exists. exists d. split; assumption.
  - destruct (existsb _ _) eqn:E; [exfalso|reflexivity]. apply existsb_exists in E. destruct E as (w & W & E). apply text_eqb_eq in E. rewrite E in I. cbn in W. destruct W as [<-|[<-|[<-|[]]]]; cbn in I; repeat (destruct I as [I|I]; [subst d; discriminate DD|]); exact I.
  - pose proof (in_strip d _ I (digit_space d DD)) as J. destruct (strip (s0 ++ n ++ r)); [destruct J|reflexivity].
Qed.

(** A text with numbers, written as usual, becomes the array of what float makes of each, in their order, for both types of array. *)
Theorem C129_text s ns t : holds_numbers s ns -> exists xs, Forall2 (fun n x => read_float n = Some (Fin x)) ns xs /\ object_to_array (IText s) t = Ok (map (fun x => Real (Fin x)) xs).
Proof.
  intros H. destruct (holds_digit s ns H) as (D & W & NE). assert (NS : Forall numeral ns) by (destruct H as [s0 n r l0 _ _ N A]; constructor; [exact N|exact (after_numerals r l0 A)]).
  unfold object_to_array, is_numeric_string. rewrite W, D. cbn [negb andb]. destruct (text_cases s ns H) as [R|(n & -> & R)].
  - rewrite R. cbn [negb]. unfold extract_numbers. rewrite (find_holds s ns H). destruct (floats_numerals ns NS) as (xs & F & ->). exists xs. split; [exact F|]. rewrite map_map. reflexivity.
  - rewrite R. apply Forall_inv in NS. destruct (numeral_reads n NS) as (q & Q). rewrite Q, NE. cbn [negb]. exists [q]. split; [constructor; [exact Q|constructor]|reflexivity].
Qed.
Example C129_text_hyp : holds_numbers (txt "[1.5, -2e3,.25 ]") [txt "1.5"; txt "-2e3"; txt ".25"] /\
  object_to_array (IText (txt "[1.5, -2e3,.25 ]")) FloatType = Ok (map (fun x => Real (Fin x)) [(15 # 1) * Qpower (10 # 1) (-1); ((-2) # 1) * Qpower (10 # 1) 3; (25 # 1) * Qpower (10 # 1) (-2)]%Q).
Proof.
  split; [|reflexivity].
  assert (D : forall s, nonempty s = true -> forallb is_digit s = true -> digits s) by (intros [|c s] N F; [discriminate N|split; [discriminate|exact F]]).
  apply (starts (txt "[") (txt "1.5") (txt ", -2e3,.25 ]")).
  - split; [reflexivity|]. right. exists "["%char. split; [left; reflexivity|]. split; [|reflexivity]. split; [reflexivity|]. cbn. intros X. repeat (destruct X as [X|X]; [discriminate X|]). exact X.
  - intros [|x r] c E; [injection E as <-|destruct r; discriminate E]. cbn. intros X. repeat (destruct X as [X|X]; [discriminate X|]). exact X.
  - apply (written [] (txt "1") (txt ".5") []); [constructor|reflexivity|apply (decimals (txt "5")), D; reflexivity|left; discriminate|constructor].
  - apply (goes_on (txt ", ") (txt "-2e3") (txt ",.25 ]")).
    + split; [reflexivity|]. split.
      * exists ","%char. split; [left; reflexivity|]. split; [reflexivity|]. cbn. intros X. repeat (destruct X as [X|X]; [discriminate X|]). exact X.
      * intros [|x [|y r]] c E; [discriminate E|injection E as _ <-|destruct r; discriminate E]. cbn. intros X. repeat (destruct X as [X|X]; [discriminate X|]). exact X.
    + apply (written (txt "-") (txt "2") [] (txt "e3")); [constructor|reflexivity|constructor|left; discriminate|apply (power (txt "e") [] (txt "3")); [left; reflexivity|constructor|apply D; reflexivity]].
    + apply (goes_on (txt ",") (txt ".25") (txt " ]") []).
      * split; [reflexivity|]. split.
        -- exists ","%char. split; [left; reflexivity|]. split; [reflexivity|]. cbn. intros X. repeat (destruct X as [X|X]; [discriminate X|]). exact X.
        -- intros [|x r] c E; [injection E as <-|destruct r; discriminate E]. cbn. intros X. repeat (destruct X as [X|X]; [discriminate X|]). exact X.
      * apply (written [] [] (txt ".25") []); [constructor|reflexivity|apply (decimals (txt "25")), D; reflexivity|right; discriminate|constructor].
      * apply ends. split; [reflexivity|]. right. exists "]"%char. split; [right; left; reflexivity|]. split; [|reflexivity]. split; [reflexivity|]. cbn. intros X. repeat (destruct X as [X|X]; [discriminate X|]). exact X.
Qed.

(** A text without digits is refused, unless it is empty, none or None, which give an empty array, or float takes it (nan and inf). *)
Theorem C129_no_digits s t : no_digits s ->
  object_to_array (IText s) t =
  (if existsb (text_eqb s) [[]; txt "none"; txt "None"] then Ok [] else match read_float s with Some x => Ok [Real x] | None => Err TypeError end).
Proof.
  intros D. assert (H : has_numbers s = false) by (unfold has_numbers; apply not_true_is_false; intros X; apply existsb_exists in X; destruct X as (c & I & C); unfold no_digits in D; rewrite forallb_forall in D; specialize (D c I); rewrite C in D; discriminate D).
  unfold object_to_array, is_numeric_string. rewrite H. destruct (existsb _ _); [reflexivity|]. destruct (read_float s) as [x|] eqn:R; [|reflexivity]. assert (N : nonempty (strip s) = true).
  { destruct (strip s) eqn:E; [|reflexivity]. rewrite <- read_strip, E in R. discriminate R. } rewrite N. reflexivity.
Qed.
Example C129_no_digits_hyp : object_to_array (IText (txt "nan")) FloatType = Ok [Real NonFinite] /\ object_to_array (IText (txt "None")) FloatType = Ok [] /\ object_to_array (IText (txt "x, y")) FloatType = Err TypeError.
Proof. vm_compute. repeat split; reflexivity. Qed.

(** Lists, numbers and None: the same elements; only a complex number in a list of floats is refused. *)
Theorem C129_list l : object_to_array (IList l) ComplexType = Ok l /\ (object_to_array (IList l) FloatType = Ok l <-> forall re im, ~ In (Cplx re im) l) /\
  (object_to_array (IList l) FloatType <> Ok l -> object_to_array (IList l) FloatType = Err TypeError).
Proof.
  split; [reflexivity|]. cbn [object_to_array]. destruct (forallb is_real l) eqn:F.
  - split; [|intros X; contradiction X; reflexivity]. split; [|reflexivity]. intros _ re im I. rewrite forallb_forall in F. discriminate (F _ I).
  - split; [|reflexivity]. split; [discriminate|]. intros H. exfalso. assert (X : forallb is_real l = true); [|rewrite X in F; discriminate F]. apply forallb_forall. intros [x|re im] I; [reflexivity|destruct (H re im I)].
Qed.
Example C129_list_hyp : object_to_array (IList [Real (Fin 1)]) FloatType = Ok [Real (Fin 1)] /\ object_to_array (IList [Cplx (Fin 1) (Fin 1)]) FloatType = Err TypeError.
Proof. split; reflexivity. Qed.

(** Boundaries.  A complex number in a text becomes two real ones, for poles and zeros too: whatever the numerals. *)
Theorem C129_complex_refuted n m : numeral n -> numeral (txt "+" ++ m) ->
  exists x y, read_float n = Some (Fin x) /\ read_float (txt "+" ++ m) = Some (Fin y) /\ object_to_array (IText (n ++ txt "+" ++ m ++ txt "j")) ComplexType = Ok [Real (Fin x); Real (Fin y)].
Proof.
  intros N M. destruct (numeral_reads n N) as (x & X). destruct (numeral_reads _ M) as (y & Y). exists x, y. split; [exact X|]. split; [exact Y|].
  destruct (numeral_digit n N) as (d & DI & DD). set (s := n ++ txt "+" ++ m ++ txt "j").
  assert (I : In d s) by (unfold s; rewrite in_app_iff; tauto). assert (JI : In "j"%char s) by (unfold s; rewrite !in_app_iff; cbn; tauto).
  assert (F : foreign "j"%char) by (split; [reflexivity|]; cbn; intros Z; repeat (destruct Z as [Z|Z]; [discriminate Z|]); exact Z).
  assert (R : read_float s = None) by (apply (foreign_not_float s "j"%char); [apply in_strip; [exact JI|reflexivity]|exact F|exists d; split; assumption]).
  assert (HN : has_numbers s = true) by (apply existsb_exists; exists d; split; assumption).
  assert (W : existsb (text_eqb s) [[]; txt "none"; txt "None"] = false).
  { destruct (existsb _ _) eqn:E; [exfalso|reflexivity]. apply existsb_exists in E. destruct E as (w & W & E). apply text_eqb_eq in E. rewrite E in JI. cbn in W. destruct W as [<-|[<-|[<-|[]]]]; cbn in JI; repeat (destruct JI as [JI|JI]; [discriminate JI|]); exact JI. }
  unfold object_to_array, is_numeric_string. rewrite W, HN, R. cbn [negb andb]. unfold extract_numbers, s.
  rewrite (find_numeral n _ N).
  - rewrite (app_assoc (txt "+") m), (find_numeral _ (txt "j") M (stops_no (txt "j") eq_refl)). rewrite (find_no (txt "j") eq_refl). cbn [floats]. rewrite X, Y. reflexivity.
  - split; [reflexivity|]. destruct (m ++ txt "j") as [|z r] eqn:E; [exact Logic.I|]. cbn [app txt list_ascii_of_string]. split; discriminate.
Qed.
Example C129_complex_hyp : object_to_array (IText (txt "1+2j")) ComplexType = Ok [Real (Fin ((1 # 1) * Qpower (10 # 1) 0)); Real (Fin ((2 # 1) * Qpower (10 # 1) 0))]%Q /\ object_to_array (IText (txt "1.5+2j")) FloatType <> Err TypeError.
Proof. split; [reflexivity|discriminate]. Qed.
(** Numbers that are not finite vanish from a text with others, and the rest moves up. *)
Theorem C129_nan_refuted : exists s, s = txt "1, nan, 2" /\ object_to_array (IText s) FloatType = object_to_array (IText (txt "1, 2")) FloatType.
Proof. exists (txt "1, nan, 2"). split; reflexivity. Qed.
(** A number with a point but no decimals before its exponent is read as two, unless it stands alone. *)
Theorem C129_point_refuted : exists a b c, object_to_array (IText (txt "5.e3, 1")) FloatType = Ok [Real (Fin a); Real (Fin b); Real (Fin c)] /\ (a == 5 /\ b == 3 /\ c == 1)%Q /\ exists x, object_to_array (IText (txt "5.e3")) FloatType = Ok [Real (Fin x)] /\ (x == 5000)%Q.
Proof. eexists. eexists. eexists. split; [reflexivity|]. split; [repeat split; reflexivity|]. eexists. split; reflexivity. Qed.
(** Any digit counts: names with numbers in them, and dates with hyphens. *)
Theorem C129_names_refuted : exists a b c, object_to_array (IText (txt "a1=7, 3")) FloatType = Ok [Real (Fin a); Real (Fin b); Real (Fin c)] /\ (a == 1 /\ b == 7 /\ c == 3)%Q.
Proof. eexists. eexists. eexists. split; [reflexivity|]. repeat split; reflexivity. Qed.
Print Assumptions C129_text.
Print Assumptions C129_complex_refuted.
