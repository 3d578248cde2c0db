(** The values in the headers of AVG files. *)
From Coq Require Import Qabs.
From Verif Require Import PyBase PyText PyNum IsoModel PyFloat PySci PyFacts TextFacts PyFloatFacts ValidatorsModel UnitsModel LocationModel EdiProofs AvgHeadModel AvgHeadSpec AvgHeadProofs.
From Verif Require HeadValues HeadProofs.

Lemma case_special c x : (c = "="%char \/ c = newline) -> (to_lower x = c \/ to_upper x = c) -> x = c.
Proof.
  intros C H. assert (G : (implb (Ascii.eqb (to_lower x) "=" || Ascii.eqb (to_upper x) "=") (Ascii.eqb x "=") && implb (Ascii.eqb (to_lower x) newline || Ascii.eqb (to_upper x) newline) (Ascii.eqb x newline)) = true)
    by (clear; revert x; apply ascii_forall; vm_compute; reflexivity).
  apply andb_true_iff in G. destruct G as [G1 G2].
  destruct C as [-> | ->]; destruct H as [H|H]; rewrite H, Ascii.eqb_refl in *; rewrite ?orb_true_r in *; cbn [orb implb] in *; apply Ascii.eqb_eq; assumption.
Qed.
Lemma not_in_lower c s : (c = "="%char \/ c = newline) -> ~ In c s -> ~ In c (lower s).
Proof. intros C H I. apply in_map_iff in I. destruct I as (x & E & I). rewrite (case_special c x C (or_introl E)) in I. exact (H I). Qed.
Lemma not_in_capitalize c s : (c = "="%char \/ c = newline) -> ~ In c s -> ~ In c (capitalize s).
Proof.
  intros C H. destruct s as [|x r]; [exact H|]. cbn [capitalize]. intros [E|I].
  - apply H. left. apply (case_special c x C (or_intror E)).
  - apply (not_in_lower c r C); [intros J; apply H; right; exact J|exact I].
Qed.
(** Members of enumerations. *)
Definition closed_check (f : hfield) (k s : text) : bool :=
  match bindR (read_value k (capitalize s ++ [nl])) (validate_field f) with Ok (HText s') => text_eqb s' s | _ => false end &&
  negb (has_char "=" s) && negb (has_char newline s).
Lemma enum_back f k l : In (f, k) header_keys -> forallb (fun s => closed_check f k (txt s)) l = true -> forall v, one_of l v ->
  one_line (value_text v) /\ bindR (read_value k (capitalize (value_text v) ++ [nl])) (validate_field f) = Ok v.
Proof.
  intros _ H v (s & I & ->). pose proof (proj1 (forallb_forall _ _) H s I) as C. unfold closed_check in C. cbn [value_text].
  apply andb_true_iff in C. destruct C as [C C3]. apply andb_true_iff in C. destruct C as [C1 C2]. apply negb_true_iff in C2. apply negb_true_iff in C3. apply has_char_notIn in C2. apply has_char_notIn in C3.
  split; [split; assumption|]. destruct (bindR _ _) as [[s'| |]|]; try discriminate C1. apply text_eqb_eq in C1. now subst.
Qed.
Lemma num_not c s : forallb num_char s = true -> num_char c = false -> ~ In c s.
Proof. intros H N I. apply (proj1 (forallb_forall num_char s)) with (x := c) in H; [congruence|exact I]. Qed.
Lemma num_one_line s : forallb num_char s = true -> one_line s.
Proof. intros H. split; [apply (num_not (ascii_of_N 10) s H); reflexivity|apply (num_not "="%char s H); reflexivity]. Qed.
Lemma num_strip s : forallb num_char s = true -> strip (s ++ [nl]) = s.
Proof. intros H. rewrite strip_line. apply strip_no_space. exact H. Qed.
Lemma num_word s : forallb num_char s = true -> s <> [] -> split_ws s = [s].
Proof.
  intros H N. rewrite <- (app_nil_r s) at 1. assert (W : forallb (fun c => negb (is_space c)) s = true).
  { apply forallb_forall. intros c I. apply negb_true_iff. apply (num_char_not c). apply (proj1 (forallb_forall num_char s) H c I). }
  unfold split_ws. rewrite (split_ws_word s [] [] W). cbn. rewrite app_nil_r. destruct (rev s) as [|c r] eqn:E; [exfalso; apply N; rewrite <- (rev_involutive s), E; reflexivity|].
  change (rev r ++ [c]) with (rev (c :: r)). rewrite <- E. rewrite rev_involutive. reflexivity.
Qed.
Lemma fixed_nonempty d q : show_fixed d q <> [].
Proof. intros E. destruct (HeadValues.read_fixed_d d q) as (q' & R & _). rewrite E in R. discriminate R. Qed.
Lemma fixed_chars d q : forallb num_char (show_fixed d q) = true.
Proof. apply show_scaled_chars. Qed.
Lemma length_back q : exists q', bindR (read_value (txt "rx.length") (capitalize (show_fixed 7 q) ++ [nl])) (validate_field FLength) = Ok (HNum (Fin q')) /\ (Qabs (q' - q) <= 5 # 100000000)%Q.
Proof.
  destruct (HeadValues.read_fixed_d 7 q) as (q' & R & C & _). exists q'. split; [|eapply Qle_trans; [exact C|vm_compute; discriminate]].
  pose proof (fixed_chars 7 q) as NC. rewrite (num_capitalize _ NC). unfold read_value. rewrite (num_strip _ NC).
  change (ends_with (txt ".proj") (txt "rx.length") || ends_with (txt ".type") (txt "rx.length") || ends_with (txt ".datum") (txt "rx.length")) with false.
  change (ends_with (txt ".h_p_r") (txt "rx.length")) with false. change (contains (txt "length") (txt "rx.length")) with true. rewrite andb_false_r. cbv beta iota. rewrite (num_lower _ NC).
  rewrite (num_word _ NC (fixed_nonempty 7 q)). cbn [bindR validate_field]. unfold to_number. rewrite R. reflexivity.
Qed.
Lemma position_back (a : axis) k f q lim : (a = Latitude /\ k = txt "g_p_s.lat" /\ f = FLat /\ lim = 90%Z) \/ (a = Longitude /\ k = txt "g_p_s.lon" /\ f = FLon /\ lim = 180%Z) ->
  (- inject_Z lim <= q <= inject_Z lim)%Q ->
  exists q', bindR (read_value k (capitalize (show_fixed 7 q) ++ [nl])) (validate_field f) = Ok (HNum (Fin q')) /\ (Qabs (q' - q) <= 5 # 100000000)%Q.
Proof.
  intros K B. destruct (HeadValues.read_fixed_d 7 q) as (q' & R & C & LL). exists q'. split; [|eapply Qle_trans; [exact C|vm_compute; discriminate]].
  pose proof (fixed_chars 7 q) as NC. rewrite (num_capitalize _ NC). unfold read_value. rewrite (num_strip _ NC).
  assert (E : (ends_with (txt ".proj") k || ends_with (txt ".type") k || ends_with (txt ".datum") k) = false /\ ends_with (txt ".h_p_r") k = false /\ contains (txt "length") k = false)
    by (destruct K as [(_ & -> & _)|(_ & -> & _)]; repeat split; reflexivity).
  destruct E as (-> & -> & ->). rewrite andb_false_r. cbv beta iota. rewrite (num_lower _ NC).
  assert (P : validate_position a (GText (show_fixed 7 q)) = Ok (Fin q')).
  { unfold validate_position. pose proof (num_not ":"%char _ NC eq_refl) as N. apply has_char_notIn in N.
    destruct (text_eqb (show_fixed 7 q) (txt "None")) eqn:E; [apply text_eqb_eq in E; rewrite E in R; discriminate R|]. rewrite N, R. cbn [bindR].
    unfold in_limit. assert (X : Qle_bool (Qabs q') (limit a) = true).
    { apply Qle_bool_iff. assert (L : limit a = inject_Z lim) by (destruct K as [(-> & _ & _ & ->)|(-> & _ & _ & ->)]; reflexivity). rewrite L. apply Qabs_Qle_condition. apply LL. exact B. }
    rewrite X. reflexivity. }
  destruct K as [(-> & _ & -> & _)|(-> & _ & -> & _)]; cbn [bindR validate_field]; rewrite P; reflexivity.
Qed.
Lemma texts_back f k s : (f = FVersion /\ k = txt "m_t_edit.version") \/ (f = FStation /\ k = txt "rx.gdp_stn") ->
  bindR (read_value k (capitalize s ++ [nl])) (validate_field f) = Ok (HText (lower (strip s))).
Proof.
  intros K. unfold read_value.
  assert (E : (ends_with (txt ".proj") k || ends_with (txt ".type") k || ends_with (txt ".datum") k) = false /\ ends_with (txt ".h_p_r") k = false /\ contains (txt "length") k = false)
    by (destruct K as [(_ & ->)|(_ & ->)]; repeat split; reflexivity).
  destruct E as (-> & -> & ->). rewrite andb_false_r. cbv beta iota. rewrite read_text_value. destruct K as [(-> & _)|(-> & _)]; reflexivity.
Qed.
Lemma split_ws_one s : s <> [] -> Forall (fun c => is_space c = false) s -> split_ws s = [s].
Proof.
  intros N F. assert (W : forallb (fun c => negb (is_space c)) s = true) by (apply forallb_forall; intros c I; apply negb_true_iff; exact (proj1 (Forall_forall _ _) F c I)).
  rewrite <- (app_nil_r s) at 1. unfold split_ws. rewrite (split_ws_word s [] [] W). cbn. rewrite app_nil_r. destruct (rev s) as [|c r] eqn:E; [exfalso; apply N; rewrite <- (rev_involutive s), E; reflexivity|].
  change (rev r ++ [c]) with (rev (c :: r)). rewrite <- E. rewrite rev_involutive. reflexivity.
Qed.
Lemma no_space_strip s : Forall (fun c => is_space c = false) s -> strip s = s.
Proof.
  intros F. apply strip_trimmed. split.
  - intros c r ->. exact (Forall_inv F).
  - intros c r ->. apply Forall_app in F. destruct F as [_ F]. exact (Forall_inv F).
Qed.
Lemma lower_no_space s : Forall (fun c => is_space c = false) s -> Forall (fun c => is_space c = false) (lower s).
Proof. intros F. apply Forall_map. revert F. apply Forall_impl. intros c H. rewrite to_lower_space. exact H. Qed.
Lemma unit_back s name : word s -> unit_known s name ->
  bindR (read_value (txt "unit.length") (capitalize s ++ [nl])) (validate_field FUnit) = Ok (HText name).
Proof.
  intros (N & F & _) (r & U & UN). unfold read_value.
  change (ends_with (txt ".proj") (txt "unit.length") || ends_with (txt ".type") (txt "unit.length") || ends_with (txt ".datum") (txt "unit.length")) with false.
  change (ends_with (txt ".h_p_r") (txt "unit.length")) with false. change (contains (txt "length") (txt "unit.length")) with true. rewrite andb_false_r. cbv beta iota.
  rewrite read_text_value, (no_space_strip s F). assert (NL : lower s <> []) by (destruct s; [congruence|discriminate]). rewrite (split_ws_one _ NL (lower_no_space s F)).
  cbn [bindR validate_field]. unfold length_unit. destruct (text_eqb (lower s) []) eqn:E; [apply text_eqb_eq in E; congruence|]. rewrite U. cbn [bindR]. rewrite UN. reflexivity.
Qed.
(** Angles. *)
Lemma map_result_ok {A B} (f : A -> result B) : forall l l', Forall2 (fun x y => f x = Ok y) l l' -> map_result f l = Ok l'.
Proof. induction 1 as [|x y l l' H _ IH]; [reflexivity|]. cbn [map_result]. rewrite H. cbn [bindR]. rewrite IH. reflexivity. Qed.
Lemma numbers_back d l : exists l', map_result (fun s => to_number (strip s)) (map (show_num d) (map Fin l)) = Ok (map Fin l') /\
  Forall2 (fun q q' => (Qabs (q' - q) <= (1 # 2) / inject_Z (10 ^ Z.of_nat d))%Q) l l'.
Proof.
  induction l as [|q l (l' & M & F)]; [exists []; split; [reflexivity|constructor]|]. destruct (HeadValues.read_fixed_d d q) as (q' & R & C & _). exists (q' :: l'). split; [|constructor; assumption].
  cbn [map map_result show_num]. rewrite (strip_no_space _ (fixed_chars d q)). unfold to_number at 1. rewrite R. cbn [bindR]. rewrite M. reflexivity.
Qed.
Definition list_char (c : ascii) : bool := num_char c || Ascii.eqb c ",".
Lemma list_chars l : forallb list_char (join (txt ",") (map (show_num 1) (map Fin l))) = true.
Proof.
  induction l as [|q l IH]; [reflexivity|]. cbn [map join].
  assert (A : forallb list_char (show_num 1 (Fin q)) = true). { apply forallb_forall. intros c I. unfold list_char. rewrite (proj1 (forallb_forall num_char _) (fixed_chars 1 q) c I). reflexivity. }
  destruct (map (show_num 1) (map Fin l)) as [|y r] eqn:E; [exact A|]. rewrite <- E in *. rewrite !forallb_app, A, IH. reflexivity.
Qed.
Lemma list_char_case c : list_char c = true -> to_upper c = c /\ to_lower c = c.
Proof. unfold list_char. intros H. apply orb_true_iff in H. destruct H as [H|H]; [apply num_char_case; exact H|]. apply Ascii.eqb_eq in H. subst c. split; reflexivity. Qed.
Lemma list_char_space c : list_char c = true -> is_space c = false.
Proof. unfold list_char. intros H. apply orb_true_iff in H. destruct H as [H|H]; [apply num_char_not; exact H|]. apply Ascii.eqb_eq in H. subst c. reflexivity. Qed.
Lemma list_lower s : forallb list_char s = true -> lower s = s /\ capitalize s = s.
Proof.
  intros H. assert (L : lower s = s). { clear -H. induction s as [|c r IH]; [reflexivity|]. cbn [forallb] in H. apply andb_true_iff in H. destruct H as [A B]. cbn [lower map]. rewrite (proj2 (list_char_case c A)). f_equal. apply IH, B. }
  split; [exact L|]. destruct s as [|c r]; [reflexivity|]. cbn [forallb] in H. apply andb_true_iff in H. destruct H as [A B]. cbn [capitalize]. rewrite (proj1 (list_char_case c A)). f_equal. cbn [lower map] in L. injection L as _ L. exact L.
Qed.
Lemma list_no c s : forallb list_char s = true -> list_char c = false -> ~ In c s.
Proof. intros H N I. apply (proj1 (forallb_forall list_char s)) with (x := c) in H; [congruence|exact I]. Qed.
Lemma has_comma l : (2 <= length l)%nat -> has_char "," (join (txt ",") (map (show_num 1) (map Fin l))) = true.
Proof.
  intros H. destruct l as [|a [|b l]]; cbn in H; try lia. apply has_char_In. cbn [map join]. apply in_or_app. right. left. reflexivity.
Qed.
Lemma angles_back l : (2 <= length l)%nat -> exists l', bindR (read_value (txt "rx.h_p_r") (capitalize (join (txt ",") (map (show_num 1) (map Fin l))) ++ [nl])) (validate_field FHpr) = Ok (HList (map Fin l')) /\
  Forall2 (fun q q' => (Qabs (q' - q) <= 5 # 100)%Q) l l'.
Proof.
  intros H. destruct (numbers_back 1 l) as (l' & M & F). exists l'. split.
  - pose proof (list_chars l) as LC. destruct (list_lower _ LC) as [L1 L2]. rewrite L2. unfold read_value. rewrite strip_line.
    assert (ST : strip (join (txt ",") (map (show_num 1) (map Fin l))) = join (txt ",") (map (show_num 1) (map Fin l))).
    { apply no_space_strip. apply Forall_forall. intros c I. apply list_char_space. exact (proj1 (forallb_forall list_char _) LC c I). }
    rewrite ST. change (ends_with (txt ".proj") (txt "rx.h_p_r") || ends_with (txt ".type") (txt "rx.h_p_r") || ends_with (txt ".datum") (txt "rx.h_p_r")) with false. cbv beta iota. rewrite L1.
    rewrite (has_comma l H). change (ends_with (txt ".h_p_r") (txt "rx.h_p_r")) with true. cbn [andb].
    change (txt ",") with [","%char]. rewrite split_join.
    + rewrite M. reflexivity.
    + intros E. destruct l; [cbn in H; lia|discriminate E].
    + intros w I. apply in_map_iff in I. destruct I as (x & <- & I). apply in_map_iff in I. destruct I as (q & <- & _). apply (num_not ","%char _ (fixed_chars 1 q)). reflexivity.
  - revert F. clear. induction 1; constructor; [|assumption]. eapply Qle_trans; [eassumption|]. vm_compute. discriminate.
Qed.
Lemma short_angles l : (length l < 2)%nat -> forall v, read_value (txt "rx.h_p_r") (capitalize (value_text (HList l)) ++ [nl]) = Ok v -> validate_field FHpr v = Err ValueError.
Proof.
  intros H v. unfold read_value. assert (NC : has_char "," (lower (strip (capitalize (value_text (HList l)) ++ [nl]))) = false).
  { rewrite read_text_value. destruct l as [|x [|y r]]; [reflexivity| |cbn in H; lia]. cbn [value_text map join]. destruct x as [q|]; [|reflexivity]. cbn [show_num].
    rewrite (strip_no_space _ (fixed_chars 1 q)), (num_lower _ (fixed_chars 1 q)). apply has_char_notIn. apply (num_not ","%char _ (fixed_chars 1 q)). reflexivity. }
  change (ends_with (txt ".proj") (txt "rx.h_p_r") || ends_with (txt ".type") (txt "rx.h_p_r") || ends_with (txt ".datum") (txt "rx.h_p_r")) with false. cbv beta iota. rewrite NC. cbn [andb].
  change (contains (txt "length") (txt "rx.h_p_r")) with false. cbv iota. intros E. injection E as <-. reflexivity.
Qed.
