(** More lemmas for C87: the values of the attributes. *)
From Coq Require Import Qabs Lqa.
From Verif Require Import PyBase PyFacts PyText TextFacts PyNum PyFloat PyFloatFacts PySci PySciFacts PyRepr PyReprFacts ZmmModel ZmmProofs MTimeModel MTimeSpec MTimeProofs IsoModel IsoSpec IsoProofs IsoProps UnitsModel EnumModel LocationModel LocationSpec LocationProofs LocationProps ValidatorsModel ValidatorsSpec ValidatorsProofs ValidatorsProps EdiProofs EdiMetaModel EdiMetaSpec EdiMetaProofs EdiMeasProofs EdiMeasFile HeadModel HeadSpec HeadProofs.
Local Open Scope list_scope.

(** ** Numbers *)
Lemma read_fixed_d d q : exists q', read_float (show_fixed d q) = Some (Fin q') /\ (Qabs (q' - q) <= (1 # 2) / inject_Z (10 ^ Z.of_nat d))%Q /\
  forall lim : Z, (- inject_Z lim <= q <= inject_Z lim)%Q -> (- inject_Z lim <= q' <= inject_Z lim)%Q.
Proof.
  unfold show_fixed. set (P := (10 ^ Z.of_nat d)%Z). assert (PP : (0 < P)%Z) by (apply Z.pow_pos_nonneg; lia). set (n := round_half_even (q * inject_Z P)). destruct (read_show_scaled d n) as (q' & R & E). exists q'. split; [exact R|]. fold P in E.
  destruct (round_half_even_bound (q * inject_Z P)) as [B1 B2]. fold n in B1, B2. assert (PQ : (0 < inject_Z P)%Q) by (unfold Qlt; cbn; lia).
  split.
  - rewrite E. assert (X : (inject_Z n / inject_Z P - q == (inject_Z n - q * inject_Z P) / inject_Z P)%Q) by (field; lra). rewrite X. unfold Qdiv at 1. rewrite Qabs_Qmult. assert (PI : (0 <= / inject_Z P)%Q) by (apply Qinv_le_0_compat; lra). rewrite (Qabs_pos (/ inject_Z P)) by exact PI. apply Qmult_le_compat_r; [|exact PI]. apply Qabs_Qle_condition. split; lra.
  - intros lim [L1 L2]. assert (M1 : (q * inject_Z P <= inject_Z (lim * P))%Q) by (rewrite inject_Z_mult; apply Qmult_le_compat_r; lra). assert (M2 : (inject_Z (- (lim * P)) <= q * inject_Z P)%Q) by (rewrite inject_Z_opp, inject_Z_mult; assert (Y : (- (inject_Z lim * inject_Z P) == (- inject_Z lim) * inject_Z P)%Q) by ring; rewrite Y; apply Qmult_le_compat_r; lra).
    assert (N1 : (n <= lim * P)%Z). { apply Z.lt_succ_r. rewrite Zlt_Qlt. unfold Z.succ. rewrite inject_Z_plus. change (inject_Z 1) with 1%Q. lra. }
    assert (N2 : (- (lim * P) <= n)%Z). { apply Z.lt_succ_r. rewrite Zlt_Qlt. unfold Z.succ. rewrite inject_Z_plus. change (inject_Z 1) with 1%Q. lra. }
    rewrite E. split.
    + apply Qle_shift_div_l; [exact PQ|]. rewrite Zle_Qle, inject_Z_opp, inject_Z_mult in N2. lra.
    + apply Qle_shift_div_r; [exact PQ|]. rewrite Zle_Qle, inject_Z_mult in N1. lra.
Qed.
Lemma show_fixed_safe d q : safe (show_fixed d q) = true.
Proof. apply num_safe, show_fixed_chars. Qed.
Lemma show_float_safe q : safe (show_float q) = true.
Proof. apply sci_safe, show_float_sci. Qed.
Lemma num_no_colon s : forallb num_char s = true -> ~ In ":"%char s.
Proof. intros H I. rewrite forallb_forall in H. apply H in I. discriminate I. Qed.
Lemma position_dd a q lim : inject_Z lim = limit a -> (- inject_Z lim <= q <= inject_Z lim)%Q -> exists q', check (KPosition a) (show_fixed 6 q) = Ok (HNum q') /\ (Qabs (q' - q) <= 1 # 2000000)%Q.
Proof.
  intros L B. destruct (read_fixed_d 6 q) as (q' & R & C & LL). exists q'. split; [|exact C]. unfold check, validate_position.
  pose proof (num_no_colon _ (show_fixed_chars 6 q)) as NC. apply has_char_notIn in NC. destruct (text_eqb (show_fixed 6 q) (txt "None")) eqn:E; [apply text_eqb_eq in E; rewrite E in R; discriminate R|]. rewrite NC, R. cbn [bindR].
  unfold in_limit. assert (X : Qle_bool (Qabs q') (limit a) = true). { apply Qle_bool_iff. rewrite <- L. apply Qabs_Qle_condition. apply LL. exact B. } rewrite X. reflexivity.
Qed.
Lemma position_dms a q : (- bound a <= q <= bound a)%Q -> (q <= -1 # 1 \/ 0 <= q)%Q -> exists q', check (KPosition a) (float2str q) = Ok (HNum q') /\ close_position q' q.
Proof. intros B H. destruct (C33_written_position_is_accepted_partial a q B H) as (v & E & C). exists v. split; [|exact C]. unfold check. rewrite E. reflexivity. Qed.
(** ** Station names *)
Lemma name_char_station c : name_char c -> station_char c = true /\ is_space c = false /\ key_char c = true /\ c <> " "%char /\ c <> "-"%char /\ c <> "."%char.
Proof.
  intros H. pose proof (ascii_forall (fun c => implb (is_upper c || is_lower c || is_digit c || Ascii.eqb c "_") (station_char c && negb (is_space c) && key_char c && negb (Ascii.eqb c " ") && negb (Ascii.eqb c "-") && negb (Ascii.eqb c "."))) eq_refl c) as X. cbv beta in X.
  assert (E : (is_upper c || is_lower c || is_digit c || Ascii.eqb c "_")%bool = true). { destruct H as [H|[H|[H|H]]]; [rewrite H; reflexivity|rewrite H; rewrite orb_true_r; reflexivity|rewrite H; rewrite !orb_true_r; reflexivity|subst c; reflexivity]. }
  rewrite E in X. cbn [implb] in X. rewrite !andb_true_iff, !negb_true_iff in X. destruct X as (((((A & B) & C) & D) & F) & G). repeat split; try assumption; intros ->; discriminate.
Qed.
Lemma station_fixed s : s <> [] -> Forall name_char s -> validate_station_name s = Ok s /\ safe s = true.
Proof.
  intros N F. rewrite Forall_forall in F. assert (H : forall c, In c s -> station_char c = true /\ is_space c = false /\ key_char c = true /\ c <> " "%char /\ c <> "-"%char /\ c <> "."%char) by (intros c I; apply name_char_station, F, I).
  split; [|apply forallb_forall; intros c I; apply H; exact I]. unfold validate_station_name. rewrite (strip_trimmed s) by (split; intros c r ->; [assert (I : In c (c :: r)) by (left; reflexivity)|assert (I : In c (r ++ [c])) by (apply in_or_app; right; left; reflexivity)]; apply H in I; apply I).
  cbv zeta. rewrite (replace_char_absent " "%char _ s) by (intros I; apply H in I; tauto). rewrite (replace_char_absent "-"%char _ s) by (intros I; apply H in I; tauto). rewrite (replace_char_absent "."%char _ s) by (intros I; apply H in I; tauto).
  assert (X : forallb station_char s = true) by (apply forallb_forall; intros x I; apply H; exact I). assert (NS : nonempty s = true) by (destruct s; [contradiction|reflexivity]).
  destruct (rev s) as [|c r] eqn:E; [rewrite X, NS; reflexivity|]. assert (I : In c s) by (apply in_rev; rewrite E; left; reflexivity). apply H in I. destruct (Ascii.eqb_spec c newline) as [->|]; [destruct I as (_ & Y & _); discriminate Y|]. rewrite X, NS. reflexivity.
Qed.
(** ** Entries *)
Definition read_kv (key value : text) (h : header) : result header :=
  let h := if (is_key key ["progvers"%string] && contains (txt "mt-editor") (lower value))%bool then mkHeader (attrs h) (extras h) true else h in
  let value :=
    if is_key key ["coordinate_system"%string] then
      (let value := lower value in
       if contains (txt "geomagnetic") value then txt "geomagnetic"
       else if contains (txt "geographic") value then txt "geographic"
       else if contains (txt "station") value then txt "station" else value)
    else if is_key key ["stdvers"%string] then
      (if existsb (text_eqb value) [txt "N/A"; txt "None"; txt "null"] then txt "SEG 1.0" else value)
    else if is_key key ["units"%string] then (if existsb (text_eqb value) [txt "m"; txt "M"] then txt "m" else value)
    else value in
  if is_key key ["declination"%string] then set_declination value h
  else if is_key key ["long"; "lon"; "lonigutde"]%string then set_attr (txt "longitude") value h
  else if is_key key ["lat"; "latitude"]%string then set_attr (txt "latitude") value h
  else if is_key key ["elev"; "elevation"]%string then set_attr (txt "elevation") value h
  else if is_key key ["dataid"%string] then bindR (validate_station_name value) (fun v => set_attr key v h)
  else set_attr key value h.
Lemma read_entry_kv k v h : ~ In "="%char k -> ~ In "="%char v -> read_entry (k ++ "="%char :: v) h = read_kv (lower k) v h.
Proof. intros K V. unfold read_entry, equals. rewrite split_on_app by exact K. rewrite split_on_no by exact V. reflexivity. Qed.
Definition put (n : text) (v : hval) (h : header) (p : bool) : header := mkHeader (dset text_dec n v (attrs h)) (extras h) p.
Ltac by_name H := destruct H as (nm & IN & ->); cbn [In app texts places times declinations] in IN; repeat (destruct IN as [<-|IN]); [..|contradiction IN].
Lemma kv_text n s h : names texts n -> exists p, read_kv n s h = Ok (put n (HText s) h p).
Proof.
  intros H. by_name H; try (exists (phoenix h); reflexivity).
  exists (if contains (txt "mt-editor") (lower s) then true else phoenix h). unfold read_kv. change (is_key (txt "progvers") ["progvers"%string]) with true. cbn [andb]. destruct (contains (txt "mt-editor") (lower s)); reflexivity.
Qed.
Lemma kv_time n s h : names times n -> read_kv n s h = bindR (check KTime s) (fun v => Ok (put n v h (phoenix h))).
Proof. intros H. by_name H; reflexivity. Qed.
Lemma kv_station s h : s <> [] -> Forall name_char s -> read_kv (txt "dataid") s h = Ok (put (txt "dataid") (HText s) h (phoenix h)).
Proof. intros N F. change (read_kv (txt "dataid") s h) with (bindR (validate_station_name s) (fun v => Ok (put (txt "dataid") (HText v) h (phoenix h)))). rewrite (proj1 (station_fixed s N F)). reflexivity. Qed.
Lemma kv_units s h : s = [] \/ validate_unit true s = Ok s -> read_kv (txt "units") s h = Ok (put (txt "units") (HText s) h (phoenix h)).
Proof.
  intros H. change (read_kv (txt "units") s h) with (bindR (check KUnits (if existsb (text_eqb s) [txt "m"; txt "M"] then txt "m" else s)) (fun v => Ok (put (txt "units") v h (phoenix h)))).
  destruct H as [->|H]; [reflexivity|]. destruct (existsb (text_eqb s) [txt "m"; txt "M"]) eqn:E.
  - exfalso. apply existsb_exists in E as (x & I & E). apply text_eqb_eq in E. subst x. destruct I as [<-|[<-|[]]]; vm_compute in H; discriminate H.
  - unfold check. rewrite H. cbn [bindR]. destruct s as [|c s]; [reflexivity|reflexivity].
Qed.
Lemma kv_empty s h : read_kv (txt "empty") s h = bindR (check KNumber s) (fun v => Ok (put (txt "empty") v h (phoenix h))).
Proof. reflexivity. Qed.
Lemma kv_elev s h : read_kv (txt "elev") s h = bindR (check KNumber s) (fun v => Ok (put (txt "elevation") v h (phoenix h))).
Proof. reflexivity. Qed.
Lemma kv_lat s h : read_kv (txt "lat") s h = bindR (check (KPosition Latitude) s) (fun v => Ok (put (txt "latitude") v h (phoenix h))).
Proof. reflexivity. Qed.
Lemma kv_lon k s h : k = txt "lon" \/ k = txt "long" -> read_kv k s h = bindR (check (KPosition Longitude) s) (fun v => Ok (put (txt "longitude") v h (phoenix h))).
Proof. intros [->| ->]; reflexivity. Qed.
Lemma kv_declination n s h : names declinations n -> read_kv n s h = Ok (mkHeader (attrs h) (dset text_dec n s (extras h)) (phoenix h)).
Proof. intros H. by_name H; reflexivity. Qed.
(** ** Attributes *)
Lemma free_join l : (forall s, In s l -> free s) -> free (join (txt ",") l).
Proof. intros H. split; [split|]; intros I; apply ValidatorsProofs.join_In in I as [[X|[]]|(s & J & I)]; try discriminate X; apply H in J; destruct J as [[A B] C]; tauto. Qed.
Definition lon_format (k : text) : Prop := lower k = txt "lon" \/ lower k = txt "long".
Lemma header_key_lon k : header_key k (txt "longitude") = lower k.
Proof. reflexivity. Qed.
Lemma attribute_read dd k n v : lon_format k -> readable dd n v ->
  free (value_text dd (header_key k n) v) /\ exists v', reads dd n v v' /\ forall h, exists p, read_kv (header_key k n) (tidy (value_text dd (header_key k n) v)) h = Ok (put n v' h p).
Proof.
  intros LF (v0 & R). destruct R as [n s T F|n l T F|n t T S|s NE F|s T|s T|s F TI U|q q' D E|q q' C|q q' G C|q q' G C].
  - cbn [value_text]. split; [exact F|]. exists (HText (tidy s)). split; [constructor; assumption|]. intros h. assert (K : header_key k n = n) by (by_name T; reflexivity). rewrite K. apply kv_text. exact T.
  - cbn [value_text]. split; [apply free_join; exact F|]. exists (HText (tidy (join (txt ",") l))). split; [constructor; assumption|]. intros h. assert (T' : names texts n) by (destruct T as (x & I & ->); exists x; split; [do 9 right; exact I|reflexivity]). assert (K : header_key k n = n) by (by_name T'; reflexivity). rewrite K. apply kv_text. exact T'.
  - cbn [value_text]. split; [apply safe_free, iso_safe|]. exists (HTime t). split; [constructor; assumption|]. intros h. exists (phoenix h). rewrite (safe_tidy _ (iso_safe t)). assert (K : header_key k n = n) by (by_name T; reflexivity). rewrite K, (kv_time n _ h T). unfold check.
    rewrite (proj1 (C71_written_time_reads_back t t (parse_stamp_fixed t S))). reflexivity.
  - destruct (station_fixed s NE F) as [V SF]. cbn [value_text]. split; [apply safe_free; exact SF|]. exists (HText s). split; [constructor; assumption|]. intros h. exists (phoenix h). rewrite (safe_tidy s SF). apply kv_station; assumption.
  - cbn [value_text]. assert (F : safe s = true) by (by_name T; reflexivity). split; [apply safe_free; exact F|]. exists (HText s). split; [constructor; assumption|]. intros h. exists (phoenix h). rewrite (safe_tidy s F). by_name T; reflexivity.
  - cbn [value_text]. assert (F : free s /\ tidy s = s) by (by_name T; (split; [split; [split|]; cbn; intros I; repeat (destruct I as [I|I]; [discriminate I|]); contradiction I|reflexivity])). split; [apply F|]. exists (HText s). split; [constructor; assumption|]. intros h. exists (phoenix h). rewrite (proj2 F). by_name T; reflexivity.
  - cbn [value_text]. split; [exact F|]. exists (HText s). split; [constructor; assumption|]. intros h. exists (phoenix h). rewrite TI. apply kv_units. exact U.
  - change (header_key k (txt "empty")) with (txt "empty"). change (value_text dd (txt "empty") (HNum q)) with (show_float q). split; [apply safe_free, show_float_safe|]. destruct (read_show_float q D) as (q2 & R & E2). exists (HNum q2). split; [constructor; assumption|]. intros h. exists (phoenix h). rewrite (safe_tidy _ (show_float_safe q)), kv_empty. unfold check. rewrite R. reflexivity.
  - change (header_key k (txt "elevation")) with (txt "elev"). change (value_text dd (txt "elev") (HNum q)) with (show_fixed 3 q). split; [apply safe_free, show_fixed_safe|]. destruct (read_fixed_d 3 q) as (q2 & R & E2 & _). exists (HNum q2). split; [constructor; exact E2|]. intros h. exists (phoenix h). rewrite (safe_tidy _ (show_fixed_safe 3 q)), kv_elev. unfold check. rewrite R. reflexivity.
  - change (header_key k (txt "latitude")) with (txt "lat"). change (value_text dd (txt "lat") (HNum q)) with (if dd then show_fixed 6 q else float2str q). assert (SF : safe (if dd then show_fixed 6 q else float2str q) = true) by (destruct dd; [apply show_fixed_safe|apply float2str_safe]). split; [apply safe_free; exact SF|]. rewrite (safe_tidy _ SF).
    assert (X : exists q2, check (KPosition Latitude) (if dd then show_fixed 6 q else float2str q) = Ok (HNum q2) /\ near_position dd q q2). { destruct G as [B SG]. destruct dd; [apply (position_dd Latitude q 90 eq_refl B)|apply position_dms; [exact B|exact (SG eq_refl)]]. }
    destruct X as (q2 & E & N). exists (HNum q2). split; [constructor; assumption|]. intros h. exists (phoenix h). rewrite kv_lat, E. reflexivity.
  - rewrite header_key_lon. assert (VT : value_text dd (lower k) (HNum q) = if dd then show_fixed 6 q else float2str q) by (destruct LF as [E|E]; rewrite E; reflexivity). rewrite VT. assert (SF : safe (if dd then show_fixed 6 q else float2str q) = true) by (destruct dd; [apply show_fixed_safe|apply float2str_safe]). split; [apply safe_free; exact SF|]. rewrite (safe_tidy _ SF).
    assert (X : exists q2, check (KPosition Longitude) (if dd then show_fixed 6 q else float2str q) = Ok (HNum q2) /\ near_position dd q q2). { destruct G as [B SG]. destruct dd; [apply (position_dd Longitude q 180 eq_refl B)|apply position_dms; [exact B|exact (SG eq_refl)]]. }
    destruct X as (q2 & E & N). exists (HNum q2). split; [constructor; assumption|]. intros h. exists (phoenix h). rewrite (kv_lon _ _ h LF), E. reflexivity.
Qed.
