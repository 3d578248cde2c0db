(** Lemmas for C95: the lines of a header. *)
From Coq Require Import Qabs Lqa Sorting.Sorted.
From Verif Require Import PyBase PyText TextFacts PyNum IsoModel IsoProofs PyFloat PyFloatFacts PySci PySciFacts EdiModel EdiProofs ZmmModel ZmmSpec ZmmProofs ZmmBlock ZmmFile ZheadModel ZheadSpec.
From Verif Require LocationModel HeadValues.
Local Open Scope list_scope.
Local Open Scope Z_scope.

(** ** Searching in lines *)
Lemma prefix_lower p : lower p = p -> forall s, prefix_of p s = true -> prefix_of p (lower s) = true.
Proof.
  induction p as [|x p IH]; intros L [|y s] H; try reflexivity; try discriminate H. cbn [prefix_of lower map] in *. injection L as L1 L2.
  apply andb_prop in H as [H1 H2]. apply Ascii.eqb_eq in H1. subst y. rewrite L1, Ascii.eqb_refl. exact (IH L2 s H2).
Qed.
Lemma contains_lower p s : lower p = p -> contains p (lower s) = false -> contains p s = false.
Proof.
  intros L. induction s as [|c s IH]; intros H; [exact H|]. cbn [lower map] in H. rewrite contains_cons in *. apply orb_false_elim in H as [H1 H2]. rewrite (IH H2), orb_false_r.
  destruct (prefix_of p (c :: s)) eqn:E; [|reflexivity]. apply (prefix_lower p L) in E. cbn [lower map] in E. congruence.
Qed.
Lemma contains_line p sp w l : word p -> spaces sp -> word w -> Forall spaced l -> contains p (line_of ((sp, w) :: l)) = existsb (contains p) (w :: map snd l).
Proof. intros P S0 W F. rewrite (contains_words p _ P), (split_ws_line1 sp w l S0 W F). reflexivity. Qed.
Lemma words_line sp w l : spaces sp -> word w -> Forall spaced l -> split_ws (strip (line_of ((sp, w) :: l))) = w :: map snd l.
Proof. intros S0 W F. rewrite (strip_line sp w l S0 W F). exact (split_ws_line1 [] w l eq_refl W F). Qed.
Lemma rjust_sp w s : rjust w s = sp (w - List.length s) ++ s.
Proof. reflexivity. Qed.

(** ** Characters of an id *)
Lemma id_char_spec c : id_char c = true <-> is_alpha c = true \/ is_digit c = true \/ c = "_"%char.
Proof. unfold id_char. rewrite !orb_true_iff, Ascii.eqb_eq. tauto. Qed.
Lemma id_like_valid s : id_like s -> valid_id s = true.
Proof. intros H. apply forallb_forall. intros c I. apply id_char_spec, H, I. Qed.
Lemma id_char_facts c : id_char c = true -> is_space c = false /\ c <> "*"%char /\ c <> ":"%char /\ c <> newline /\ id_char (to_lower c) = true.
Proof.
  intros H. pose proof (ascii_forall (fun c => implb (id_char c) (negb (is_space c) && negb (Ascii.eqb c "*") && negb (Ascii.eqb c ":") && negb (Ascii.eqb c newline) && id_char (to_lower c))) eq_refl c) as X. cbv beta in X. rewrite H in X. cbn [implb] in X.
  rewrite !andb_true_iff, !negb_true_iff in X. destruct X as ((((A & B) & C) & D) & E). repeat split; try assumption; intros ->; discriminate.
Qed.
Lemma id_word s : id_like s -> s <> [] -> word s.
Proof. intros H N. split; [exact N|]. apply forallb_forall. intros c I. apply negb_true_iff. apply (id_char_facts c), id_char_spec, H, I. Qed.
Lemma id_lower s : id_like s -> id_like (lower s).
Proof. intros H c I. apply in_map_iff in I as (d & <- & I). apply id_char_spec. apply (id_char_facts d), id_char_spec, H, I. Qed.
Lemma id_no c s : id_like s -> id_char c = false -> ~ In c s.
Proof. intros H E I. apply H, id_char_spec in I. congruence. Qed.

(** ** Changing one channel *)
Definition with_channel (st : zgot) (c : comp) (ch : zchannel pynum) : zgot :=
  mkGot (zg_comments st) (zg_type st) (zg_tf_type st) (zg_station st) (zg_run st) (zg_tf st)
    (zg_latitude st) (zg_longitude st) (zg_declination st) (zg_channels st) (zg_frequencies st)
    (fun d => if comp_eqb d c then Some ch else zg_channel st d).
Lemma comp_eqb_eq a b : comp_eqb a b = true <-> a = b.
Proof. destruct a, b; split; intros H; try reflexivity; discriminate H. Qed.

(** ** A channel line *)
Definition safe_station (s : text) : Prop := id_like s /\ (forall w, In w keywords -> contains w s = false).
Definition channel_words (station : text) (ii : nat) (c : comp) (ch : zchannel Q) : text * text * list (text * text) :=
  let n := show_int (match zn_number ch with Some n => n | None => Z.of_nat ii end) in
  let a := show_fixed 2 (zn_azimuth ch) in let t := show_fixed 2 (zn_tilt ch) in
  (sp (5 - List.length n), n, [(blank ++ sp (8 - List.length a), a); (blank ++ sp (8 - List.length t), t)] ++
    match station with
    | [] => [(blank ++ sp 3 ++ blank ++ sp 1, capitalize (comp_name c))]
    | _ => [(blank ++ sp (3 - List.length station), station); (blank ++ sp 1, capitalize (comp_name c))]
    end).
Lemma channel_line_words station ii c ch : let '(s, n, l) := channel_words station ii c ch in channel_line station ii c ch = line_of ((s, n) :: l).
Proof.
  unfold channel_words, channel_line. rewrite !rjust_sp. unfold line_of. destruct station as [|x station].
  - cbn [map concat fst snd app List.length Nat.sub]. rewrite <- !app_assoc. destruct c; reflexivity.
  - cbn [map concat fst snd app]. rewrite <- !app_assoc. destruct c; reflexivity.
Qed.
Lemma comp_word c : word (capitalize (comp_name c)).
Proof. destruct c; (split; [discriminate|reflexivity]). Qed.
Lemma channel_spaced station ii c ch s n l : id_like station -> channel_words station ii c ch = (s, n, l) ->
  spaces s /\ word n /\ Forall spaced l.
Proof.
  intros ID E. unfold channel_words in E. injection E as <- <- <-. split; [apply spaces_space|]. split; [apply show_int_word|]. cbn [app].
  constructor; [apply sp_spaced, show_fixed_word|]. constructor; [apply sp_spaced, show_fixed_word|]. destruct station as [|x station].
  - constructor; [|constructor]. split; [discriminate|]. split; [reflexivity|apply comp_word].
  - constructor; [apply sp_spaced, id_word; [exact ID|discriminate]|]. constructor; [apply sp_spaced, comp_word|constructor].
Qed.
(** No keyword is in a channel line. *)
Lemma channel_contains station ii c ch x p : id_like station -> word (x :: p) -> sci_char x = false -> contains (x :: p) station = false ->
  contains (x :: p) (capitalize (comp_name c)) = false -> contains (x :: p) (channel_line station ii c ch) = false.
Proof.
  intros ID W X S0 C. pose proof (channel_line_words station ii c ch) as L. destruct (channel_words station ii c ch) as [[s n] l] eqn:E. rewrite L.
  destruct (channel_spaced station ii c ch s n l ID E) as (S1 & W1 & F). rewrite (contains_line _ s n l W S1 W1 F). unfold channel_words in E. injection E as <- <- <-.
  cbn [existsb map app snd]. rewrite (num_contains _ x p (show_int_chars _) X), !(num_contains _ x p (show_fixed_chars _ _) X). cbn [orb].
  destruct station as [|y station]; cbn [map snd existsb]; rewrite ?S0, C; reflexivity.
Qed.
Lemma last2_end a x y : last2 (a ++ [x; y]) = [x; y].
Proof. unfold last2. rewrite app_length. cbn [List.length]. replace (List.length a + 2 - 2)%nat with (List.length a) by lia. rewrite skipn_app, Nat.sub_diag, skipn_all. reflexivity. Qed.
Lemma comp_two c : exists x y, capitalize (comp_name c) = [x; y].
Proof. destruct c; eexists; eexists; reflexivity. Qed.
Lemma comp_back c : comp_of (lower (capitalize (comp_name c))) = Some c.
Proof. destruct c; reflexivity. Qed.
Lemma channel_strip station ii c ch : id_like station -> last2 (strip (channel_line station ii c ch)) = capitalize (comp_name c).
Proof.
  intros ID. pose proof (channel_line_words station ii c ch) as L. destruct (channel_words station ii c ch) as [[s n] l] eqn:E. rewrite L.
  destruct (channel_spaced station ii c ch s n l ID E) as (S1 & W1 & F). rewrite (strip_line s n l S1 W1 F). unfold channel_words in E. injection E as <- <- <-.
  destruct (comp_two c) as (x & y & C). rewrite C. destruct station as [|z station].
  - rewrite !line_of_cons. cbn [fst snd line_of map concat]. rewrite app_nil_r. rewrite !app_assoc. apply last2_end.
  - rewrite !line_of_cons. cbn [fst snd line_of map concat]. rewrite app_nil_r. rewrite !app_assoc. apply last2_end.
Qed.
Lemma fixed_close d q tol : ((1 # 2) / inject_Z (10 ^ Z.of_nat d) <= tol)%Q -> exists v, read_float (show_fixed d q) = Some (Fin v) /\ close tol q (Fin v).
Proof.
  intros T. destruct (HeadValues.read_fixed_d d q) as (v & R & C & _). exists v. split; [exact R|]. exists v. split; [reflexivity|]. apply Qle_trans with (1 := C), T.
Qed.
Lemma fixed_two q : exists v, read_float (show_fixed 2 q) = Some (Fin v) /\ two_decimals q (Fin v).
Proof.
  destruct (fixed_close 2 q (5 # 1000)) as (v & R & C); [discriminate|]. exists v. split; [exact R|]. split; [exact C|]. intros k K. exists v. split; [reflexivity|].
  unfold show_fixed in R. destruct (read_show_scaled 2 (round_half_even (q * inject_Z (10 ^ Z.of_nat 2)))) as (v' & R' & E). rewrite R' in R. injection R as ->.
  assert (N : round_half_even (q * inject_Z (10 ^ Z.of_nat 2)) = k).
  { change (inject_Z (10 ^ Z.of_nat 2)) with (100 # 1)%Q. rewrite <- (round_half_even_Z k). apply Z.le_antisymm; apply round_half_even_mono; rewrite <- K; apply Qle_refl. }
  rewrite N in E. assert (X : (v - q == 0)%Q) by (rewrite E, <- K; change (inject_Z (10 ^ Z.of_nat 2)) with (100 # 1)%Q; field). rewrite X. discriminate.
Qed.
Lemma read_channel st k station ii c ch nc : safe_station station -> k <> 2%nat -> zg_channels st = Some nc ->
  exists a t, two_decimals (zn_azimuth ch) a /\ two_decimals (zn_tilt ch) t /\
    read_line st k (channel_line station ii c ch) =
      Ok (with_channel st c (mkChannel (Some (as_number nc (match zn_number ch with Some n => n | None => Z.of_nat ii end))) a t)).
Proof.
  intros [ID KW] K NC. destruct (fixed_two (zn_azimuth ch)) as (a & RA & CA). destruct (fixed_two (zn_tilt ch)) as (t & RT & CT).
  exists (Fin a), (Fin t). split; [exact CA|]. split; [exact CT|]. unfold read_line.
  assert (Q : forall x p, word (x :: p) -> sci_char x = false -> contains (x :: p) station = false -> contains (x :: p) (capitalize (comp_name c)) = false -> contains (x :: p) (channel_line station ii c ch) = false) by (intros; apply channel_contains; assumption).
  assert (KS : forall x p, In (x :: p) keywords -> sci_char x = false -> word (x :: p) -> contains (x :: p) (capitalize (comp_name c)) = false -> contains (x :: p) (channel_line station ii c ch) = false) by (intros; apply Q; auto).
  replace (contains (txt "**") (channel_line station ii c ch)) with false by (symmetry; apply Q; [split; [discriminate|reflexivity]|reflexivity|apply contains_head, (id_no _ _ ID); reflexivity|destruct c; reflexivity]).
  rewrite (proj2 (Nat.eqb_neq k 2) K).
  replace (contains (txt "station") (channel_line station ii c ch)) with false by (symmetry; apply KS; [left; reflexivity|reflexivity|split; [discriminate|reflexivity]|destruct c; reflexivity]).
  replace (contains (txt "coordinate") (channel_line station ii c ch)) with false by (symmetry; apply KS; [right; left; reflexivity|reflexivity|split; [discriminate|reflexivity]|destruct c; reflexivity]).
  replace (contains (txt "number") (channel_line station ii c ch)) with false by (symmetry; apply KS; [right; right; left; reflexivity|reflexivity|split; [discriminate|reflexivity]|destruct c; reflexivity]).
  replace (contains (txt "orientations") (channel_line station ii c ch)) with false by (symmetry; apply KS; [right; right; right; left; reflexivity|reflexivity|split; [discriminate|reflexivity]|destruct c; reflexivity]).
  rewrite (channel_strip station ii c ch ID), comp_back.
  pose proof (channel_line_words station ii c ch) as L. destruct (channel_words station ii c ch) as [[s n] l] eqn:E. rewrite L.
  destruct (channel_spaced station ii c ch s n l ID E) as (S1 & W1 & F). rewrite (words_line s n l S1 W1 F). set (N := match zn_number ch with Some n => n | None => Z.of_nat ii end).
  assert (EW : exists x r, n :: map snd l = show_int N :: show_fixed 2 (zn_azimuth ch) :: show_fixed 2 (zn_tilt ch) :: x :: r /\ last_item (n :: map snd l) = Ok (capitalize (comp_name c))).
  { unfold channel_words in E. injection E as <- <- <-. destruct station; eexists; eexists; (split; [reflexivity|reflexivity]). }
  destruct EW as (x & r & EW & LI). rewrite LI, EW. cbn [bindR item nth_error]. unfold to_int. rewrite read_int_show. cbn [bindR]. unfold to_float. rewrite RA. cbn [bindR]. rewrite RT.
  cbn [bindR]. rewrite comp_back. unfold as_number. destruct (Z.eq_dec N 0) as [Z0|Z0].
  - rewrite Z0. unfold with_channel. rewrite NC. reflexivity.
  - rewrite (proj2 (Z.eqb_neq N 0) Z0). reflexivity.
Qed.
(** ** All channel lines *)
Definition same_but_channels (a b : zgot) : Prop :=
  zg_comments b = zg_comments a /\ zg_type b = zg_type a /\ zg_tf_type b = zg_tf_type a /\ zg_station b = zg_station a /\
  zg_run b = zg_run a /\ zg_tf b = zg_tf a /\ zg_latitude b = zg_latitude a /\ zg_longitude b = zg_longitude a /\
  zg_declination b = zg_declination a /\ zg_channels b = zg_channels a /\ zg_frequencies b = zg_frequencies a.
Lemma same_refl a : same_but_channels a a.
Proof. repeat split. Qed.
Lemma same_trans a b c : same_but_channels a b -> same_but_channels b c -> same_but_channels a c.
Proof. unfold same_but_channels. intros A B. decompose [and] A. decompose [and] B. repeat split; congruence. Qed.
Lemma same_with a c ch : same_but_channels a (with_channel a c ch).
Proof. repeat split. Qed.
Lemma read_channels station f nc rest : safe_station station -> forall l k idx st, NoDup l -> (2 < k)%nat -> zg_channels st = Some nc ->
  (forall i c, nth_error l i = Some c -> in_file c None = Z.of_nat (idx + i)) ->
  (forall c, In c l -> zg_channel st c = None) ->
  exists st' k', (2 < k')%nat /\ read_lines st k (channel_lines station f idx l ++ rest) = read_lines st' k' rest /\ same_but_channels st st' /\
    (forall c, In c l -> channel_kept nc c (f c) (zg_channel st' c)) /\ (forall c, ~ In c l -> zg_channel st' c = zg_channel st c).
Proof.
  intros SS. induction l as [|c l IH]; intros k idx st ND K NC IN EM.
  - exists st, k. split; [exact K|]. split; [reflexivity|]. split; [apply same_refl|]. split; [intros c []|reflexivity].
  - inversion ND as [|? ? NI ND']; subst. cbn [channel_lines].
    assert (IN' : forall i d, nth_error l i = Some d -> in_file d None = Z.of_nat (S idx + i)) by (intros i d E; rewrite (IN (S i) d E); f_equal; lia).
    destruct (f c) as [ch|] eqn:FC.
    + destruct (read_channel st k station idx c ch nc SS ltac:(lia) NC) as (a & t & CA & CT & R). cbn [app read_lines]. rewrite R. cbn [bindR].
      set (st1 := with_channel st c _) in *. destruct (IH (S k) (S idx) st1 ND' ltac:(lia) NC IN') as (st' & k' & K' & E & S1 & C1 & C2).
      { intros d I. unfold st1. cbn [with_channel zg_channel]. destruct (comp_eqb d c) eqn:D; [apply comp_eqb_eq in D; subst d; contradiction|]. apply EM. right. exact I. }
      exists st', k'. split; [exact K'|]. split; [exact E|]. split; [apply same_trans with (2 := S1), same_with|]. split.
      * intros d [<-|I]; [|apply C1, I]. rewrite FC, (C2 c NI). unfold st1. cbn [with_channel zg_channel]. replace (comp_eqb c c) with true by (destruct c; reflexivity).
        cbn [channel_kept zn_number zn_azimuth zn_tilt]. split; [|split; [exact CA|exact CT]]. f_equal. f_equal. unfold in_file at 1. destruct (zn_number ch); [reflexivity|]. symmetry. rewrite <- (Nat.add_0_r idx). exact (IN 0%nat c eq_refl).
      * intros d I. rewrite C2 by (intros J; apply I; right; exact J). unfold st1. cbn [with_channel zg_channel]. destruct (comp_eqb d c) eqn:D; [apply comp_eqb_eq in D; subst d; exfalso; apply I; left; reflexivity|reflexivity].
    + destruct (IH k (S idx) st ND' K NC IN' (fun d I => EM d (or_intror I))) as (st' & k' & K' & E & S1 & C1 & C2). exists st', k'.
      split; [exact K'|]. split; [exact E|]. split; [exact S1|]. split.
      * intros d [<-|I]; [|apply C1, I]. rewrite FC, (C2 c NI), (EM c (or_introl eq_refl)). exact I.
      * intros d I. apply C2. intros J. apply I. right. exact J.
Qed.

(** ** The other lines *)
Lemma strip_blank s : id_like s -> strip (" "%char :: s) = s.
Proof.
  intros ID. destruct s as [|x s]; [reflexivity|]. pose proof (strip_line (txt " ") (x :: s) [] eq_refl (id_word _ ID ltac:(discriminate)) (Forall_nil _)) as E.
  unfold line_of in E. cbn [map concat fst snd] in E. rewrite !app_nil_r in E. exact E.
Qed.
Lemma station_split s : id_like s -> split_on ":" (txt "station: " ++ s) = [txt "station"; " "%char :: s].
Proof.
  intros ID. change (txt "station: " ++ s) with (txt "station" ++ ":"%char :: " "%char :: s). rewrite split_on_app; [|intros I; cbn in I; repeat destruct I as [I|I]; try discriminate I; exact I].
  rewrite split_on_no; [reflexivity|]. intros [I|I]; [discriminate I|]. revert I. apply (id_no _ _ ID). reflexivity.
Qed.
Lemma fourth_station_ok s : id_like s -> fourth_station (txt "station: " ++ s) = Ok (lower s).
Proof.
  intros ID. unfold fourth_station. replace (lower (txt "station: " ++ s)) with (txt "station: " ++ lower s) by (unfold lower; rewrite map_app; reflexivity).
  pose proof (id_lower s ID) as IL. destruct (lower s) as [|x r] eqn:E; [reflexivity|]. rewrite <- E in *.
  assert (ST : strip (txt "station: " ++ lower s) = txt "station: " ++ lower s).
  { pose proof (strip_line [] (txt "station:") [(txt " ", lower s)] eq_refl ltac:(split; [discriminate|reflexivity])) as X. unfold line_of in X. cbn [map concat fst snd] in X. rewrite !app_nil_r in X.
    apply X. constructor; [|constructor]. split; [discriminate|]. split; [reflexivity|]. apply id_word; [exact IL|rewrite E; discriminate]. }
  cbv zeta. rewrite ST. replace (has_char ":" (txt "station: " ++ lower s)) with true by reflexivity. rewrite (station_split _ IL). cbn [item nth_error bindR]. rewrite (strip_blank _ IL). reflexivity.
Qed.
Lemma station_line_contains p s : ~ In " "%char p -> contains p (txt "station: " ++ s) = (contains p (txt "station:") || contains p s)%bool.
Proof. intros N. change (txt "station: " ++ s) with (txt "station:" ++ " "%char :: s). apply contains_sep, N. Qed.
Definition with_station (st : zgot) (s : text) : zgot :=
  mkGot (zg_comments st) (zg_type st) (zg_tf_type st) s (zg_run st) (zg_tf st)
    (zg_latitude st) (zg_longitude st) (zg_declination st) (zg_channels st) (zg_frequencies st) (zg_channel st).
Lemma read_station st k s : id_like s -> k <> 2%nat -> read_line st k (txt "station: " ++ s) = Ok (with_station st s).
Proof.
  intros ID K. unfold read_line. rewrite !station_line_contains by (cbn; intros I; repeat destruct I as [I|I]; try discriminate I; exact I).
  replace (contains (txt "**") s) with false by (symmetry; apply contains_head, (id_no _ _ ID); reflexivity). change (contains (txt "**") (txt "station:")) with false. change (contains (txt "station") (txt "station:")) with true. cbn [orb].
  rewrite (proj2 (Nat.eqb_neq k 2) K), (station_split s ID). cbn [item nth_error bindR]. rewrite (strip_blank s ID), (id_like_valid s ID). reflexivity.
Qed.
(** The line of the coordinates. *)
Definition coordinate_words (h : zhead) : list (text * text) :=
  let a := show_fixed 3 (zh_latitude h) in let b := show_fixed 3 (zh_longitude h) in let d := show_fixed 2 (zh_declination h) in
  [(blank ++ sp (9 - List.length a), a); (blank ++ sp (9 - List.length b), b); (blank, txt "declination"); (blank ++ sp (8 - List.length d), d)].
Lemma coordinate_line_words h : coordinate_line h = line_of (([], txt "coordinate") :: coordinate_words h).
Proof. unfold coordinate_line, coordinate_words, line_of. rewrite !rjust_sp. cbn [map concat fst snd]. rewrite app_nil_r, <- !app_assoc. reflexivity. Qed.
Lemma coordinate_spaced h : Forall spaced (coordinate_words h).
Proof.
  constructor; [apply sp_spaced, show_fixed_word|]. constructor; [apply sp_spaced, show_fixed_word|]. constructor; [apply txt_spaced; split; [discriminate|reflexivity]|].
  constructor; [apply sp_spaced, show_fixed_word|constructor].
Qed.
Lemma coordinate_contains h x p : word (x :: p) -> sci_char x = false -> contains (x :: p) (txt "declination") = false ->
  contains (x :: p) (coordinate_line h) = contains (x :: p) (txt "coordinate").
Proof.
  intros W X D. rewrite coordinate_line_words. etransitivity; [apply (contains_line _ [] (txt "coordinate") _ W eq_refl ltac:(split; [discriminate|reflexivity]) (coordinate_spaced h))|].
  unfold coordinate_words. cbn [existsb map snd]. rewrite !(num_contains _ x p (show_fixed_chars _ _) X), D. cbn [orb]. apply orb_false_r.
Qed.
Lemma coordinate_split h : split_ws (strip (coordinate_line h)) = txt "coordinate" :: map snd (coordinate_words h).
Proof. rewrite coordinate_line_words. apply (words_line [] (txt "coordinate") _ eq_refl ltac:(split; [discriminate|reflexivity]) (coordinate_spaced h)). Qed.
Definition with_location (st : zgot) (lat lon d : pynum) : zgot :=
  mkGot (zg_comments st) (zg_type st) (zg_tf_type st) (zg_station st) (zg_run st) (zg_tf st) lat lon d (zg_channels st) (zg_frequencies st) (zg_channel st).
Definition turned (q : Q) : Q := if Qlt_le_dec 180 q then q - 360 else q.
Lemma in_limits lim q : (Qabs q <= inject_Z lim)%Q -> (- inject_Z lim <= q <= inject_Z lim)%Q.
Proof. apply Qabs_Qle_condition. Qed.
Lemma read_coordinate st k h : k <> 2%nat -> (Qabs (zh_latitude h) <= 90 # 1)%Q ->
  (Qabs (zh_longitude h) <= 180 # 1 \/ 180 + (5 # 10000) < zh_longitude h <= 540 # 1)%Q ->
  exists lat lon d, close (5 # 10000) (zh_latitude h) lat /\ close (5 # 10000) (turned (zh_longitude h)) lon /\ close (5 # 1000) (zh_declination h) d /\
    read_line st k (coordinate_line h) = Ok (with_location st lat lon d).
Proof.
  intros K LA LO. destruct (HeadValues.read_fixed_d 3 (zh_latitude h)) as (a & RA & CA & LL). specialize (LL 90 (in_limits 90 _ LA)).
  destruct (HeadValues.read_fixed_d 3 (zh_longitude h)) as (b & RB & CB & LB).
  destruct (fixed_close 2 (zh_declination h) (5 # 1000)) as (d & RD & CD); [discriminate|].
  assert (LON : exists lon, LocationModel.validate_position LocationModel.Longitude (LocationModel.GNum (wrap_longitude (Fin b))) = Ok lon /\ close (5 # 10000) (turned (zh_longitude h)) lon).
  { apply Qabs_Qle_condition in CB as CB'. change ((1 # 2) / inject_Z (10 ^ Z.of_nat 3))%Q with (1 # 2000)%Q in CB'. unfold turned, wrap_longitude. destruct LO as [LO|LO].
    - specialize (LB 180 (in_limits 180 _ LO)). destruct (Qlt_le_dec 180 (zh_longitude h)) as [C|_]; [apply in_limits in LO; change (inject_Z 180) with (180 # 1)%Q in LO; lra|].
      change (inject_Z 180) with (180 # 1)%Q in LB. assert (T : Qle_bool b 180 = true) by (apply Qle_bool_iff; lra). rewrite T. unfold LocationModel.validate_position, LocationModel.in_limit. cbn [bindR].
      assert (T2 : Qle_bool (Qabs b) (LocationModel.limit LocationModel.Longitude) = true) by (apply Qle_bool_iff, Qabs_Qle_condition; exact LB). rewrite T2.
      exists (Fin b). split; [reflexivity|]. exists b. split; [reflexivity|]. apply Qle_trans with (1 := CB). discriminate.
    - destruct (Qlt_le_dec 180 (zh_longitude h)) as [_|C]; [|lra]. specialize (LB 540). change (inject_Z 540) with (540 # 1)%Q in LB. specialize (LB ltac:(lra)).
      destruct (Qle_bool b 180) eqn:T; [apply Qle_bool_iff in T; lra|]. unfold LocationModel.validate_position, LocationModel.in_limit. cbn [bindR].
      assert (T2 : Qle_bool (Qabs (b - 360)) (LocationModel.limit LocationModel.Longitude) = true) by (apply Qle_bool_iff, Qabs_Qle_condition; change (LocationModel.limit LocationModel.Longitude) with (180 # 1)%Q; lra). rewrite T2.
      exists (Fin (b - 360)). split; [reflexivity|]. exists (b - 360)%Q. split; [reflexivity|]. setoid_replace (b - 360 - (zh_longitude h - 360))%Q with (b - zh_longitude h)%Q by ring. apply Qle_trans with (1 := CB). discriminate. }
  destruct LON as (lon & VL & CL). exists (Fin a), lon, (Fin d). split; [exists a; split; [reflexivity|]; apply Qle_trans with (1 := CA); discriminate|]. split; [exact CL|]. split; [exact CD|].
  unfold read_line.
  replace (contains (txt "**") (coordinate_line h)) with false by (symmetry; etransitivity; [apply (coordinate_contains h "*"%char (txt "*")); [split; [discriminate|reflexivity]|reflexivity|reflexivity]|reflexivity]).
  replace (contains (txt "station") (coordinate_line h)) with false by (symmetry; etransitivity; [apply (coordinate_contains h "s"%char (txt "tation")); [split; [discriminate|reflexivity]|reflexivity|reflexivity]|reflexivity]).
  replace (contains (txt "coordinate") (coordinate_line h)) with true by (symmetry; etransitivity; [apply (coordinate_contains h "c"%char (txt "oordinate")); [split; [discriminate|reflexivity]|reflexivity|reflexivity]|reflexivity]).
  rewrite (proj2 (Nat.eqb_neq k 2) K). rewrite coordinate_split. unfold coordinate_words. cbn [map snd item nth_error last_item rev app bindR].
  assert (VA : LocationModel.validate_position LocationModel.Latitude (LocationModel.GText (show_fixed 3 (zh_latitude h))) = Ok (Fin a)).
  { unfold LocationModel.validate_position. pose proof (HeadValues.num_no_colon _ (show_fixed_chars 3 (zh_latitude h))) as NC. apply has_char_notIn in NC. destruct (text_eqb (show_fixed 3 (zh_latitude h)) (txt "None")) eqn:E; [apply text_eqb_eq in E; rewrite E in RA; discriminate RA|].
    rewrite NC, RA. cbn [bindR]. unfold LocationModel.in_limit. assert (X : Qle_bool (Qabs a) (LocationModel.limit LocationModel.Latitude) = true) by (apply Qle_bool_iff, Qabs_Qle_condition; exact LL). rewrite X. reflexivity. }
  rewrite VA. cbn [bindR]. unfold to_float. rewrite RB. cbn [bindR]. rewrite VL. cbn [bindR]. rewrite RD. reflexivity.
Qed.
(** The line of the numbers. *)
Definition number_words (nc nf : Z) : list (text * text) :=
  [(blank, txt "of"); (blank, txt "channels"); (blank ++ blank ++ sp (3 - List.length (show_int nc)), show_int nc); (blank ++ blank, txt "number"); (blank, txt "of"); (blank, txt "frequencies");
   (blank ++ sp (3 - List.length (show_int nf)), show_int nf)].
Lemma number_line_words nc nf : number_line nc nf = line_of (([], txt "number") :: number_words nc nf).
Proof. unfold number_line, number_words, line_of. rewrite !rjust_sp. cbn [map concat fst snd]. rewrite app_nil_r, <- !app_assoc. reflexivity. Qed.
Lemma number_spaced nc nf : Forall spaced (number_words nc nf).
Proof.
  repeat (constructor; [first [apply txt_spaced; split; [discriminate|reflexivity]|apply (sp_spaced (S _)), show_int_word|apply sp_spaced, show_int_word|split; [discriminate|split; [reflexivity|split; [discriminate|reflexivity]]]]|]). constructor.
Qed.
Lemma number_split nc nf : split_ws (strip (number_line nc nf)) = txt "number" :: map snd (number_words nc nf).
Proof. rewrite number_line_words. apply (words_line [] (txt "number") _ eq_refl ltac:(split; [discriminate|reflexivity]) (number_spaced nc nf)). Qed.
Definition with_numbers (st : zgot) (nc nf : Z) : zgot :=
  mkGot (zg_comments st) (zg_type st) (zg_tf_type st) (zg_station st) (zg_run st) (zg_tf st) (zg_latitude st) (zg_longitude st) (zg_declination st) (Some nc) (Some nf) (zg_channel st).
Lemma number_contains nc nf x p : word (x :: p) -> sci_char x = false ->
  contains (x :: p) (number_line nc nf) = existsb (contains (x :: p)) [txt "number"; txt "of"; txt "channels"; txt "number"; txt "of"; txt "frequencies"].
Proof.
  intros W X. rewrite number_line_words. etransitivity; [apply (contains_line _ [] (txt "number") _ W eq_refl ltac:(split; [discriminate|reflexivity]) (number_spaced nc nf))|].
  unfold number_words. cbn [existsb map snd]. rewrite !(num_contains _ x p (show_int_chars _) X). reflexivity.
Qed.
Lemma read_number st k nc nf : k <> 2%nat -> read_line st k (number_line nc nf) = Ok (with_numbers st nc nf).
Proof.
  intros K. unfold read_line.
  replace (contains (txt "**") (number_line nc nf)) with false by (symmetry; etransitivity; [apply (number_contains nc nf "*"%char (txt "*")); [split; [discriminate|reflexivity]|reflexivity]|reflexivity]).
  replace (contains (txt "station") (number_line nc nf)) with false by (symmetry; etransitivity; [apply (number_contains nc nf "s"%char (txt "tation")); [split; [discriminate|reflexivity]|reflexivity]|reflexivity]).
  replace (contains (txt "coordinate") (number_line nc nf)) with false by (symmetry; etransitivity; [apply (number_contains nc nf "c"%char (txt "oordinate")); [split; [discriminate|reflexivity]|reflexivity]|reflexivity]).
  replace (contains (txt "number") (number_line nc nf)) with true by (symmetry; etransitivity; [apply (number_contains nc nf "n"%char (txt "umber")); [split; [discriminate|reflexivity]|reflexivity]|reflexivity]).
  rewrite (proj2 (Nat.eqb_neq k 2) K). rewrite number_split. unfold number_words. cbn [map snd item nth_error last_item rev app bindR].
  unfold to_int. rewrite !read_int_show. reflexivity.
Qed.
