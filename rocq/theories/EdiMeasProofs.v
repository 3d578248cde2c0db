(** Lemmas about the DEFINEMEAS section of EDI files. *)
From Coq Require Import Qabs.
From Verif Require Import PyBase PyFacts PyText TextFacts PyNum IsoModel IsoProofs PyFloat PyFloatFacts PySci PySciFacts PyRepr PyReprFacts ValidatorsProofs EdiProofs ZmmModel ZmmProofs XmlProofs EdiMetaModel EdiMetaSpec EdiMetaProofs EdiMetaProps.
Local Open Scope list_scope.

(** ** Characters of numbers *)
Lemma zeros_sci k : forallb sci_char (zeros k) = true.
Proof. induction k; [reflexivity|exact IHk]. Qed.
Lemma firstn_skipn_sci n s : forallb sci_char s = true -> forallb sci_char (firstn n s) = true /\ forallb sci_char (skipn n s) = true.
Proof. intros H. rewrite <- (firstn_skipn n s), forallb_app in H. apply andb_prop in H. exact H. Qed.
Lemma place_point_sci d p : forallb sci_char d = true -> forallb sci_char (place_point d p) = true.
Proof.
  intros H. unfold place_point. destruct ((-4 <? p)%Z && (p <=? 16)%Z)%bool.
  - destruct (p <=? 0)%Z; [rewrite !forallb_app, zeros_sci, H; reflexivity|]. destruct (p <? _)%Z.
    + destruct (firstn_skipn_sci (Z.to_nat p) d H) as [A B]. rewrite forallb_app, A. exact B.
    + rewrite !forallb_app, zeros_sci, H. reflexivity.
  - cbv zeta. rewrite forallb_app, sci_exp_chars, andb_true_r. destruct d as [|c [|c2 r]]; [reflexivity|exact H|]. cbn [forallb] in *. exact H.
Qed.
Lemma strip_zeros_nonneg fuel : forall m, (0 <= m)%Z -> (0 <= fst (strip_zeros fuel m))%Z.
Proof.
  induction fuel as [|fuel IH]; intros m H; [exact H|]. cbn [strip_zeros]. destruct (m mod 10 =? 0)%Z; [|exact H]. pose proof (IH (m / 10)%Z ltac:(apply Z.div_pos; lia)) as X. destruct (strip_zeros fuel (m / 10)) as [a k]. exact X.
Qed.
Lemma show_float_sci q : forallb sci_char (show_float q) = true.
Proof.
  unfold show_float. cbv zeta. destruct (Qnum (Qred q) =? 0)%Z; [reflexivity|]. destruct (decimals (Qred q)) as [k|]; [|reflexivity].
  set (m := (Z.abs _ * _)%Z). assert (M : (0 <= m)%Z) by (apply Z.mul_nonneg_nonneg; [lia|apply Z.div_pos; [apply Z.pow_nonneg; lia|lia]]).
  pose proof (strip_zeros_nonneg (Z.to_nat (Z.log2 m)) m M) as X. destruct (strip_zeros _ m) as [a z]. cbn [fst] in X.
  pose proof (place_point_sci (show_nat a) (Z.of_nat (List.length (show_nat a)) + Z.of_nat z - Z.of_nat k) (digits_sci_char _ (show_nat_digits a X))) as P. destruct (Qnum (Qred q) <? 0)%Z; exact P.
Qed.
Lemma sci_plain c : sci_char c = true -> is_space c = false /\ c <> "="%char /\ ~ mark c /\ c <> "/"%char.
Proof.
  intros H. assert (G : implb (sci_char c) (negb (is_space c) && negb (Ascii.eqb c "=") && negb (existsb (Ascii.eqb c) [">"; "!"; "'"; "034"; "["; "]"]%char) && negb (Ascii.eqb c "/")) = true) by (clear; revert c; apply ascii_forall; vm_compute; reflexivity).
  rewrite H in G. cbn [implb] in G. apply andb_prop in G as [G G4]. apply andb_prop in G as [G G3]. apply andb_prop in G as [G1 G2]. apply negb_true_iff in G1, G2, G3, G4.
  split; [exact G1|]. split; [intros ->; discriminate G2|]. split; [|intros ->; discriminate G4]. unfold mark. intros I. assert (X : existsb (Ascii.eqb c) [">"; "!"; "'"; "034"; "["; "]"]%char = true) by (apply existsb_exists; exists c; split; [exact I|apply Ascii.eqb_refl]). rewrite X in G3. discriminate.
Qed.
Lemma id_plain c : id_char c = true -> is_space c = false /\ c <> "="%char /\ ~ mark c /\ c <> "/"%char.
Proof.
  intros H. assert (G : implb (id_char c) (negb (is_space c) && negb (Ascii.eqb c "=") && negb (existsb (Ascii.eqb c) [">"; "!"; "'"; "034"; "["; "]"]%char) && negb (Ascii.eqb c "/")) = true) by (clear; revert c; apply ascii_forall; vm_compute; reflexivity).
  rewrite H in G. cbn [implb] in G. apply andb_prop in G as [G G4]. apply andb_prop in G as [G G3]. apply andb_prop in G as [G1 G2]. apply negb_true_iff in G1, G2, G3, G4.
  split; [exact G1|]. split; [intros ->; discriminate G2|]. split; [|intros ->; discriminate G4]. unfold mark. intros I. assert (X : existsb (Ascii.eqb c) [">"; "!"; "'"; "034"; "["; "]"]%char = true) by (apply existsb_exists; exists c; split; [exact I|apply Ascii.eqb_refl]). rewrite X in G3. discriminate.
Qed.

(** ** Good values *)
Lemma no_slash_without s : ~ In "/"%char s -> without (txt "//") s.
Proof. intros N a b E. apply N. rewrite E. apply in_or_app. right. left. reflexivity. Qed.
Lemma good_chars s : s <> [] -> (forall c, In c s -> is_space c = false /\ c <> "="%char /\ ~ mark c /\ c <> "/"%char) -> good_acqchan s.
Proof.
  intros N H. split; [split; [exact N|]|split].
  - intros c I. destruct (H c I) as (A & B & _). split; assumption.
  - intros c I. destruct (H c I) as (_ & _ & C & _). exact C.
  - apply no_slash_without. intros I. destruct (H _ I) as (_ & _ & _ & D). exact (D eq_refl).
Qed.
Lemma show_float_good q : is_decimal q -> good_acqchan (show_float q).
Proof.
  intros D. apply good_chars.
  - intros E. destruct (read_show_float q D) as (v & R & _). rewrite E in R. discriminate R.
  - intros c I. apply sci_plain. pose proof (show_float_sci q) as F. rewrite forallb_forall in F. exact (F c I).
Qed.
Lemma show_fixed_good d q : good_acqchan (show_fixed d q).
Proof.
  apply good_chars.
  - unfold show_fixed, show_scaled. destruct (_ <? 0)%Z; [discriminate|]. intros E. apply app_eq_nil in E as [E _]. revert E. apply show_nat_nonempty. apply Z.div_pos; [apply Z.abs_nonneg|]. apply Z.pow_pos_nonneg; lia.
  - intros c I. apply sci_plain. pose proof (show_fixed_chars d q) as F. rewrite forallb_forall in F. unfold sci_char. rewrite (F c I). reflexivity.
Qed.
Lemma letters_id s : letters s -> some_id s = true.
Proof. intros [N H]. unfold some_id. destruct s; [contradiction|]. cbn [nonempty andb]. apply forallb_forall. exact H. Qed.
Lemma type_id p r : In p [txt "h"; txt "H"; txt "b"; txt "B"; txt "rr"; txt "RR"; txt "e"; txt "E"] -> letters r -> good_acqchan (p ++ r).
Proof.
  intros P [N H]. apply good_chars; [destruct p; [exact N|discriminate]|]. intros c I. apply id_plain. apply in_app_or in I as [I|I]; [|exact (H c I)].
  repeat (destruct P as [<-|P]; [cbn in I; repeat (destruct I as [<-|I]; [reflexivity|]); contradiction I|]). contradiction P.
Qed.
Lemma h_type_good s : h_type s -> good_acqchan s /\ chtype_ok ["h"; "H"; "b"; "B"]%char s = true.
Proof.
  intros (p & r & -> & P & L). split; [apply type_id; [cbn [In] in *; tauto|exact L]|]. pose proof (letters_id r L) as S0.
  repeat (destruct P as [<-|P]; [cbn; rewrite S0; rewrite ?orb_true_r; reflexivity|]). contradiction P.
Qed.
Lemma e_type_good s : e_type s -> good_acqchan s /\ chtype_ok ["e"; "E"]%char s = true.
Proof.
  intros (p & r & -> & P & L). split; [apply type_id; [cbn [In] in *; tauto|exact L]|]. pose proof (letters_id r L) as S0.
  repeat (destruct P as [<-|P]; [cbn; rewrite S0; rewrite ?orb_true_r; reflexivity|]). contradiction P.
Qed.
Lemma read_fixed q : exists q', read_float (show_fixed 2 q) = Some (Fin q') /\ hundredths q q'.
Proof.
  unfold show_fixed. set (n := round_half_even (q * inject_Z (10 ^ Z.of_nat 2))). destruct (read_show_scaled 2 n) as (q' & R & E). exists q'. split; [exact R|].
  assert (E2 : (q' == n # 100)%Q) by (rewrite E; unfold Qeq; cbn; lia). split; [exists n; exact E2|].
  rewrite E2. destruct (round_half_even_bound (q * inject_Z (10 ^ Z.of_nat 2))) as [B1 B2]. fold n in B1, B2.
  assert (N : (inject_Z n == (100 # 1) * (n # 100))%Q) by (rewrite (Qmake_Qdiv n 100); field). assert (H : (inject_Z (10 ^ Z.of_nat 2) == 100 # 1)%Q) by reflexivity. rewrite N in B1, B2. setoid_rewrite H in B1. setoid_rewrite H in B2.
  apply Qabs_Qle_condition. split; lra.
Qed.

(** ** Lines of fields *)
Lemma blank_starts b : blank b -> starts_blank b.
Proof. intros B. destruct b as [|c b]; [left; reflexivity|]. right. exists c, b. split; [reflexivity|]. apply B. left. reflexivity. Qed.
Lemma fields_line_tail kvs b : blank b -> kvs <> [] -> Forall (fun kv => eword (fst kv) /\ eword (snd kv)) kvs -> line_of kvs (join (txt " ") (map (fun kv => field (fst kv) (snd kv)) kvs) ++ b).
Proof.
  intros BB. induction kvs as [|[k v] kvs IH]; intros N F; [contradiction|]. inversion F as [|? ? [K V] F']; subst. cbn [fst snd] in *.
  destruct kvs as [|kv2 kvs].
  - cbn [map join fst snd]. unfold field, equals. rewrite <- app_assoc. cbn [app]. change (k ++ "="%char :: v ++ b) with ([] ++ k ++ [] ++ "="%char :: [] ++ v ++ b).
    constructor; [intros c []|exact K|intros c []|intros c []|exact V|constructor; exact BB|exact (blank_starts b BB)].
  - specialize (IH ltac:(discriminate) F'). change (map (fun kv => field (fst kv) (snd kv)) ((k, v) :: kv2 :: kvs)) with (field k v :: field (fst kv2) (snd kv2) :: map (fun kv => field (fst kv) (snd kv)) kvs).
    rewrite join_cons2. change (field (fst kv2) (snd kv2) :: map (fun kv => field (fst kv) (snd kv)) kvs) with (map (fun kv => field (fst kv) (snd kv)) (kv2 :: kvs)).
    set (rest := join (txt " ") (map (fun kv => field (fst kv) (snd kv)) (kv2 :: kvs))) in *. unfold field, equals. repeat (rewrite <- app_assoc; cbn [app]).
    change (k ++ "="%char :: v ++ txt " " ++ rest ++ b) with ([] ++ k ++ [] ++ "="%char :: [] ++ v ++ (txt " " ++ rest ++ b)).
    constructor; [intros c []|exact K|intros c []|intros c []|exact V| |right; exists " "%char, (rest ++ b); split; reflexivity].
    assert (B : blank (txt " ")) by (intros c [<-|[]]; reflexivity). clear - IH B. remember (kv2 :: kvs) as l eqn:E. inversion IH as [|b1 k b2 b3 v r kvs' B1 K B2 B3 V L R E1 E2]; [subst; discriminate|]. subst.
    rewrite app_assoc. constructor; try assumption. intros c I. apply in_app_or in I as [I|I]; auto.
Qed.
Lemma fields_line_of kvs : kvs <> [] -> Forall (fun kv => eword (fst kv) /\ eword (snd kv)) kvs -> line_of kvs (join (txt " ") (map (fun kv => field (fst kv) (snd kv)) kvs) ++ [nl]).
Proof. apply fields_line_tail. intros c [<-|[]]. reflexivity. Qed.
Lemma contains_without p s : p <> [] -> without p s <-> contains p s = false.
Proof.
  intros N. split; intros H.
  - destruct (contains p s) eqn:E; [|reflexivity]. apply contains_spec in E as (a & b & E). contradiction (H a b E).
  - intros a b E. assert (contains p s = true) by (apply contains_spec; exists a, b; exact E). congruence.
Qed.
Lemma fields_no_comment kvs : Forall (fun kv => ~ In "/"%char (fst kv) /\ without (txt "//") (snd kv)) kvs -> without (txt "//") (join (txt " ") (map (fun kv => field (fst kv) (snd kv)) kvs) ++ [nl]).
Proof.
  assert (P : txt "//" <> []) by discriminate.
  assert (F1 : forall kv : text * text, ~ In "/"%char (fst kv) /\ without (txt "//") (snd kv) -> contains (txt "//") (field (fst kv) (snd kv)) = false).
  { intros [k v] [K V]. unfold field. rewrite contains_sep by (intros [X|[X|[]]]; discriminate X). cbn [fst snd] in *. apply orb_false_intro; [apply (contains_without _ _ P), no_slash_without, K|apply (contains_without _ _ P), V]. }
  intros F. apply (contains_without _ _ P). rewrite contains_sep by (intros [X|[X|[]]]; discriminate X). apply orb_false_intro; [|reflexivity].
  induction F as [|kv kvs H F IH]; [reflexivity|]. destruct kvs as [|kv2 kvs]; [exact (F1 kv H)|].
  cbn [map] in *. rewrite join_cons2. set (rest := join (txt " ") _) in *. change (contains (txt "//") (field (fst kv) (snd kv) ++ " "%char :: rest) = false).
  rewrite contains_sep by (intros [X|[X|[]]]; discriminate X). apply orb_false_intro; [exact (F1 kv H)|exact IH].
Qed.
Definition good_field (kv : text * text) : Prop := (eword (fst kv) /\ ~ In "/"%char (fst kv) /\ (forall c, In c (fst kv) -> ~ mark c)) /\ good_acqchan (snd kv).
Lemma tag_line tag kvs : kvs <> [] -> fields_line tag kvs = tag ++ " "%char :: join (txt " ") (map (fun kv => field (fst kv) (snd kv)) kvs) ++ [nl].
Proof. intros N. unfold fields_line. destruct kvs as [|kv kvs]; [contradiction|]. cbn [map]. rewrite join_cons2. repeat (rewrite <- app_assoc; cbn [app]). reflexivity. Qed.
Lemma fields_equal_lines tag kvs : kvs <> [] -> In ">"%char tag -> (forall c, In c tag -> is_space c = false) -> Forall good_field kvs -> equal_lines (fields_line tag kvs) = map pair_text kvs.
Proof.
  intros N G S0 F. rewrite (tag_line tag kvs N). apply (C56_tagged [] tag kvs (join (txt " ") (map (fun kv => field (fst kv) (snd kv)) kvs) ++ [nl])); try assumption; [|constructor|intros c []].
  - apply fields_line_of; [exact N|]. eapply Forall_impl; [|exact F]. intros kv [(K & _) (V & _)]. split; assumption.
  - apply fields_no_comment. eapply Forall_impl; [|exact F]. intros kv [(_ & K & _) (_ & _ & V)]. split; assumption.
Qed.
Definition lower_key (kv : text * text) : text * text := (lower (fst kv), snd kv).
Lemma add_words_pairs kvs : Forall (fun kv => ~ In "="%char (fst kv) /\ ~ In "="%char (snd kv)) kvs -> forall d, add_words (map pair_text kvs) d = Ok (dupdate text_dec d (map lower_key kvs)).
Proof.
  induction 1 as [|[k v] kvs [K V] F IH]; intros d; [reflexivity|]. cbn [map add_words]. unfold pair_text at 1. cbn [fst snd] in *. unfold equals. rewrite split_on_app by exact K. rewrite split_on_no by exact V. rewrite IH. reflexivity.
Qed.
Lemma eword_no_equals w : eword w -> ~ In "="%char w.
Proof. intros [_ H] I. destruct (H _ I) as [_ N]. exact (N eq_refl). Qed.
Lemma fields_dict tag kvs : kvs <> [] -> In ">"%char tag -> (forall c, In c tag -> is_space c = false) -> Forall good_field kvs -> NoDup (map (fun kv => lower (fst kv)) kvs) ->
  add_words (equal_lines (fields_line tag kvs)) [] = Ok (map lower_key kvs).
Proof.
  intros N G S0 F ND. rewrite fields_equal_lines by assumption. rewrite add_words_pairs.
  - rewrite dupdate_fresh; [reflexivity| |intros k _ []]. unfold dkeys. rewrite map_map. exact ND.
  - eapply Forall_impl; [|exact F]. intros kv [(K & _) (V & _)]. split; apply eword_no_equals; assumption.
Qed.

(** ** One measurement *)
Definition meas_fields (m : meas) : list (text * text) := match m with MH h => h_fields h | ME e => e_fields e end.
Definition meas_tag (m : meas) : text := match m with MH _ => txt ">HMEAS" | ME _ => txt ">EMEAS" end.
Lemma meas_line_fields m : write_meas_line m = fields_line (meas_tag m) (meas_fields m).
Proof. destruct m; reflexivity. Qed.
Lemma meas_fields_ne m : meas_fields m <> [].
Proof. destruct m; discriminate. Qed.
Definition key_ok (k : text) : bool := (nonempty k && forallb (fun c => is_alpha c || is_digit c)%bool k)%bool.
Lemma key_ok_spec k : key_ok k = true -> eword k /\ ~ In "/"%char k /\ (forall c, In c k -> ~ mark c).
Proof.
  unfold key_ok. intros H. apply andb_prop in H as [N F]. assert (G : good_acqchan k).
  { apply good_chars; [destruct k; discriminate|]. intros c I. apply id_plain. rewrite forallb_forall in F. unfold id_char. rewrite (F c I). reflexivity. }
  assert (S0 : ~ In "/"%char k). { intros I. rewrite forallb_forall in F. specialize (F _ I). discriminate F. }
  destruct G as (A & B & _). split; [exact A|split; [exact S0|exact B]].
Qed.
Lemma good_fields m : good_meas m -> Forall good_field (meas_fields m).
Proof.
  assert (K : forall k v, key_ok k = true -> good_acqchan v -> good_field (k, v)) by (intros k v KO V; split; [apply key_ok_spec; exact KO|exact V]).
  destruct m as [h|e]; cbn [good_meas meas_fields].
  - intros (I & T & _ & A). destruct (h_type_good _ T) as [TG _]. unfold h_fields. repeat (apply Forall_cons; [apply K; [reflexivity|first [apply show_float_good; exact I|exact TG|apply show_fixed_good|exact A]]|]). constructor.
  - intros (I & T & _ & _ & _ & A). destruct (e_type_good _ T) as [TG _]. unfold e_fields. repeat (apply Forall_cons; [apply K; [reflexivity|first [apply show_float_good; exact I|exact TG|apply show_fixed_good|exact A]]|]). constructor.
Qed.
Lemma text_nodup (l : list text) : (fix nd l := match l with [] => true | x :: r => (negb (existsb (text_eqb x) r) && nd r)%bool end) l = true -> NoDup l.
Proof.
  induction l as [|x l IH]; intros H; [constructor|]. apply andb_prop in H as [H1 H2]. constructor; [|exact (IH H2)]. intros I. apply negb_true_iff in H1. assert (existsb (text_eqb x) l = true) by (apply existsb_exists; exists x; split; [exact I|apply text_eqb_refl]). congruence.
Qed.
Lemma meas_keys_nodup m : NoDup (map (fun kv => lower (fst kv)) (meas_fields m)).
Proof. apply text_nodup. destruct m; vm_compute; reflexivity. Qed.
Lemma meas_dict m : good_meas m -> add_words (equal_lines (write_meas_line m)) [] = Ok (map lower_key (meas_fields m)).
Proof.
  intros G. rewrite meas_line_fields. apply fields_dict; [apply meas_fields_ne|destruct m; left; reflexivity| |apply good_fields; exact G|apply meas_keys_nodup].
  intros c I. destruct m; cbn in I; repeat (destruct I as [<-|I]; [reflexivity|]); contradiction I.
Qed.
Lemma get_float_at k v q d : dget text_dec k d = Some v -> read_float v = Some (Fin q) -> get_float k d = Ok q.
Proof. intros D R. unfold get_float. rewrite D, R. reflexivity. Qed.
Lemma h_gets (i t x y z az dp a : text) : let d := [(txt "id", i); (txt "chtype", t); (txt "x", x); (txt "y", y); (txt "z", z); (txt "azm", az); (txt "dip", dp); (txt "acqchan", a)] in
  dget text_dec (txt "id") d = Some i /\ dget text_dec (txt "chtype") d = Some t /\ dget text_dec (txt "x") d = Some x /\ dget text_dec (txt "y") d = Some y /\
  dget text_dec (txt "z") d = Some z /\ dget text_dec (txt "azm") d = Some az /\ dget text_dec (txt "dip") d = Some dp /\ dget text_dec (txt "acqchan") d = Some a.
Proof. repeat split. Qed.
Lemma e_gets (i t x y z x2 y2 z2 az a : text) : let d := [(txt "id", i); (txt "chtype", t); (txt "x", x); (txt "y", y); (txt "z", z); (txt "x2", x2); (txt "y2", y2); (txt "z2", z2); (txt "azm", az); (txt "acqchan", a)] in
  dget text_dec (txt "id") d = Some i /\ dget text_dec (txt "chtype") d = Some t /\ dget text_dec (txt "x") d = Some x /\ dget text_dec (txt "y") d = Some y /\
  dget text_dec (txt "z") d = Some z /\ dget text_dec (txt "x2") d = Some x2 /\ dget text_dec (txt "y2") d = Some y2 /\ dget text_dec (txt "z2") d = Some z2 /\
  dget text_dec (txt "azm") d = Some az /\ dget text_dec (txt "acqchan") d = Some a.
Proof. repeat split. Qed.
Lemma make_h_back h : good_meas (MH h) -> exists h', make_h (map lower_key (h_fields h)) = Ok h' /\ same_h h h'.
Proof.
  intros (I & T & _ & A). destruct (h_type_good _ T) as [_ TO]. destruct (read_show_float _ I) as (qi & RI & EI).
  destruct (read_fixed (h_x h)) as (qx & RX & EX). destruct (read_fixed (h_y h)) as (qy & RY & EY). destruct (read_fixed (h_z h)) as (qz & RZ & EZ).
  destruct (read_fixed (h_azm h)) as (qa & RA & EA). destruct (read_fixed (h_dip h)) as (qd & RD & ED).
  destruct (h_gets (show_float (h_id h)) (h_chtype h) (show_fixed 2 (h_x h)) (show_fixed 2 (h_y h)) (show_fixed 2 (h_z h)) (show_fixed 2 (h_azm h)) (show_fixed 2 (h_dip h)) (h_acqchan h)) as (D1 & D2 & D3 & D4 & D5 & D6 & D7 & D8).
  change (map lower_key (h_fields h)) with [(txt "id", show_float (h_id h)); (txt "chtype", h_chtype h); (txt "x", show_fixed 2 (h_x h)); (txt "y", show_fixed 2 (h_y h)); (txt "z", show_fixed 2 (h_z h)); (txt "azm", show_fixed 2 (h_azm h)); (txt "dip", show_fixed 2 (h_dip h)); (txt "acqchan", h_acqchan h)].
  set (d := [(txt "id", _); _; _; _; _; _; _; _]) in *. clearbody d.
  exists (mkH qi (h_chtype h) qx qy qz qa qd (h_acqchan h)). split; [|split; [exact EI|split; [reflexivity|split; [exact EX|split; [exact EY|split; [exact EZ|split; [exact EA|split; [exact ED|reflexivity]]]]]]]].
  unfold make_h. rewrite (get_float_at _ _ _ _ D1 RI). cbn [bindR]. unfold get_text at 1. rewrite D2, TO. rewrite (get_float_at _ _ _ _ D3 RX), (get_float_at _ _ _ _ D4 RY), (get_float_at _ _ _ _ D5 RZ), (get_float_at _ _ _ _ D6 RA), (get_float_at _ _ _ _ D7 RD). cbn [bindR].
  unfold get_text. rewrite D2, D8. reflexivity.
Qed.
Section E.
Variable azimuth : Q -> Q -> Q -> Q -> Q.
Notation update_azm := (update_azm azimuth). Notation make_e := (make_e azimuth). Notation e_azimuth := (e_azimuth azimuth).
(** What read_measurement makes of a dipole whose azimuth was read as [a]. *)
Lemma final_azm e a : let e1 := update_azm (set_azm a e) in
  (if Qeq_bool (e_azm e1) 0 then update_azm (set_azm (e_azimuth e1) e1) else e1) = set_azm (if Qeq_bool a 0 then e_azimuth e else a) e.
Proof.
  cbv zeta. unfold EdiMetaModel.update_azm, EdiMetaModel.e_azimuth, set_azm. cbn [e_x e_y e_x2 e_y2 e_azm e_id e_chtype e_z e_z2 e_acqchan].
  destruct (existsb _ [e_x e; e_y e; e_x2 e; e_y2 e]) eqn:C; destruct (Qeq_bool a 0) eqn:A; cbn [e_x e_y e_x2 e_y2 e_azm e_id e_chtype e_z e_z2 e_acqchan]; rewrite ?A, ?C; try reflexivity.
  destruct (Qeq_bool (azimuth (e_x e) (e_y e) (e_x2 e) (e_y2 e)) 0) eqn:Z; cbn [e_x e_y e_x2 e_y2 e_azm e_id e_chtype e_z e_z2 e_acqchan]; rewrite ?C, ?Z; reflexivity.
Qed.
Lemma make_e_back e : good_meas (ME e) -> exists e', same_e azimuth e e' /\ bindR (make_e (map lower_key (e_fields e))) (fun e1 =>
  Ok (VMeas (ME (if Qeq_bool (e_azm e1) 0 then update_azm (set_azm (e_azimuth e1) e1) else e1)))) = Ok (VMeas (ME e')).
Proof.
  intros (I & T & _ & _ & _ & A). destruct (e_type_good _ T) as [_ TO]. destruct (read_show_float _ I) as (qi & RI & EI).
  destruct (read_fixed (e_x e)) as (qx & RX & EX). destruct (read_fixed (e_y e)) as (qy & RY & EY). destruct (read_fixed (e_z e)) as (qz & RZ & EZ).
  destruct (read_fixed (e_x2 e)) as (qx2 & RX2 & EX2). destruct (read_fixed (e_y2 e)) as (qy2 & RY2 & EY2). destruct (read_fixed (e_z2 e)) as (qz2 & RZ2 & EZ2).
  destruct (read_fixed (e_azm e)) as (qa & RA & EA).
  destruct (e_gets (show_float (e_id e)) (e_chtype e) (show_fixed 2 (e_x e)) (show_fixed 2 (e_y e)) (show_fixed 2 (e_z e)) (show_fixed 2 (e_x2 e)) (show_fixed 2 (e_y2 e)) (show_fixed 2 (e_z2 e)) (show_fixed 2 (e_azm e)) (e_acqchan e)) as (D1 & D2 & D3 & D4 & D5 & D6 & D7 & D8 & D9 & D10).
  change (map lower_key (e_fields e)) with [(txt "id", show_float (e_id e)); (txt "chtype", e_chtype e); (txt "x", show_fixed 2 (e_x e)); (txt "y", show_fixed 2 (e_y e)); (txt "z", show_fixed 2 (e_z e)); (txt "x2", show_fixed 2 (e_x2 e)); (txt "y2", show_fixed 2 (e_y2 e)); (txt "z2", show_fixed 2 (e_z2 e)); (txt "azm", show_fixed 2 (e_azm e)); (txt "acqchan", e_acqchan e)].
  set (d := [(txt "id", _); _; _; _; _; _; _; _; _; _]) in *. clearbody d.
  set (e0 := mkE qi (e_chtype e) qx qy qz qx2 qy2 qz2 qa (e_acqchan e)).
  exists (set_azm (if Qeq_bool qa 0 then e_azimuth e0 else qa) e0). split.
  - split; [exact EI|split; [reflexivity|split; [exact EX|split; [exact EY|split; [exact EZ|split; [exact EX2|split; [exact EY2|split; [exact EZ2|split; [|reflexivity]]]]]]]]].
    exists qa. split; [exact EA|]. cbn [set_azm e_azm e_x e_y e_x2 e_y2 e0]. destruct (Qeq_bool qa 0) eqn:Z; split; intros H.
    + apply Qeq_bool_iff in Z. contradiction.
    + reflexivity.
    + reflexivity.
    + apply Qeq_bool_iff in H. congruence.
  - unfold EdiMetaModel.make_e. rewrite (get_float_at _ _ _ _ D1 RI). cbn [bindR]. unfold get_text at 1. rewrite D2, TO. rewrite (get_float_at _ _ _ _ D3 RX), (get_float_at _ _ _ _ D4 RY), (get_float_at _ _ _ _ D5 RZ), (get_float_at _ _ _ _ D6 RX2), (get_float_at _ _ _ _ D7 RY2), (get_float_at _ _ _ _ D8 RZ2), (get_float_at _ _ _ _ D9 RA). cbn [bindR].
    unfold get_text. rewrite D2, D10. change (mkE qi (e_chtype e) qx qy qz qx2 qy2 qz2 qa (e_acqchan e)) with (set_azm qa e0). rewrite (final_azm e0 qa). reflexivity.
Qed.
Lemma to_lower_h c : to_lower c = "h"%char <-> c = "h"%char \/ c = "H"%char.
Proof.
  assert (G : Bool.eqb (Ascii.eqb (to_lower c) "h") (Ascii.eqb c "h" || Ascii.eqb c "H") = true) by (revert c; apply ascii_forall; vm_compute; reflexivity).
  apply eqb_prop in G. rewrite <- !Ascii.eqb_eq, G, orb_true_iff. reflexivity.
Qed.
Lemma to_lower_e c : to_lower c = "e"%char <-> c = "e"%char \/ c = "E"%char.
Proof.
  assert (G : Bool.eqb (Ascii.eqb (to_lower c) "e") (Ascii.eqb c "e" || Ascii.eqb c "E") = true) by (revert c; apply ascii_forall; vm_compute; reflexivity).
  apply eqb_prop in G. rewrite <- !Ascii.eqb_eq, G, orb_true_iff. reflexivity.
Qed.
Lemma lower_has_h s : has_char "h" (lower s) = true <-> In "h"%char s \/ In "H"%char s.
Proof.
  rewrite has_char_In. unfold lower. rewrite in_map_iff. split.
  - intros (c & E & I). apply to_lower_h in E as [->| ->]; tauto.
  - intros [I|I]; eexists; (split; [|exact I]); reflexivity.
Qed.
Lemma lower_has_e s : has_char "e" (lower s) = true <-> In "e"%char s \/ In "E"%char s.
Proof.
  rewrite has_char_In. unfold lower. rewrite in_map_iff. split.
  - intros (c & E & I). apply to_lower_e in E as [->| ->]; tauto.
  - intros [I|I]; eexists; (split; [|exact I]); reflexivity.
Qed.
Lemma make_value_back m v0 : good_meas m -> exists m', make_value azimuth (lower (meas_chtype m)) (map lower_key (meas_fields m)) v0 = Ok (VMeas m') /\ same_meas azimuth m m'.
Proof.
  intros G. unfold make_value. destruct m as [h|e]; cbn [meas_chtype meas_fields].
  - pose proof G as (_ & _ & HH & _). rewrite (proj2 (lower_has_h _) HH). destruct (make_h_back h G) as (h' & E & S0). rewrite E. exists (MH h'). split; [reflexivity|exact S0].
  - pose proof G as (_ & _ & N1 & N2 & HE & _). destruct (has_char "h" (lower (e_chtype e))) eqn:H; [apply lower_has_h in H as [H|H]; contradiction|]. rewrite (proj2 (lower_has_e _) HE).
    destruct (make_e_back e G) as (e' & S0 & E). exists (ME e'). split; [exact E|exact S0].
Qed.
Lemma fields_chtype m : dget text_dec (txt "chtype") (map lower_key (meas_fields m)) = Some (meas_chtype m).
Proof. destruct m; reflexivity. Qed.
Lemma read_dict_new m v0 ms : good_meas m -> ~ In (lower (meas_chtype m)) (dkeys ms) ->
  exists m', read_dict azimuth (map lower_key (meas_fields m)) (v0, ms) = Ok (VMeas m', ms ++ [(lower (meas_chtype m), VMeas m')]) /\ same_meas azimuth m m'.
Proof.
  intros G N. destruct (make_value_back m v0 G) as (m' & E & S0). exists m'. split; [|exact S0]. unfold read_dict. rewrite fields_chtype. cbn [fst snd]. rewrite E. cbn [bindR].
  rewrite (proj2 (dget_None text_dec _ ms) N). rewrite (dset_fresh _ _ ms N). reflexivity.
Qed.
End E.
