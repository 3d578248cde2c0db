(** C87: the HEAD section of EDI files. *)
From Coq Require Import Qabs Lqa.
From Verif Require Import PyBase PyFacts PyText TextFacts PyNum PyFloat PyFloatFacts PySci PySciFacts PyRepr PyReprFacts ZmmModel ZmmProofs MTimeModel MTimeSpec MTimeProofs IsoModel IsoSpec IsoProofs IsoProps UnitsModel EnumModel LocationModel LocationSpec LocationProofs LocationProps ValidatorsModel ValidatorsSpec ValidatorsProofs ValidatorsProps JfileModel EdiProofs EdiMetaModel EdiMetaSpec EdiMetaProofs EdiMeasProofs EdiMeasFile HeadModel HeadSpec HeadProofs HeadValues.
Local Open Scope list_scope.

(** ** One attribute *)
Lemma is_key_names n l : is_key n l = true <-> names l n.
Proof.
  unfold is_key, names. rewrite existsb_exists. split; intros (x & I & E); exists x; (split; [exact I|]).
  - apply text_eqb_eq. exact E.
  - subst. apply text_eqb_refl.
Qed.
Lemma key_lines k n : lon_format k -> names all_names n -> ~ names offsets n ->
  key_text (upper (header_key k n)) /\ lower (upper (header_key k n)) = header_key k n /\ is_key n ["x"; "x2"; "y"; "y2"; "z"; "z2"]%string = false /\ contains (txt "head") (header_key k n) = false.
Proof.
  intros LF A O. assert (KT : forall t, (2 <=? List.length t)%nat && forallb key_char t = true -> key_text t). { intros t H. apply andb_true_iff in H as [H1 H2]. apply Nat.leb_le in H1. rewrite forallb_forall in H2. split; assumption. }
  destruct A as (nm & IN & ->). unfold all_names, texts, places, times, declinations in IN. cbn [In app] in IN.
  unfold offsets in *. cbn [In] in IN.
  repeat (destruct IN as [<-|IN]; [first [solve [split; [apply KT; reflexivity|split; [reflexivity|split; reflexivity]]]|solve [rewrite header_key_lon; destruct LF as [E|E]; rewrite E; (split; [apply KT; reflexivity|split; [reflexivity|split; reflexivity]])]|solve [exfalso; apply O; eexists; split; [|reflexivity]; cbn [In]; tauto]]|]).
  contradiction IN.
Qed.

Lemma default_time : isoformat 315532800000000000 = default_stamp.
Proof. vm_compute. reflexivity. Qed.
Lemma empty_spec dd n v : readable dd n v -> empty_value v = true <-> is_empty_value v.
Proof.
  intros (v0 & R). split.
  - intros E. destruct R; cbn [empty_value] in E; unfold is_empty_value; try discriminate E;
      try (rewrite !orb_true_iff in E; destruct E as [[E|E]|E]; apply text_eqb_eq in E; subst; tauto).
    + destruct l; [tauto|discriminate E].
    + apply text_eqb_eq in E. rewrite <- default_time in E. pose proof (proj1 (C71_written_time_reads_back t t (parse_stamp_fixed t H0))) as P1. assert (S0 : stored 315532800000000000) by (right; right; vm_compute; repeat split; discriminate). pose proof (proj1 (C71_written_time_reads_back _ _ (parse_stamp_fixed _ S0))) as P2. rewrite E, P2 in P1. injection P1 as <-. tauto.
  - intros [->|[->|[->|[->|[->| ->]]]]]; reflexivity.
Qed.
Definition line_of_attribute (dd required : bool) (k : text) (d : hval) (n : text) (v : hval) : list text := if in_dict required n v then header_line dd k d n v else [].
Lemma lost_text n v : lost n v -> exists s, v = HText s /\ one_line s /\ In "="%char s.
Proof. intros [_ H]. exact H. Qed.
Lemma lost_not_readable dd n v : lost n v -> ~ readable dd n v.
Proof.
  intros (_ & s & -> & _ & I) (v' & R). inversion R; subst.
  - match goal with H : free s |- _ => exact (proj2 H I) end.
  - match goal with H : Forall name_char s |- _ => rewrite Forall_forall in H; apply H, name_char_station in I; destruct I as (_ & _ & X & _); discriminate X end.
  - match goal with H : names _ s |- _ => destruct H as (x & IN & ->) end. cbn [In] in IN. repeat (destruct IN as [<-|IN]; [cbn in I; repeat (destruct I as [I|I]; [discriminate I|]); contradiction I|]). contradiction IN.
  - match goal with H : names _ s |- _ => destruct H as (x & IN & ->) end. cbn [In] in IN. repeat (destruct IN as [<-|IN]; [cbn in I; repeat (destruct I as [I|I]; [discriminate I|]); contradiction I|]). contradiction IN.
  - match goal with H : free s |- _ => exact (proj2 H I) end.
Qed.
Lemma put_value n v h p m : value_of (put n v h p) m = if text_dec m n then v else value_of h m.
Proof. unfold value_of, put. cbn [attrs]. destruct (text_dec m n) as [->|N]; [rewrite dget_dset_eq; reflexivity|rewrite dget_dset_neq by exact N; reflexivity]. Qed.
Lemma step_attribute dd required k d n v : lon_format k -> names all_names n -> good_attribute dd n v ->
  Forall is_line (line_of_attribute dd required k d n v) /\
  exists outs, (forall r, header_list true (map edi_line (line_of_attribute dd required k d n v) ++ r) = outs ++ header_list true r) /\
    forall h, exists h', read_entries outs h = Ok h' /\ (forall m, m <> n -> value_of h' m = value_of h m) /\ becomes dd required n v (value_of h n) (value_of h' n).
Proof.
  intros LF A [GD GR].
  assert (NONE : not_written required n v -> forall h, exists h', read_entries [] h = Ok h' /\ (forall m, m <> n -> value_of h' m = value_of h m) /\ becomes dd required n v (value_of h n) (value_of h' n)).
  { intros NW h. exists h. split; [reflexivity|]. split; [reflexivity|]. constructor. exact NW. }
  destruct (is_key n offsets) eqn:OFF.
  { apply is_key_names in OFF. assert (E : line_of_attribute dd required k d n v = []). { unfold line_of_attribute, header_line. by_name OFF; destruct (in_dict _ _ _); reflexivity. } rewrite E. split; [constructor|]. exists []. split; [reflexivity|]. apply NONE. do 3 right. left. exact OFF. }
  assert (NO : ~ names offsets n) by (intros X; apply is_key_names in X; congruence). destruct (key_lines k n LF A NO) as (KT & LU & NX & _).
  destruct (in_dict required n v) eqn:ID.
  2:{ unfold line_of_attribute. rewrite ID. split; [constructor|]. exists []. split; [reflexivity|]. apply NONE. unfold in_dict in ID. rewrite !orb_false_iff, !negb_false_iff in ID. destruct ID as [[R E] Q].
      destruct (is_key n declinations) eqn:ND; [apply is_key_names in ND; right; right; left; exact ND|]. assert (NND : ~ names declinations n) by (intros X; apply is_key_names in X; congruence).
      destruct (GR NND NO) as [S|[L|RD]]; [left; exact S|right; left; exact L|]. do 4 right. split; [exact R|]. split; [apply (empty_spec dd n v RD); exact E|]. intros X. apply is_key_names in X. unfold required_fields in Q. congruence. }
  unfold line_of_attribute. rewrite ID. unfold header_line. rewrite NX.
  destruct (match v with HNone => true | HText s => text_eqb s (txt "None") | _ => false end) eqn:SV.
  { split; [constructor|]. exists []. split; [reflexivity|]. apply NONE. left. destruct v; try discriminate SV; [left; reflexivity|]. apply text_eqb_eq in SV. subst. right. reflexivity. }
  cbv zeta. destruct (contains (txt "declination") (header_key k n) && is_zero d)%bool eqn:DZ.
  { split; [constructor|]. exists []. split; [reflexivity|]. apply NONE. right. right. left. apply andb_true_iff in DZ as [DZ _]. apply is_key_names. clear - DZ LF A NO. destruct A as (nm & IN & ->). unfold all_names, texts, places, times, declinations in IN. cbn [In app] in IN.
    repeat (destruct IN as [<-|IN]; [try reflexivity; exfalso; try (rewrite header_key_lon in DZ; destruct LF as [E|E]; rewrite E in DZ); vm_compute in DZ; discriminate DZ|]). contradiction IN. }
  set (w := value_text dd (header_key k n) v). change ("009"%char :: upper (header_key k n) ++ equals :: w ++ ["010"%char]) with (hline (upper (header_key k n)) w).
  assert (ONE : one_line w -> Forall is_line [hline (upper (header_key k n)) w] /\ forall r, header_list true (map edi_line [hline (upper (header_key k n)) w] ++ r) = out (upper (header_key k n)) w ++ header_list true r).
  { intros O. split; [constructor; [apply is_line_hline; [exact KT|apply O]|constructor]|]. intros r. cbn [map app]. apply list_hline; assumption. }
  assert (NEQ : ~ In "="%char (upper (header_key k n))) by (apply key_no; [exact KT|left; reflexivity]).
  destruct (is_key n declinations) eqn:ND.
  - apply is_key_names in ND. assert (OW : one_line w). { destruct (GD ND) as [->|[(s & -> & O)|(q & -> & D)]]; [discriminate SV|exact O|]. assert (KK : w = show_float q) by (unfold w; by_name ND; reflexivity). rewrite KK. apply safe_free, show_float_safe. }
    destruct (ONE OW) as [F H]. split; [exact F|]. exists (out (upper (header_key k n)) w). split; [exact H|]. intros h. unfold out. destruct (has_char "=" w) eqn:HE; [apply NONE; right; right; left; exact ND|].
    apply has_char_notIn in HE. cbn [read_entries]. rewrite read_entry_kv; [|exact NEQ|]. 2:{ unfold tidy. intros I. apply strip_incl in I. apply filter_In in I as [I _]. exact (HE I). }
    rewrite LU. assert (KK : header_key k n = n) by (by_name ND; reflexivity). rewrite KK, kv_declination by exact ND. cbn [bindR read_entries]. eexists. split; [reflexivity|]. split; [reflexivity|]. constructor. right. right. left. exact ND.
  - assert (NND : ~ names declinations n) by (intros X; apply is_key_names in X; congruence). destruct (GR NND NO) as [S|[L|RD]].
    + exfalso. destruct S as [->| ->]; [discriminate SV|]. rewrite text_eqb_refl in SV. discriminate SV.
    + destruct (lost_text n v L) as (s & -> & O & I). destruct (ONE O) as [F H]. split; [exact F|]. exists (out (upper (header_key k n)) w). split; [exact H|]. intros h. unfold out. apply has_char_In in I. change w with s. rewrite I. apply NONE. right. left. exact L.
    + destruct (attribute_read dd k n v LF RD) as ([O NE] & v' & R' & RK). fold w in O, NE, RK. destruct (ONE O) as [F H]. split; [exact F|]. exists (out (upper (header_key k n)) w). split; [exact H|]. intros h. unfold out. apply has_char_notIn in NE. rewrite NE. apply has_char_notIn in NE. cbn [read_entries]. rewrite read_entry_kv; [|exact NEQ|].
      2:{ unfold tidy. intros I. apply strip_incl in I. apply filter_In in I as [I _]. exact (NE I). }
      rewrite LU. destruct (RK h) as (p & E). rewrite E. cbn [bindR]. exists (put n v' h p). split; [reflexivity|]. split; [intros m N; rewrite put_value; destruct (text_dec m n); [contradiction|reflexivity]|]. rewrite put_value. destruct (text_dec n n); [|congruence]. constructor; [|exact R'].
      intros [S|[L|[X|[X|(RQ & EV & NR)]]]]; [|exact (lost_not_readable dd n v L RD)|exact (NND X)|exact (NO X)|].
      * destruct S as [->| ->]; [discriminate SV|]. rewrite text_eqb_refl in SV. discriminate SV.
      * apply (empty_spec dd n v RD) in EV. unfold in_dict in ID. rewrite RQ, EV in ID. cbn in ID. apply NR. apply is_key_names. exact ID.
Qed.

(** ** The section *)
Lemma all_attributes n : In n (map fst attributes) <-> names all_names n.
Proof.
  assert (B1 : forallb (fun n => is_key n all_names) (map fst attributes) = true) by (vm_compute; reflexivity). assert (B2 : forallb (fun s => memb text_dec (txt s) (map fst attributes)) all_names = true) by (vm_compute; reflexivity).
  rewrite forallb_forall in B1, B2. split; intros H; [apply is_key_names, B1, H|]. destruct H as (s & I & ->). specialize (B2 s I). unfold memb in B2. destruct (in_dec text_dec (txt s) (map fst attributes)); [assumption|discriminate B2].
Qed.
Lemma attributes_nodup : NoDup (map fst attributes).
Proof. apply EdiMeasProofs.text_nodup. vm_compute. reflexivity. Qed.
Lemma stamped_value now version h n : value_of (stamped now version h) n = written now version h n.
Proof.
  unfold value_of, stamped, written. cbn [attrs]. assert (T : forall a b : text, text_eqb a b = if text_dec a b then true else false). { intros a b. destruct (text_dec a b) as [->|N]; [apply text_eqb_refl|]. destruct (text_eqb a b) eqn:E; [apply text_eqb_eq in E; contradiction|reflexivity]. }
  rewrite !T. repeat (match goal with |- context [dget text_dec n (dset text_dec ?k ?v ?d)] => destruct (text_dec n k) as [->|?]; [rewrite (dget_dset_eq text_dec)|rewrite (dget_dset_neq text_dec) by assumption] end; try reflexivity).
Qed.
Lemma attributes_read dd required k d (f : text -> hval) : lon_format k -> forall L, NoDup L -> (forall n, In n L -> names all_names n /\ good_attribute dd n (f n)) ->
  let lines := flat_map (fun n => line_of_attribute dd required k d n (f n)) L in
  Forall is_line lines /\ exists outs, (forall r, header_list true (map edi_line lines ++ r) = outs ++ header_list true r) /\
    forall h, exists h', read_entries outs h = Ok h' /\ (forall m, ~ In m L -> value_of h' m = value_of h m) /\ forall n, In n L -> becomes dd required n (f n) (value_of h n) (value_of h' n).
Proof.
  intros LF. induction L as [|n L IH]; intros ND G; cbv zeta; cbn [flat_map].
  - split; [constructor|]. exists []. split; [reflexivity|]. intros h. exists h. split; [reflexivity|]. split; [reflexivity|]. intros n [].
  - inversion ND as [|? ? NI ND']; subst. destruct (G n (or_introl eq_refl)) as [A GA]. destruct (step_attribute dd required k d n (f n) LF A GA) as (F1 & o1 & E1 & S1). destruct (IH ND' (fun m I => G m (or_intror I))) as (F2 & o2 & E2 & S2).
    split; [apply Forall_app; split; assumption|]. exists (o1 ++ o2). split.
    + intros r. rewrite map_app, <- app_assoc, E1, E2, app_assoc. reflexivity.
    + intros h. destruct (S1 h) as (h1 & R1 & O1 & B1). destruct (S2 h1) as (h2 & R2 & O2 & B2). exists h2. split.
      * assert (X : forall l1 l2 h, read_entries (l1 ++ l2) h = bindR (read_entries l1 h) (read_entries l2)). { induction l1 as [|e l1 IH1]; intros l2 h0; [reflexivity|]. cbn [app read_entries]. destruct (read_entry e h0); [cbn [bindR]; apply IH1|reflexivity]. }
        rewrite X, R1. exact R2.
      * split; [intros m I; rewrite O2, O1; [reflexivity|intros ->; apply I; left; reflexivity|intros J; apply I; right; exact J]|]. intros m [<-|I]; [rewrite O2 by exact NI; exact B1|]. assert (MN : m <> n) by (intros ->; exact (NI I)). rewrite <- (O1 m MN). exact (B2 m I).
Qed.
Lemma read_pre pre r : Forall (fun s => ~ starts_head s) pre -> header_list false (pre ++ r) = header_list false r.
Proof.
  induction 1 as [|s l N F IH]; [reflexivity|]. cbn [app header_list]. destruct (has_char gt s) eqn:G; cbn [andb].
  - destruct (contains (txt "head") (lower s)) eqn:C; [exfalso; apply N; split; [apply has_char_In; exact G|exact C]|exact IH].
  - exact IH.
Qed.
Lemma read_post l : after_head l -> header_list true l = [].
Proof.
  intros [->|(s & r & -> & G & C)]; [reflexivity|]. cbn [header_list]. apply has_char_In in G. unfold gt. rewrite G, C. reflexivity.
Qed.
Lemma write_lines dd k required now version h : write_header dd k required now version h =
  (txt ">HEAD" ++ [nl]) :: flat_map (fun n => line_of_attribute dd required k (written now version h (txt "declination.value")) n (written now version h n)) (map fst attributes) ++ [[nl]].
Proof. unfold write_header. cbv zeta. rewrite stamped_value. f_equal. f_equal. apply flat_map_ext. intros n. rewrite stamped_value. reflexivity. Qed.
(** The section that write_header makes is read back: every attribute that is written is expected as [reads] says, and all the others are
    those of the header that it is read into. *)
Theorem C87_header dd k required now version h h0 pre post : lon_format k -> (forall n, names all_names n -> good_attribute dd n (written now version h n)) -> Forall (fun s => ~ starts_head s) pre -> after_head post ->
  exists h1, read_header (pre ++ map edi_line (readlines (concat (write_header dd k required now version h))) ++ post) h0 = Ok h1 /\
    forall n, names all_names n -> becomes dd required n (written now version h n) (value_of h0 n) (value_of h1 n).
Proof.
  intros LF G PR PO. destruct (attributes_read dd required k (written now version h (txt "declination.value")) (written now version h) LF (map fst attributes) attributes_nodup) as (F & outs & E & S).
  { intros n I. apply all_attributes in I. split; [exact I|exact (G n I)]. }
  destruct (S h0) as (h1 & R & _ & B). exists h1. split; [|intros n A; apply B, all_attributes, A].
  rewrite write_lines, readlines_concat. 2:{ constructor; [exists (txt ">HEAD"); split; [reflexivity|cbn; intros I; repeat (destruct I as [I|I]; [discriminate I|]); contradiction I]|]. apply Forall_app. split; [exact F|]. constructor; [exists []; split; [reflexivity|intros []]|constructor]. }
  unfold read_header. rewrite (read_pre pre _ PR). cbn [map app]. change (header_list false (edi_line (txt ">HEAD" ++ [nl]) :: ?r)) with (header_list true r).
  rewrite map_app, <- app_assoc.
  rewrite E. cbn [map app]. match goal with |- read_entries (_ ++ header_list true (_ :: ?r)) _ = _ => change (header_list true (edi_line [nl] :: r)) with (header_list true r) end. rewrite (read_post post PO), app_nil_r. exact R.
Qed.
Lemma becomes_stays dd required n v v0 v1 : becomes dd required n v v0 v1 -> not_written required n v -> v1 = v0.
Proof. intros [N|v' N R] W; [reflexivity|contradiction]. Qed.
(** The declination is written as DECLINATION.VALUE, which is not read as the declination. *)
Theorem C87_declination_refuted dd k required now version h h0 q : lon_format k -> (forall n, names all_names n -> good_attribute dd n (written now version h n)) ->
  value_of h (txt "declination.value") = HNum q -> ~ (q == 0)%Q ->
  In ("009"%char :: txt "DECLINATION.VALUE=" ++ show_float q ++ [nl]) (write_header dd k required now version h) /\
  exists h1, read_header (map edi_line (readlines (concat (write_header dd k required now version h)))) h0 = Ok h1 /\ value_of h1 (txt "declination.value") = value_of h0 (txt "declination.value").
Proof.
  intros LF G D N. split.
  - rewrite write_lines. right. apply in_or_app. left. apply in_flat_map. exists (txt "declination.value"). split; [apply all_attributes; eexists; split; [|reflexivity]; cbn; tauto|].
    change (written now version h (txt "declination.value")) with (value_of h (txt "declination.value")). rewrite D. unfold line_of_attribute, in_dict. rewrite orb_true_r. unfold header_line, is_zero. assert (Z : Qeq_bool q 0 = false) by (apply not_true_iff_false; intros X; apply Qeq_bool_iff in X; exact (N X)). rewrite Z. left. reflexivity.
  - destruct (C87_header dd k required now version h h0 [] [] LF G (Forall_nil _) (or_introl eq_refl)) as (h1 & R & B). exists h1. rewrite app_nil_r in R. split; [exact R|]. assert (A : names declinations (txt "declination.value")) by (eexists; split; [|reflexivity]; cbn; tauto).
    assert (A2 : names all_names (txt "declination.value")) by (eexists; split; [|reflexivity]; cbn; tauto). apply (becomes_stays _ _ _ _ _ _ (B _ A2)). right. right. left. exact A.
Qed.
(** Alphabetical order of the attributes. *)
Lemma attribute_split n : names all_names n -> exists L1 L2, map fst attributes = L1 ++ n :: L2 /\ (forall m, In m L1 -> text_leb n m = false) /\ (forall m, In m (n :: L2) -> text_leb n m = true).
Proof.
  intros A. apply all_attributes in A. assert (X : forall l, (fix ok (l : list text) : bool := match l with [] => true | x :: r => (forallb (fun y => text_leb x y && negb (text_leb y x)) r && ok r)%bool end) l = true -> In n l ->
    exists L1 L2, l = L1 ++ n :: L2 /\ (forall m, In m L1 -> text_leb n m = false) /\ (forall m, In m L2 -> text_leb n m = true)).
  { induction l as [|x l IH]; intros H I; [destruct I|]. apply andb_true_iff in H as [H1 H2]. rewrite forallb_forall in H1. destruct (text_dec x n) as [->|N].
    - exists [], l. split; [reflexivity|]. split; [intros m []|]. intros m J. specialize (H1 m J). apply andb_true_iff in H1. apply H1.
    - destruct I as [I|I]; [contradiction|]. destruct (IH H2 I) as (L1 & L2 & E & B1 & B2). exists (x :: L1), L2. split; [rewrite E; reflexivity|]. split; [|exact B2]. intros m [<-|J]; [|exact (B1 m J)]. specialize (H1 n I). apply andb_true_iff in H1 as [_ H1]. apply negb_true_iff. exact H1. }
  destruct (X (map fst attributes) ltac:(vm_compute; reflexivity) A) as (L1 & L2 & E & B1 & B2). exists L1, L2. split; [exact E|]. split; [exact B1|]. intros m [<-|I]; [|exact (B2 m I)]. clear. induction n as [|c n IH]; [reflexivity|]. cbn [text_leb]. rewrite ?N.ltb_irrefl, ?Ascii.eqb_refl, ?IH. reflexivity.
Qed.

(** The lines of the attributes before one of them, and of the rest. *)
Lemma section_split dd k required now version h n : lon_format k -> names all_names n -> exists L1 L2,
  (forall m, In m L1 -> text_leb n m = false /\ names all_names m) /\ (forall m, names all_names m -> text_leb n m = false -> In m L1) /\ NoDup L1 /\
  let f := written now version h in let line := fun m => line_of_attribute dd required k (f (txt "declination.value")) m (f m) in
  write_header dd k required now version h = (txt ">HEAD" ++ [nl]) :: flat_map line L1 ++ line n ++ flat_map line L2 ++ [[nl]].
Proof.
  intros LF A. destruct (attribute_split n A) as (L1 & L2 & E & B1 & B2). exists L1, L2. pose proof attributes_nodup as ND. rewrite E in ND. split; [|split; [|split]].
  - intros m I. split; [exact (B1 m I)|]. apply all_attributes. rewrite E. apply in_or_app. left. exact I.
  - intros m AM T. apply all_attributes in AM. rewrite E in AM. apply in_app_or in AM as [I|I]; [exact I|]. rewrite (B2 m I) in T. discriminate T.
  - clear - ND. induction L1 as [|x L1 IH]; [constructor|]. cbn [app] in ND. inversion ND as [|? ? NI ND']; subst. constructor; [intros I; apply NI, in_or_app; left; exact I|exact (IH ND')].
  - cbv zeta. rewrite write_lines, E. f_equal. rewrite flat_map_app. cbn [flat_map]. rewrite <- !app_assoc. reflexivity.
Qed.
Lemma readlines_app a s : Forall is_line a -> readlines (concat a ++ s) = a ++ readlines s.
Proof.
  induction 1 as [|l a (x & -> & N) F IH]; [reflexivity|]. cbn [concat app]. rewrite <- IH. rewrite <- !app_assoc. unfold readlines in *. cbn [app]. rewrite readlines_from_line by exact N. reflexivity.
Qed.
(** What is read before the line of an attribute. *)
Lemma read_prefix dd k required now version h h0 n w : lon_format k -> names all_names n -> ~ In nl w ->
  (forall m, names all_names m -> text_leb n m = false -> good_attribute dd m (written now version h m)) ->
  line_of_attribute dd required k (written now version h (txt "declination.value")) n (written now version h n) = [hline (upper (header_key k n)) w] -> key_text (upper (header_key k n)) ->
  exists outs rest h1, readlines (concat (write_header dd k required now version h)) = rest /\ (exists rest', header_list false (map edi_line rest) = outs ++ header_list true (edi_line (hline (upper (header_key k n)) w) :: rest')) /\ read_entries outs h0 = Ok h1 /\
    (forall m, names all_names m -> text_leb n m = false -> becomes dd required m (written now version h m) (value_of h0 m) (value_of h1 m)) /\ (forall m, names all_names m -> text_leb n m = true -> value_of h1 m = value_of h0 m).
Proof.
  intros LF A NW G LN KT. destruct (section_split dd k required now version h n LF A) as (L1 & L2 & B1 & B2 & ND & E). cbv beta zeta in E.
  destruct (attributes_read dd required k (written now version h (txt "declination.value")) (written now version h) LF L1 ND) as (F & outs & EO & S).
  { intros m I. destruct (B1 m I) as [T AM]. split; [exact AM|exact (G m AM T)]. }
  destruct (S h0) as (h1 & R & O & B). rewrite LN in E. exists outs. eexists. exists h1. split; [reflexivity|]. split; [|split; [exact R|split]].
  - rewrite E. cbn [concat]. rewrite !concat_app. rewrite <- !app_assoc. change (concat [hline (upper (header_key k n)) w]) with (hline (upper (header_key k n)) w ++ []). rewrite app_nil_r. set (L := flat_map _ L1) in *.
    assert (Q : forall s, txt ">HEAD" ++ [nl] ++ concat L ++ hline (upper (header_key k n)) w ++ s = concat ((txt ">HEAD" ++ [nl]) :: L ++ [hline (upper (header_key k n)) w]) ++ s). { intros s. cbn [concat]. rewrite concat_app. cbn [concat]. rewrite app_nil_r, <- !app_assoc. reflexivity. }
    rewrite Q, readlines_app. 2:{ constructor; [exists (txt ">HEAD"); split; [reflexivity|cbn; intros I; repeat (destruct I as [I|I]; [discriminate I|]); contradiction I]|]. apply Forall_app. split; [exact F|]. constructor; [apply is_line_hline; assumption|constructor]. }
    eexists. rewrite map_app. cbn [map app]. change (header_list false (edi_line (txt ">HEAD" ++ [nl]) :: ?r)) with (header_list true r). rewrite map_app, <- app_assoc, EO. reflexivity.
  - intros m AM T. exact (B m (B2 m AM T)).
  - intros m AM T. apply O. intros I. destruct (B1 m I) as [X _]. congruence.
Qed.
(** A ">" in a text ends the section: that attribute and all the ones after it are lost. *)
Theorem C87_gt_refuted dd k required now version h h0 n s : lon_format k -> names ("dataid" :: "units" :: texts)%string n -> written now version h n = HText s -> In ">"%char s -> ~ In nl s -> contains (txt "head") (lower (bare s)) = false -> is_required n \/ required = false ->
  (forall m, names all_names m -> text_leb n m = false -> good_attribute dd m (written now version h m)) ->
  exists h1, read_header (map edi_line (readlines (concat (write_header dd k required now version h)))) h0 = Ok h1 /\
    (forall m, names all_names m -> text_leb n m = false -> becomes dd required m (written now version h m) (value_of h0 m) (value_of h1 m)) /\
    (forall m, names all_names m -> text_leb n m = true -> value_of h1 m = value_of h0 m).
Proof.
  intros LF T W GT NL HD RQ G. assert (A : names all_names n). { destruct T as (x & I & ->). exists x. split; [|reflexivity]. unfold all_names. cbn [In] in I. destruct I as [<-|[<-|I]]; [cbn; tauto|cbn; tauto|]. apply in_or_app. left. exact I. }
  assert (NO : ~ names offsets n) by (intros X; apply is_key_names in X; by_name T; discriminate X). destruct (key_lines k n LF A NO) as (KT & LU & NX & KH).
  assert (LN : line_of_attribute dd required k (written now version h (txt "declination.value")) n (written now version h n) = [hline (upper (header_key k n)) s]).
  { rewrite W. unfold line_of_attribute. assert (ID : in_dict required n (HText s) = true) by (unfold in_dict; destruct RQ as [X| ->]; [apply is_key_names in X; unfold required_fields; rewrite X, !orb_true_r; reflexivity|reflexivity]). rewrite ID. unfold header_line. rewrite NX.
    assert (NN : text_eqb s (txt "None") = false) by (destruct (text_eqb s (txt "None")) eqn:X; [apply text_eqb_eq in X; subst; cbn in GT; repeat (destruct GT as [GT|GT]; [discriminate GT|]); contradiction GT|reflexivity]). rewrite NN. cbv zeta. assert (CD : contains (txt "declination") (header_key k n) = false) by (by_name T; reflexivity). rewrite CD. reflexivity. }
  destruct (read_prefix dd k required now version h h0 n s LF A NL G LN KT) as (outs & rest & h1 & ER & (rest' & EH) & R & B & O). exists h1. split; [|split; assumption].
  unfold read_header. rewrite ER, EH. rewrite (edi_hline _ _ KT). cbn [header_list]. assert (G1 : has_char gt (hline (upper (header_key k n)) (clean s)) = true). { apply has_char_In. unfold hline, gt. right. apply in_or_app. right. right. apply in_or_app. left. apply clean_In_iff; [reflexivity|exact GT]. }
  rewrite G1. assert (C1 : contains (txt "head") (lower (hline (upper (header_key k n)) (clean s))) = false).
  { unfold hline. cbn [lower map]. fold (lower (upper (header_key k n) ++ "="%char :: clean s ++ [nl])). rewrite lower_app, LU. cbn [lower map]. fold (lower (clean s ++ [nl])). rewrite lower_app.
    change (to_lower "009"%char :: header_key k n ++ to_lower "="%char :: lower (clean s) ++ lower [nl]) with ([] ++ "009"%char :: header_key k n ++ "="%char :: lower (clean s) ++ nl :: []). rewrite contains_sep by (cbn; intros X; repeat (destruct X as [X|X]; [discriminate X|]); contradiction X). rewrite contains_sep by (cbn; intros X; repeat (destruct X as [X|X]; [discriminate X|]); contradiction X). rewrite contains_sep by (cbn; intros X; repeat (destruct X as [X|X]; [discriminate X|]); contradiction X). rewrite KH. rewrite HD. reflexivity. }
  rewrite C1. cbn [andb]. rewrite app_nil_r. exact R.
Qed.
(** A header without station name, which is the default, cannot be read back. *)
Theorem C87_no_station_refuted dd k required now version h h0 : lon_format k -> value_of h (txt "dataid") = HText [] ->
  (forall m, names all_names m -> text_leb (txt "dataid") m = false -> good_attribute dd m (written now version h m)) ->
  read_header (map edi_line (readlines (concat (write_header dd k required now version h)))) h0 = Err ValueError.
Proof.
  intros LF D G. assert (A : names all_names (txt "dataid")) by (eexists; split; [|reflexivity]; cbn; tauto). assert (W : written now version h (txt "dataid") = HText []) by exact D.
  assert (NO : ~ names offsets (txt "dataid")) by (intros X; apply is_key_names in X; discriminate X). destruct (key_lines k _ LF A NO) as (KT & LU & NX & KH).
  assert (LN : line_of_attribute dd required k (written now version h (txt "declination.value")) (txt "dataid") (written now version h (txt "dataid")) = [hline (upper (header_key k (txt "dataid"))) []]) by (rewrite W; unfold line_of_attribute, in_dict; rewrite !orb_true_r; reflexivity).
  destruct (read_prefix dd k required now version h h0 _ [] LF A (fun I => I) G LN KT) as (outs & rest & h1 & ER & (rest' & EH) & R & B & O).
  unfold read_header. rewrite ER, EH. rewrite list_hline; [|exact KT|split; intros []]. change (out (upper (header_key k (txt "dataid"))) []) with [txt "DATAID="]. cbn [app].
  assert (X : forall l1 l2 h, read_entries (l1 ++ l2) h = bindR (read_entries l1 h) (read_entries l2)). { induction l1 as [|e l1 IH1]; intros l2 h2; [reflexivity|]. cbn [app read_entries]. destruct (read_entry e h2); [cbn [bindR]; apply IH1|reflexivity]. }
  rewrite X, R. reflexivity.
Qed.
(** A line DECLINATION= is read as the declination. *)
Theorem C87_declination_line q h : is_decimal q -> exists q' h1, read_header [txt ">HEAD" ++ [nl]; txt "  DECLINATION=" ++ show_float q ++ [nl]] h = Ok h1 /\ value_of h1 (txt "declination.value") = HNum q' /\ (q' == q)%Q.
Proof.
  intros D. destruct (read_show_float q D) as (q' & R & E). pose proof (show_float_safe q) as SF. destruct (safe_free _ SF) as [[N1 N2] N3].
  assert (HL : header_list false [txt ">HEAD" ++ [nl]; txt "  DECLINATION=" ++ show_float q ++ [nl]] = [txt "DECLINATION" ++ "="%char :: show_float q]).
  { change (header_list false [txt ">HEAD" ++ [nl]; txt "  DECLINATION=" ++ show_float q ++ [nl]]) with (header_list true [txt "  DECLINATION=" ++ show_float q ++ [nl]]). cbn [header_list].
    assert (G : has_char gt (txt "  DECLINATION=" ++ show_float q ++ [nl]) = false). { apply has_char_notIn. intros I. apply in_app_or in I as [I|I]; [cbn in I; repeat (destruct I as [I|I]; [discriminate I|]); contradiction I|]. apply in_app_or in I as [I|[X|[]]]; [exact (N2 I)|discriminate X]. }
    rewrite G. cbn [andb]. rewrite app_nil_r. unfold header_entry.
    assert (ST : strip (txt "  DECLINATION=" ++ show_float q ++ [nl]) = txt "DECLINATION" ++ "="%char :: show_float q).
    { change (txt "  DECLINATION=" ++ show_float q ++ [nl]) with (txt "  " ++ txt "DECLINATION=" ++ show_float q ++ [nl]). replace (txt "DECLINATION=" ++ show_float q ++ [nl]) with ((txt "DECLINATION" ++ "="%char :: show_float q) ++ [nl]) by (rewrite <- app_assoc; reflexivity). apply strip_pad; [reflexivity|reflexivity|]. apply (trimmed_app3 (txt "DECLINATION") [equals] (show_float q)); [split; intros c r X; [injection X as <- _; reflexivity|change (txt "DECLINATION") with (txt "DECLINATIO" ++ ["N"%char]) in X; apply app_inj_tail in X as [_ <-]; reflexivity]|discriminate| |].
      - unfold safe in SF. rewrite forallb_forall in SF. split; intros c r X; (assert (I : In c (show_float q)) by (rewrite X; first [left; reflexivity|apply in_or_app; right; left; reflexivity])); apply SF, key_char_spec in I; apply I.
      - intros X. rewrite X in R. discriminate R. }
    rewrite ST. change (List.length (txt "DECLINATION" ++ "="%char :: show_float q) <=? 2)%nat with false. cbv iota. rewrite replace_char_absent; [|intros I; apply in_app_or in I as [I|[X|I]]; [cbn in I; repeat (destruct I as [I|I]; [discriminate I|]); contradiction I|discriminate X|]; unfold safe in SF; rewrite forallb_forall in SF; apply SF in I; discriminate I].
    unfold equals. rewrite split_on_app by (cbn; intros I; repeat (destruct I as [I|I]; [discriminate I|]); contradiction I). rewrite split_on_no by exact N3. assert (SS : strip (show_float q) = show_float q) by (pose proof (safe_tidy _ SF) as X; unfold tidy in X; rewrite clean_id in X; [exact X|]; intros c I; unfold safe in SF; rewrite forallb_forall in SF; apply SF, key_char_spec in I; apply I). rewrite SS. reflexivity. }
  unfold read_header. rewrite HL. cbn [read_entries]. rewrite read_entry_kv; [|cbn; intros I; repeat (destruct I as [I|I]; [discriminate I|]); contradiction I|exact N3].
  change (read_kv (lower (txt "DECLINATION")) (show_float q) h) with (bindR (check KNumber (show_float q)) (fun v => Ok (mkHeader (dset text_dec (txt "declination.value") v (attrs h)) (extras h) (phoenix h)))). unfold check. rewrite R. cbn [bindR]. exists q'. eexists. split; [reflexivity|]. split; [|exact E]. unfold value_of. cbn [attrs]. rewrite dget_dset_eq. reflexivity.
Qed.

(** A header that meets these conditions, and what becomes of it. *)
Definition sample : header := mkHeader
  [(txt "acqby", HText (txt "mt experts")); (txt "acqdate", HTime 1577836800000000000); (txt "coordinate_system", HText (txt "geographic")); (txt "country", HTexts [txt "USA"; txt "Canada"]);
   (txt "dataid", HText (txt "mt001")); (txt "datum", HText (txt "WGS 84")); (txt "declination.model", HText (txt "IGRF")); (txt "declination.value", HNum (25 # 2)); (txt "elevation", HNum (12345 # 10)); (txt "empty", HNum (inject_Z (10 ^ 32)));
   (txt "enddate", HTime 315532800000000000); (txt "fileby", HText (txt "a [b]")); (txt "filedate", HTime 315532800000000000); (txt "latitude", HNum (4525 # 100)); (txt "loc", HText (txt "x=1")); (txt "longitude", HNum (-1225 # 10));
   (txt "progdate", HTime 315532800000000000); (txt "progname", HText (txt "other")); (txt "progvers", HText (txt "0")); (txt "stdvers", HText (txt "SEG 1.0")); (txt "units", HText (txt "milliVolt per kilometer per nanoTesla")); (txt "x", HNum 0)] [] false.
Definition free_b (s : text) : bool := negb (existsb (fun c => existsb (Ascii.eqb c) [nl; ">"%char; "="%char]) s).
Lemma free_of_b s : free_b s = true -> free s.
Proof.
  unfold free_b. intros H. apply negb_true_iff in H. assert (X : forall c, In c [nl; ">"%char; "="%char] -> ~ In c s). { intros c C I. apply not_true_iff_false in H. apply H. apply existsb_exists. exists c. split; [exact I|]. apply existsb_exists. exists c. split; [exact C|apply Ascii.eqb_refl]. }
  split; [split|]; apply X; cbn; tauto.
Qed.
Ltac nm := eexists; split; [|reflexivity]; cbn; tauto.
Example C87_header_hyp : forall n, names all_names n -> good_attribute false n (written 1700000000000000000 (txt "1.0.4") sample n).
Proof.
  intros n (s & I & ->). unfold all_names, texts, places, times, declinations, offsets in I. cbn [In app] in I.
  repeat (destruct I as [<-|I]; [split; [intros DN; try (exfalso; apply is_key_names in DN; vm_compute in DN; discriminate DN)|intros DN ON]|]); try contradiction I.
  all: try (left; left; reflexivity).
  all: try (exfalso; apply DN; nm). all: try (exfalso; apply ON; nm).
  all: try (right; right; eexists; apply reads_text; [nm|apply free_of_b; vm_compute; reflexivity]).
  all: try (right; right; eexists; apply reads_time; [nm|right; right; vm_compute; repeat split; discriminate]).
  all: try (left; reflexivity).
  - right. left. split; [nm|]. eexists. split; [reflexivity|]. split; [split|]; cbn; intros; intuition discriminate.
  - right. right. eexists. apply reads_list; [nm|]. intros s [<-|[<-|[]]]; apply free_of_b; vm_compute; reflexivity.
  - right. right. eexists. apply reads_frame. nm.
  - right. right. eexists. apply reads_station; [discriminate|]. repeat constructor; vm_compute; tauto.
  - right. right. exists (HNum (12345 # 10)). apply reads_elevation. vm_compute. discriminate.
  - right. right. exists (HNum (inject_Z (10 ^ 32))). apply reads_empty; [exists 1%Z, 32%Z; vm_compute; reflexivity|reflexivity].
  - right. right. exists (HNum (4525 # 100)). apply reads_latitude; [split; [split; vm_compute; discriminate|intros _; right; vm_compute; discriminate]|vm_compute; discriminate].
  - right. right. exists (HNum (-1225 # 10)). apply reads_longitude; [split; [split; vm_compute; discriminate|intros _; left; vm_compute; discriminate]|vm_compute; discriminate].
  - right. right. eexists. apply reads_version. nm.
  - right. right. eexists. apply reads_units; [apply free_of_b; vm_compute; reflexivity|vm_compute; reflexivity|right; vm_compute; reflexivity].
  - right. left. eexists. split; [reflexivity|]. split; intros I; cbn in I; repeat (destruct I as [I|I]; [discriminate I|]); contradiction I.
  - right. right. exists (25 # 2). split; [reflexivity|]. exists 125%Z, (-1)%Z. vm_compute. reflexivity.
Qed.
(** The same header with another text. *)
Definition with_text (n : text) (s : text) : header := mkHeader (dset text_dec n (HText s) (attrs sample)) [] false.
Lemma with_text_others n s m : m <> n -> written 1700000000000000000 (txt "1.0.4") (with_text n s) m = written 1700000000000000000 (txt "1.0.4") sample m.
Proof. intros N. unfold written, value_of, with_text. cbn [attrs]. rewrite dget_dset_neq by congruence. reflexivity. Qed.
Lemma before_other n s : text_leb n n = true -> forall m, names all_names m -> text_leb n m = false -> good_attribute false m (written 1700000000000000000 (txt "1.0.4") (with_text n s) m).
Proof. intros R m A L. rewrite with_text_others by (intros ->; congruence). exact (C87_header_hyp m A). Qed.
Example C87_declination_refuted_hyp : value_of sample (txt "declination.value") = HNum (25 # 2) /\ ~ (25 # 2 == 0)%Q.
Proof. split; [reflexivity|discriminate]. Qed.
Example C87_gt_refuted_hyp : let h := with_text (txt "project") (txt "a > b") in
  written 1700000000000000000 (txt "1.0.4") h (txt "project") = HText (txt "a > b") /\ In ">"%char (txt "a > b") /\ ~ In nl (txt "a > b") /\
  (forall m, names all_names m -> text_leb (txt "project") m = false -> good_attribute false m (written 1700000000000000000 (txt "1.0.4") h m)) /\
  text_leb (txt "project") (txt "units") = true.
Proof. cbv zeta. split; [reflexivity|]. split; [cbn; tauto|]. split; [cbn; intuition discriminate|]. split; [apply before_other; reflexivity|reflexivity]. Qed.
Example C87_no_station_refuted_hyp : let h := with_text (txt "dataid") [] in value_of h (txt "dataid") = HText [] /\
  (forall m, names all_names m -> text_leb (txt "dataid") m = false -> good_attribute false m (written 1700000000000000000 (txt "1.0.4") h m)).
Proof. cbv zeta. split; [reflexivity|apply before_other; reflexivity]. Qed.
Example C87_declination_line_hyp : is_decimal (25 # 2).
Proof. exists 125%Z, (-1)%Z. vm_compute. reflexivity. Qed.
Print Assumptions C87_header.
Print Assumptions C87_declination_refuted.
Print Assumptions C87_gt_refuted.
Print Assumptions C87_no_station_refuted.
Print Assumptions C87_declination_line.
