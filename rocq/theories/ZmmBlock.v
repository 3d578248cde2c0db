(** Lemmas for C51: lines of words, one block, the file. *)
From Coq Require Import Qabs Qpower Lqa.
From Verif Require Import PyBase PyText TextFacts PyNum IsoModel IsoProofs PyFloat PyFloatFacts PySci PySciFacts EdiModel EdiProofs ZmmModel ZmmSpec ZmmProofs.
Local Open Scope list_scope.
Local Open Scope Z_scope.

(** ** Lines of words *)
Definition line_of (l : list (text * text)) : text := concat (map (fun p => fst p ++ snd p) l).
Definition spaces (s : text) : Prop := forallb is_space s = true.
Definition spaced (p : text * text) : Prop := fst p <> [] /\ spaces (fst p) /\ word (snd p).
Lemma line_of_app a b : line_of (a ++ b) = line_of a ++ line_of b.
Proof. unfold line_of. rewrite map_app, concat_app. reflexivity. Qed.
Lemma line_of_cons p l : line_of (p :: l) = fst p ++ snd p ++ line_of l.
Proof. unfold line_of. cbn [map concat]. rewrite <- app_assoc. reflexivity. Qed.
Lemma line_start l : Forall spaced l -> line_of l = [] \/ exists c r, line_of l = c :: r /\ is_space c = true.
Proof.
  intros F. destruct F as [|[sp w] l (N & S0 & _) F]; [left; reflexivity|]. right. rewrite line_of_cons. cbn [fst snd] in *.
  destruct sp as [|c sp]; [contradiction|]. unfold spaces in S0. cbn [forallb] in S0. apply andb_prop in S0 as [S0 _]. exists c. eexists. split; [reflexivity|exact S0].
Qed.
Lemma split_ws_line l : Forall spaced l -> split_ws (line_of l) = map snd l.
Proof.
  intros F. induction F as [|[sp w] l (N & S0 & W) F IH]; [reflexivity|]. rewrite line_of_cons. cbn [fst snd map] in *.
  rewrite (split_ws_lead sp _ S0). rewrite split_ws_cons; [rewrite IH; reflexivity|exact (proj1 W)|exact (proj2 W)|exact (line_start l F)].
Qed.
Lemma split_ws_line1 sp w l : spaces sp -> word w -> Forall spaced l -> split_ws (line_of ((sp, w) :: l)) = w :: map snd l.
Proof.
  intros S0 W F. rewrite line_of_cons. cbn [fst snd]. rewrite (split_ws_lead sp _ S0).
  rewrite split_ws_cons; [rewrite (split_ws_line l F); reflexivity|exact (proj1 W)|exact (proj2 W)|exact (line_start l F)].
Qed.
Lemma word_first w : word w -> forall c r, w = c :: r -> is_space c = false.
Proof. intros [_ H] c r ->. cbn [forallb] in H. apply andb_prop in H as [H _]. apply negb_true_iff in H. exact H. Qed.
Lemma word_last w : word w -> forall c r, w = r ++ [c] -> is_space c = false.
Proof. intros [_ H] c r ->. rewrite forallb_app in H. apply andb_prop in H as [_ H]. cbn [forallb] in H. apply andb_prop in H as [H _]. apply negb_true_iff in H. exact H. Qed.
Lemma word_trimmed w : word w -> strip w = w.
Proof. intros W. apply strip_trimmed. split; [exact (word_first w W)|exact (word_last w W)]. Qed.
Lemma last_word l x : word (snd x) -> forall c r, line_of (l ++ [x]) = r ++ [c] -> is_space c = false.
Proof.
  intros W c r E. rewrite line_of_app in E. destruct x as [sp w]. cbn [snd] in W. unfold line_of in E at 2. cbn [map concat fst snd] in E. rewrite app_nil_r in E.
  destruct (exists_last (proj1 W)) as (w' & c' & ->). rewrite !app_assoc in E. apply app_inj_tail in E as [_ <-].
  apply (word_last (w' ++ [c']) W c' w' eq_refl).
Qed.
Lemma strip_line sp w l : spaces sp -> word w -> Forall spaced l -> strip (line_of ((sp, w) :: l)) = w ++ line_of l.
Proof.
  intros S0 W F. rewrite line_of_cons. cbn [fst snd]. rewrite <- (app_nil_r (w ++ line_of l)) at 1.
  apply strip_pad; [exact S0|reflexivity|]. split.
  - intros c r E. destruct w as [|x w]; [destruct (proj1 W); reflexivity|]. cbn [app] in E. injection E as <- _. exact (word_first _ W x w eq_refl).
  - intros c r E. destruct l as [|y l] using rev_ind.
    + cbn [line_of map concat] in E. rewrite app_nil_r in E. exact (word_last w W c r E).
    + clear IHl. rewrite Forall_app in F. destruct F as [_ F]. inversion F as [|? ? (_ & _ & WY) _]; subst.
      assert (E' : line_of (([], w) :: l ++ [y]) = r ++ [c]) by (rewrite line_of_cons; exact E).
      change (([], w) :: l ++ [y]) with ((([], w) :: l) ++ [y]) in E'. exact (last_word _ y WY c r E').
Qed.
(** The word after [sep] in such a line. *)
Definition blank : text := txt " ".
Lemma after_in_line sep sp0 w0 l1 sp1 w l2 : spaces sp0 -> word w0 -> Forall spaced l1 -> word sep -> Forall spaced ((sp1, w) :: l2) ->
  existsb (contains sep) (w0 :: map snd l1) = false -> existsb (contains sep) (w :: map snd l2) = false ->
  word_after sep (line_of ((sp0, w0) :: l1 ++ (blank, sep) :: (sp1, w) :: l2)) = Ok w.
Proof.
  intros S0 W0 F1 WS F2 C1 C2. inversion F2 as [|? ? (N1 & S1 & W) F3]; subst. cbn [fst snd] in *.
  assert (FS : Forall spaced ((blank, sep) :: (sp1, w) :: l2)). { constructor; [|exact F2]. split; [discriminate|]. split; [reflexivity|exact WS]. }
  rewrite (word_after_mid sep _ (w0 ++ line_of l1) (line_of ((sp1, w) :: l2)) w (map snd l2)); [rewrite (word_trimmed w W); reflexivity|exact WS| | | |exact C2].
  - rewrite strip_line; [|exact S0|exact W0|rewrite Forall_app; split; [exact F1|exact FS]]. rewrite line_of_app, line_of_cons. cbn [fst snd blank].
    rewrite <- app_assoc. reflexivity.
  - assert (E : split_ws (w0 ++ line_of l1) = w0 :: map snd l1) by (exact (split_ws_line1 [] w0 l1 eq_refl W0 F1)). rewrite E. exact C1.
  - exact (split_ws_line1 sp1 w l2 S1 W F3).
Qed.
Lemma after_first sep sp0 sp1 w l2 : spaces sp0 -> word sep -> Forall spaced ((sp1, w) :: l2) -> existsb (contains sep) (w :: map snd l2) = false ->
  word_after sep (line_of ((sp0, sep) :: (sp1, w) :: l2)) = Ok w.
Proof.
  intros S0 WS F2 C2. inversion F2 as [|? ? (N1 & S1 & W) F3]; subst. cbn [fst snd] in *.
  rewrite (word_after_start sep _ (line_of ((sp1, w) :: l2)) w (map snd l2)); [rewrite (word_trimmed w W); reflexivity|exact WS| | |exact C2].
  - rewrite strip_line; [reflexivity|exact S0|exact WS|exact F2].
  - exact (split_ws_line1 sp1 w l2 S1 W F3).
Qed.
(** ** The two header lines of a block, in lower case and without "period" *)
Definition sp (n : nat) : text := repeat " "%char n.
Definition cl (w : nat) (s : text) : nat := Nat.div (w - List.length s) 2.
Definition cr (w : nat) (s : text) : nat := ((w - List.length s) - cl w s)%nat.
Lemma center_eq w s : center w s = sp (cl w s) ++ s ++ sp (cr w s).
Proof. reflexivity. Qed.
Lemma sp_S n : sp (S n) = blank ++ sp n.
Proof. reflexivity. Qed.
Lemma sp_snoc n : sp n ++ blank = blank ++ sp n.
Proof. unfold sp, blank. change (txt " ") with (repeat " "%char 1). rewrite <- !repeat_app. f_equal. lia. Qed.
Lemma sp_spaced n w : word w -> spaced (blank ++ sp n, w).
Proof. intros W. split; [discriminate|]. split; [|exact W]. cbn [fst]. unfold spaces. rewrite forallb_app. unfold sp. rewrite (spaces_space n). reflexivity. Qed.
Definition ptail (d : zdata) : list (text * text) :=
  [(blank, txt ":"); (blank ++ sp (cl 18 (show_fixed 5 (zd_period d))), show_fixed 5 (zd_period d));
   (blank ++ sp (cr 18 (show_fixed 5 (zd_period d))), txt "decimation"); (blank, txt "level");
   (blank ++ sp (cl 8 (show_int (zd_level d))), show_int (zd_level d)); (sp (cr 8 (show_int (zd_level d))), txt "freq."); (blank, txt "band"); (blank, txt "from");
   (blank ++ sp (5 - List.length (show_int (fst (zd_band d)))), show_int (fst (zd_band d))); (blank, txt "to");
   (blank ++ sp (5 - List.length (show_int (snd (zd_band d)))), show_int (snd (zd_band d)))].
Definition points (d : zdata) : list (text * text) :=
  [([], txt "number"); (blank, txt "of"); (blank, txt "data"); (blank, txt "point"); (blank, show_int (zd_npts d)); (blank, txt "sampling"); (blank, txt "freq."); (blank, zd_rate d); (blank, txt "hz")].
Lemma lower_num s : forallb num_char s = true -> lower s = s.
Proof. intros H. apply lower_sci, num_sci, H. Qed.
Lemma lower_period_line d : lower (period_line d) = txt "period" ++ line_of (ptail d).
Proof.
  unfold period_line, rjust. rewrite !center_eq, !lower_app. unfold sp. rewrite !lower_spaces. rewrite (lower_num _ (show_fixed_chars 5 _)), !(lower_num _ (show_int_chars _)).
  unfold ptail, line_of. cbn [map concat fst snd]. rewrite app_nil_r. unfold sp.
  assert (E : forall n, blank ++ repeat " "%char n = repeat " "%char n ++ blank) by (intros n; symmetry; apply (sp_snoc n)).
  rewrite (E (cr 18 (show_fixed 5 (zd_period d)))).
  change (lower (txt "period : ")) with (txt "period" ++ txt " : "). change (lower (txt " decimation level ")) with (blank ++ txt "decimation" ++ blank ++ txt "level" ++ blank).
  change (lower (txt "freq. band from ")) with (txt "freq." ++ blank ++ txt "band" ++ blank ++ txt "from" ++ blank). change (lower (txt " to ")) with (blank ++ txt "to" ++ blank).
  change (txt " : ") with (blank ++ txt ":" ++ blank). rewrite <- !app_assoc. reflexivity.
Qed.
Lemma lower_points_line d : forallb sci_char (zd_rate d) = true -> lower (points_line d) = line_of (points d).
Proof.
  intros R. unfold points_line. rewrite !lower_app, (lower_num _ (show_int_chars _)), (lower_sci _ R).
  unfold points, line_of. cbn [map concat fst snd]. rewrite app_nil_r.
  change (lower (txt "number of data point ")) with (txt "number" ++ blank ++ txt "of" ++ blank ++ txt "data" ++ blank ++ txt "point" ++ blank).
  change (lower (txt " sampling freq. ")) with (blank ++ txt "sampling" ++ blank ++ txt "freq." ++ blank). change (lower (txt " Hz")) with (blank ++ txt "hz").
  rewrite <- !app_assoc. reflexivity.
Qed.
Lemma txt_spaced s : word (txt s) -> spaced (blank, txt s).
Proof. intros W. split; [discriminate|]. split; [reflexivity|exact W]. Qed.
Ltac cword := split; [discriminate|reflexivity].
Lemma ptail_spaced n d : writable_block n d -> Forall spaced (ptail d).
Proof.
  intros (L & _). unfold ptail.
  assert (LV : spaced (sp (cr 8 (show_int (zd_level d))), txt "freq.")).
  { pose proof (level_length _ L) as H. split; [|split; [apply spaces_space|cword]]. cbn [fst]. unfold cr, cl.
    pose proof (Nat.div_lt (8 - List.length (show_int (zd_level d))) 2) as D. specialize (D ltac:(lia) ltac:(lia)).
    destruct (8 - List.length (show_int (zd_level d)) - (8 - List.length (show_int (zd_level d))) / 2)%nat eqn:E; [lia|discriminate]. }
  repeat (apply Forall_cons; [first [exact LV | apply txt_spaced; cword | apply sp_spaced; first [apply show_fixed_word | apply show_int_word | cword]]|]). apply Forall_nil.
Qed.
Lemma points_spaced n d : writable_block n d -> Forall spaced (tl (points d)).
Proof.
  intros (_ & RN & RS & _). unfold points. cbn [tl].
  repeat (apply Forall_cons; [first [apply txt_spaced; cword | split; [discriminate|split; [reflexivity|first [apply show_int_word | exact (sci_word _ RN RS)]]]]|]). apply Forall_nil.
Qed.
Lemma num_contains s x p : forallb num_char s = true -> sci_char x = false -> contains (x :: p) s = false.
Proof. intros H X. apply contains_head. exact (sci_no_letter s x (num_sci s H) X). Qed.
Lemma sci_contains s x p : forallb sci_char s = true -> sci_char x = false -> contains (x :: p) s = false.
Proof. intros H X. apply contains_head. exact (sci_no_letter s x H X). Qed.
Ltac kw s x p := change (txt s) with (x :: txt p).
Ltac nocontain := cbn [map snd existsb]; repeat first [rewrite (num_contains (show_fixed _ _)) by (first [apply show_fixed_chars | reflexivity]) | rewrite (num_contains (show_int _)) by (first [apply show_int_chars | reflexivity])]; reflexivity.
Lemma read_ptail n d : writable_block n d ->
  (exists p, number_at (txt ":") (line_of (ptail d)) = Ok (Fin p) /\ (p == inject_Z (round_half_even (zd_period d * inject_Z (10 ^ Z.of_nat 5))) / inject_Z (10 ^ Z.of_nat 5))%Q) /\
  integer_at (txt "level") (line_of (ptail d)) = Ok (zd_level d) /\
  integer_at (txt "from") (line_of (ptail d)) = Ok (fst (zd_band d)) /\
  integer_at (txt "to") (line_of (ptail d)) = Ok (snd (zd_band d)).
Proof.
  intros WB. pose proof (ptail_spaced n d WB) as F. unfold ptail in *. set (P := show_fixed 5 (zd_period d)) in *.
  assert (PC : forallb num_char P = true) by apply show_fixed_chars.
  repeat match goal with H : Forall spaced (_ :: _) |- _ => let A := fresh "A" in let B := fresh "F" in inversion H as [|? ? A B]; clear H; subst end.
  set (L := show_int (zd_level d)) in *. set (B0 := show_int (fst (zd_band d))) in *. set (B1 := show_int (snd (zd_band d))) in *.
  assert (LC : forallb num_char L = true) by apply show_int_chars. assert (C0 : forallb num_char B0 = true) by apply show_int_chars. assert (C1 : forallb num_char B1 = true) by apply show_int_chars.
  assert (NC : forall x p, sci_char x = false -> contains (x :: p) P = false /\ contains (x :: p) L = false /\ contains (x :: p) B0 = false /\ contains (x :: p) B1 = false)
    by (intros x p X; repeat split; apply num_contains; assumption).
  split; [|split; [|split]].
  - unfold number_at. destruct (read_show_scaled 5 (round_half_even (zd_period d * inject_Z (10 ^ Z.of_nat 5)))) as (q & R & E). exists q. split; [|exact E].
    rewrite after_first; [cbn [bindR]; change P with (show_scaled 5 (round_half_even (zd_period d * inject_Z (10 ^ Z.of_nat 5)))); rewrite R; reflexivity|reflexivity|cword| |].
    + repeat (apply Forall_cons; [assumption|]); constructor.
    + change (txt ":") with (":"%char :: []). cbn [map snd existsb]. destruct (NC ":"%char [] eq_refl) as (N1 & N2 & N3 & N4). rewrite N1, N2, N3, N4. reflexivity.
  - unfold integer_at.
    match goal with |- bindR (word_after _ (line_of (?a :: ?b :: ?c :: ?d :: ?e :: ?r))) _ = _ => change (a :: b :: c :: d :: e :: r) with (a :: [b; c] ++ d :: e :: r) end.
    rewrite after_in_line; [cbn [bindR]; unfold L; rewrite read_int_show; reflexivity|reflexivity|cword|repeat (apply Forall_cons; [assumption|]); constructor|cword|repeat (apply Forall_cons; [assumption|]); constructor| |].
    + kw "level"%string "l"%char "evel"%string. cbn [map snd existsb]. destruct (NC "l"%char (txt "evel") eq_refl) as (N1 & N2 & N3 & N4). rewrite N1. reflexivity.
    + kw "level"%string "l"%char "evel"%string. cbn [map snd existsb]. destruct (NC "l"%char (txt "evel") eq_refl) as (N1 & N2 & N3 & N4). rewrite N2, N3, N4. reflexivity.
  - unfold integer_at.
    match goal with |- bindR (word_after _ (line_of (?a :: ?b :: ?c :: ?d :: ?e :: ?f :: ?g :: ?h :: ?r))) _ = _ => change (a :: b :: c :: d :: e :: f :: g :: h :: r) with (a :: [b; c; d; e; f; g] ++ h :: r) end.
    rewrite after_in_line; [cbn [bindR]; unfold B0; rewrite read_int_show; reflexivity|reflexivity|cword|repeat (apply Forall_cons; [assumption|]); constructor|cword|repeat (apply Forall_cons; [assumption|]); constructor| |].
    + kw "from"%string "f"%char "rom"%string. cbn [map snd existsb]. destruct (NC "f"%char (txt "rom") eq_refl) as (N1 & N2 & N3 & N4). rewrite N1, N2. reflexivity.
    + kw "from"%string "f"%char "rom"%string. cbn [map snd existsb]. destruct (NC "f"%char (txt "rom") eq_refl) as (N1 & N2 & N3 & N4). rewrite N3, N4. reflexivity.
  - unfold integer_at.
    match goal with |- bindR (word_after _ (line_of (?a :: ?b :: ?c :: ?d :: ?e :: ?f :: ?g :: ?h :: ?i :: ?r))) _ = _ => change (a :: b :: c :: d :: e :: f :: g :: h :: i :: r) with (a :: [b; c; d; e; f; g; h; i] ++ r) end.
    rewrite after_in_line; [cbn [bindR]; unfold B1; rewrite read_int_show; reflexivity|reflexivity|cword|repeat (apply Forall_cons; [assumption|]); constructor|cword|repeat (apply Forall_cons; [assumption|]); constructor| |].
    + kw "to"%string "t"%char "o"%string. cbn [map snd existsb]. destruct (NC "t"%char (txt "o") eq_refl) as (N1 & N2 & N3 & N4). rewrite N1, N2, N3. reflexivity.
    + kw "to"%string "t"%char "o"%string. cbn [map snd existsb]. destruct (NC "t"%char (txt "o") eq_refl) as (N1 & N2 & N3 & N4). rewrite N4. reflexivity.
Qed.
Lemma read_points n d : writable_block n d ->
  integer_at (txt "point") (line_of (points d)) = Ok (zd_npts d) /\
  (exists v, number_at (txt "freq.") (line_of (points d)) = Ok v /\ read_float (zd_rate d) = Some v).
Proof.
  intros WB. pose proof (points_spaced n d WB) as F. destruct WB as (_ & RN & RS & (v & RV) & _). unfold points in *. cbn [tl] in F.
  repeat match goal with H : Forall spaced (_ :: _) |- _ => let A := fresh "A" in let B := fresh "F" in inversion H as [|? ? A B]; clear H; subst end.
  set (NP := show_int (zd_npts d)) in *. assert (NC : forallb num_char NP = true) by apply show_int_chars.
  split.
  - unfold integer_at.
    match goal with |- bindR (word_after _ (line_of (?a :: ?b :: ?c :: ?d :: ?r))) _ = _ => change (a :: b :: c :: d :: r) with (a :: [b; c] ++ d :: r) end.
    rewrite after_in_line; [cbn [bindR]; unfold NP; rewrite read_int_show; reflexivity|reflexivity|cword|repeat (apply Forall_cons; [assumption|]); constructor|cword|repeat (apply Forall_cons; [assumption|]); constructor|reflexivity|].
    kw "point"%string "p"%char "oint"%string. cbn [map snd existsb]. rewrite (num_contains NP _ _ NC), (sci_contains (zd_rate d) _ _ RS) by reflexivity. reflexivity.
  - exists v. split; [|exact RV]. unfold number_at.
    match goal with |- bindR (word_after _ (line_of (?a :: ?b :: ?c :: ?d :: ?e :: ?f :: ?r))) _ = _ => change (a :: b :: c :: d :: e :: f :: r) with (a :: [b; c; d; e; f] ++ r) end.
    rewrite after_in_line; [cbn [bindR]; rewrite RV; reflexivity|reflexivity|cword|repeat (apply Forall_cons; [assumption|]); constructor|cword|repeat (apply Forall_cons; [assumption|]); constructor| |].
    + kw "freq."%string "f"%char "req."%string. cbn [map snd existsb]. rewrite (num_contains NP _ _ NC) by reflexivity. reflexivity.
    + kw "freq."%string "f"%char "req."%string. cbn [map snd existsb]. rewrite (sci_contains (zd_rate d) _ _ RS) by reflexivity. reflexivity.
Qed.
