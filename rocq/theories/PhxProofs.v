(** Facts about the Phoenix format of the INFO section. *)
From Verif Require Import PyBase PyFacts PyText TextFacts PyNum PyFloat PyRepr EdiProofs EdiMetaModel EdiMetaSpec HeadSpec HeadProofs InfoModel InfoSpec InfoProofs InfoProps PhxSpec.
From Coq Require Import Lia.
Local Open Scope list_scope.

Lemma blanks_forallb s : blanks s <-> forallb is_space s = true.
Proof. symmetry. apply forallb_forall. Qed.
(** ** Words and gaps *)
Lemma words_app_space a c b : is_space c = true -> forall pos cur, words_at pos cur (a ++ c :: b) = words_at pos cur a ++ words_at (Datatypes.S (pos + List.length a)) [] b.
Proof.
  intros C. induction a as [|x a IH]; intros pos cur.
  - cbn [app words_at]. cbv zeta. rewrite C. cbn [List.length]. rewrite Nat.add_0_r. reflexivity.
  - cbn [app words_at List.length]. cbv zeta. replace (pos + Datatypes.S (List.length a))%nat with (Datatypes.S pos + List.length a)%nat by lia. destruct (is_space x); [rewrite IH, app_assoc; reflexivity|apply IH].
Qed.
Lemma words_spaces sp b : forallb is_space sp = true -> forall pos, words_at pos [] (sp ++ b) = words_at (pos + List.length sp) [] b.
Proof.
  induction sp as [|c sp IH]; intros H pos; [cbn [app List.length]; rewrite Nat.add_0_r; reflexivity|]. cbn [forallb] in H. apply andb_true_iff in H as [C H]. cbn [app words_at List.length]. cbv zeta. rewrite C. cbn [app]. rewrite (IH H). f_equal. lia.
Qed.
Lemma words_fst s : forall pos cur, map fst (words_at pos cur s) = split_ws_from cur s.
Proof.
  induction s as [|c s IH]; intros pos cur; cbn [words_at split_ws_from]; cbv zeta.
  - destruct cur; reflexivity.
  - destruct (is_space c); [|apply IH]. rewrite map_app, IH. destruct cur; reflexivity.
Qed.
Lemma words_count s pos : List.length (words_at pos [] s) = List.length (split_ws s).
Proof. unfold split_ws. rewrite <- (words_fst s pos []), map_length. reflexivity. Qed.
Lemma words_room s : forall cur, (2 * List.length (split_ws_from cur s) <= List.length s + match cur with [] => 1 | _ => 2 end)%nat.
Proof.
  induction s as [|c s IH]; intros cur; cbn [split_ws_from].
  - destruct cur; cbn; lia.
  - destruct (is_space c).
    + destruct cur; cbn [List.length]; [pose proof (IH []); cbn in *; lia|pose proof (IH []); cbn in *; lia].
    + pose proof (IH (c :: cur)) as X. cbn [List.length] in *. destruct cur; lia.
Qed.
Lemma words_first c s pos : is_space c = false -> exists w r, words_at pos [] (c :: s) = (w, pos) :: r.
Proof.
  intros C. cbn [words_at]. cbv zeta. rewrite C. destruct (words_cur s (Datatypes.S pos) [c] ltac:(discriminate) ltac:(cbn; lia)) as (w & r & E). exists w, r. rewrite E. cbn [List.length]. repeat f_equal. lia.
Qed.
(** The last word ends where the text ends. *)
Lemma words_last s c : is_space c = false -> forall pos cur, (List.length cur <= pos)%nat ->
  exists r w i, words_at pos cur (s ++ [c]) = r ++ [(w, i)] /\ (i + List.length w = pos + Datatypes.S (List.length s))%nat.
Proof.
  intros C. induction s as [|x s IH]; intros pos cur L.
  - cbn [app words_at]. cbv zeta. rewrite C. exists []. eexists _, _. split; [reflexivity|]. rewrite rev_length. cbn [List.length]. lia.
  - cbn [app words_at]. cbv zeta. destruct (is_space x).
    + destruct (IH (Datatypes.S pos) [] ltac:(cbn; lia)) as (r & w & i & E & P). rewrite E. exists (match cur with [] => [] | _ => [(rev cur, (pos - List.length cur)%nat)] end ++ r), w, i. split; [apply app_assoc|]. cbn [List.length]. lia.
    + destruct (IH (Datatypes.S pos) (x :: cur) ltac:(cbn [List.length]; lia)) as (r & w & i & E & P). exists r, w, i. split; [exact E|]. cbn [List.length]. lia.
Qed.
Lemma gaps_app r w i w2 j r2 : gaps (r ++ (w, i) :: (w2, j) :: r2) = gaps (r ++ [(w, i)]) ++ (j - (i + List.length w))%nat :: gaps ((w2, j) :: r2).
Proof.
  induction r as [|[w0 i0] r IH]; [reflexivity|]. destruct r as [|[w1 i1] r]; [reflexivity|]. cbn [app] in *. change (gaps ((w0, i0) :: (w1, i1) :: r ++ (w, i) :: (w2, j) :: r2)) with ((i1 - (i0 + List.length w0))%nat :: gaps ((w1, i1) :: r ++ (w, i) :: (w2, j) :: r2)). rewrite IH. reflexivity.
Qed.
Lemma gaps_length l : List.length (gaps l) = pred (List.length l).
Proof. induction l as [|[w i] l IH]; [reflexivity|]. destruct l as [|[w2 j] l]; [reflexivity|]. cbn [gaps List.length pred] in *. rewrite IH. reflexivity. Qed.
(** Each gap is a run of blanks before a word. *)
Lemma gap_split s : forall pos cur, (List.length cur <= pos)%nat -> forall i, (i < List.length (gaps (words_at pos cur s)))%nat ->
  exists a sp b, s = a ++ sp ++ b /\ forallb is_space sp = true /\ List.length sp = nth i (gaps (words_at pos cur s)) 0%nat /\
  snd (nth (Datatypes.S i) (words_at pos cur s) ([], 0%nat)) = (pos + List.length a + List.length sp)%nat.
Proof.
  induction s as [|c s IH]; intros pos cur L i I.
  - cbn [words_at] in I. cbv zeta in I. destruct cur; cbn in I; lia.
  - cbn [words_at] in *. cbv zeta in *. destruct (is_space c) eqn:C.
    + destruct cur as [|x cur].
      * cbn [app] in *. destruct (IH (Datatypes.S pos) [] ltac:(cbn; lia) i I) as (a & sp & b & -> & S & G & P). exists (c :: a), sp, b. split; [reflexivity|]. split; [exact S|]. split; [exact G|]. rewrite P. cbn [List.length]. lia.
      * cbn [app] in *. set (W := words_at (Datatypes.S pos) [] s) in *. destruct W as [|[w2 j] W'] eqn:EW; [cbn in I; lia|].
        assert (GE : forall u, gaps (u :: (w2, j) :: W') = (j - (snd u + List.length (fst u)))%nat :: gaps ((w2, j) :: W')) by (intros [u v]; reflexivity). rewrite GE in *. cbn [fst snd] in *. destruct i as [|i].
        -- destruct (lstrip_decomp s) as (sp & E & S). exists [], (c :: sp), (lstrip s). split; [cbn [app]; f_equal; exact E|]. split; [cbn [forallb]; rewrite C; exact S|].
           assert (J : j = (Datatypes.S pos + List.length sp)%nat).
           { subst W. rewrite E in EW. rewrite (words_spaces sp _ S) in EW. destruct (lstrip s) as [|y t] eqn:EL; [discriminate EW|]. assert (Y : is_space y = false). { destruct (is_space y) eqn:Y; [|reflexivity]. exfalso. clear -EL Y. revert y t EL Y. induction s as [|z s IHs]; intros y t EL Y; [discriminate EL|]. cbn [lstrip] in EL. destruct (is_space z) eqn:Z; [exact (IHs y t EL Y)|]. injection EL as -> _. rewrite Y in Z. discriminate Z. }
             destruct (words_first y t (Datatypes.S pos + List.length sp) Y) as (w' & r' & E'). rewrite E' in EW. injection EW as _ <- _. reflexivity. }
           cbn [nth snd List.length]. rewrite rev_length. cbn [List.length] in *. split; [lia|lia].
        -- cbn [List.length] in I. pose proof (IH (Datatypes.S pos) [] ltac:(cbn; lia) i) as X. fold W in X. rewrite EW in X. destruct (X ltac:(lia)) as (a & sp & b & E & S & G & P). exists (c :: a), sp, b. split; [cbn [app]; f_equal; exact E|]. split; [exact S|]. cbn [nth] in *. split; [exact G|]. rewrite P. cbn [List.length]. lia.
    + destruct (IH (Datatypes.S pos) (c :: cur) ltac:(cbn [List.length]; lia) i I) as (a & sp & b & E & S & G & P). exists (c :: a), sp, b. split; [cbn [app]; f_equal; exact E|]. split; [exact S|]. split; [exact G|]. rewrite P. cbn [List.length]. lia.
Qed.
Lemma narrow_gaps n s pos : narrow n s -> Forall (fun g => (g < n)%nat) (gaps (words_at pos [] s)).
Proof.
  intros N. apply Forall_forall. intros g G. apply (In_nth _ _ 0%nat) in G as (i & I & <-). destruct (gap_split s pos [] ltac:(cbn; lia) i I) as (a & sp & b & E & S & <- & _). apply (N a sp b E). apply blanks_forallb. exact S.
Qed.
Lemma max_of l : forall g, In g l -> (g <= fold_right Nat.max 0 l)%nat.
Proof. induction l as [|x l IH]; intros g []; cbn [fold_right]; [subst; lia|specialize (IH g H); lia]. Qed.
Lemma max_in l : l <> [] -> In (fold_right Nat.max 0%nat l) l.
Proof.
  induction l as [|x l IH]; [contradiction|]. intros _. cbn [fold_right]. destruct l as [|y l]; [left; cbn; lia|]. specialize (IH ltac:(discriminate)). destruct (Nat.max_spec x (fold_right Nat.max 0%nat (y :: l))) as [[_ ->]|[_ ->]]; [right; exact IH|left; reflexivity].
Qed.
Lemma max_mid g1 n g2 : Forall (fun g => (g < n)%nat) g1 -> Forall (fun g => (g < Datatypes.S n)%nat) g2 -> fold_right Nat.max 0%nat (g1 ++ n :: g2) = n.
Proof.
  intros A B. apply Nat.le_antisymm.
  - pose proof (max_in (g1 ++ n :: g2) ltac:(destruct g1; discriminate)) as I. apply in_app_or in I as [I|[I|I]]; [|lia|].
    + rewrite Forall_forall in A. specialize (A _ I). lia.
    + rewrite Forall_forall in B. specialize (B _ I). lia.
  - apply max_of. apply in_or_app. right. left. reflexivity.
Qed.
Lemma index_mid g1 n g2 : Forall (fun g => (g < n)%nat) g1 -> index_of n (g1 ++ n :: g2) = List.length g1.
Proof. induction 1 as [|g g1 G F IH]; cbn [app index_of List.length]; [rewrite Nat.eqb_refl; reflexivity|]. destruct (Nat.eqb_spec g n); [lia|]. rewrite IH. reflexivity. Qed.
Lemma index_in n l : In n l -> (index_of n l < List.length l)%nat /\ nth (index_of n l) l 0%nat = n.
Proof.
  induction l as [|x l IH]; [intros []|]. intros I. cbn [index_of]. destruct (Nat.eqb_spec x n) as [->|N]; [split; [cbn; lia|reflexivity]|]. destruct I as [I|I]; [contradiction|]. destruct (IH I) as [A B]. split; [cbn; lia|exact B].
Qed.
(** ** Columns *)
Lemma has_separator_spec s : has_separator s = true <-> separated s.
Proof.
  unfold has_separator, separated. rewrite orb_true_iff, !has_char_In. split.
  - intros [I|I]; eexists; (split; [|exact I]); cbn; tauto.
  - intros (c & [<-|[<-|[]]] & I); tauto.
Qed.
Lemma not_separated s : ~ separated s -> ~ In ":"%char s /\ ~ In "="%char s.
Proof. intros N. split; intros I; apply N; eexists; (split; [|exact I]); cbn; tauto. Qed.
Lemma trimmed_of s : strip s = s -> trimmed s.
Proof. intros <-. apply trimmed_strip. Qed.
Lemma split_two l sp r : l <> [] -> r <> [] -> strip l = l -> strip r = r -> blanks sp -> (4 <= List.length sp)%nat ->
  narrow (List.length sp) l -> narrow (Datatypes.S (List.length sp)) r -> (4 <= List.length (split_ws l) + List.length (split_ws r))%nat ->
  separated l -> separated r -> split_columns (l ++ sp ++ r) = [l; r].
Proof.
  intros NL NR SL SR B N4 NaL NaR W4 SepL SepR. pose proof (proj1 (blanks_forallb sp) B) as FB.
  assert (HL : exists l0 c, l = l0 ++ [c] /\ is_space c = false). { destruct (exists_last NL) as (l0 & c & E). exists l0, c. split; [exact E|]. destruct (trimmed_of l SL) as [_ T]. exact (T c l0 E). }
  assert (HR : exists c r0, r = c :: r0 /\ is_space c = false). { destruct r as [|c r0]; [contradiction|]. exists c, r0. split; [reflexivity|]. destruct (trimmed_of _ SR) as [T _]. exact (T c r0 eq_refl). }
  destruct HL as (l0 & cl & EL & CL). destruct HR as (cr & r0 & ER & CR).
  destruct sp as [|b sp]; [cbn in N4; lia|]. pose proof FB as FB'. cbn [forallb] in FB'. apply andb_true_iff in FB' as [Bb Bs].
  assert (EW : forall pos, words_at pos [] (l ++ (b :: sp) ++ r) = words_at pos [] l ++ words_at (pos + List.length l + List.length (b :: sp)) [] r).
  { intros pos. change ((b :: sp) ++ r) with (b :: sp ++ r). rewrite (words_app_space l b (sp ++ r) Bb). f_equal. rewrite (words_spaces sp r Bs). f_equal. cbn [List.length]. lia. }
  destruct (words_last l0 cl CL 0 [] ltac:(cbn; lia)) as (rl & w & i & E1 & P1). rewrite <- EL in E1.
  destruct (words_first cr r0 (0 + List.length l + List.length (b :: sp)) CR) as (w2 & rr & E2). rewrite <- ER in E2.
  assert (LEN : List.length l = Datatypes.S (List.length l0)) by (rewrite EL, app_length; cbn; lia).
  assert (G : gaps (words_at 0 [] (l ++ (b :: sp) ++ r)) = gaps (words_at 0 [] l) ++ List.length (b :: sp) :: gaps (words_at (0 + List.length l + List.length (b :: sp)) [] r)).
  { rewrite EW, E1, E2, <- app_assoc. cbn [app]. rewrite gaps_app. f_equal. f_equal. lia. }
  unfold split_columns.
  assert (C1 : (List.length (l ++ (b :: sp) ++ r) <? 10)%nat = false). { apply Nat.ltb_ge. rewrite !app_length. pose proof (words_room l []) as X1. pose proof (words_room r []) as X2. cbv iota in X1, X2. change (split_ws_from [] l) with (split_ws l) in X1. change (split_ws_from [] r) with (split_ws r) in X2. unfold text in *. lia. }
  rewrite C1. cbv zeta.
  assert (C2 : (List.length (words_at 0 [] (l ++ (b :: sp) ++ r)) <? 4)%nat = false). { apply Nat.ltb_ge. rewrite EW, app_length, !words_count. exact W4. }
  rewrite C2.
  pose proof (narrow_gaps _ l 0 NaL) as FL. pose proof (narrow_gaps _ r (0 + List.length l + List.length (b :: sp)) NaR) as FR.
  rewrite G, (max_mid _ _ _ FL FR), (index_mid _ _ _ FL).
  destruct (Nat.leb_spec (List.length (b :: sp)) 3) as [X|_]; [lia|].
  assert (POS : snd (nth (Datatypes.S (List.length (gaps (words_at 0 [] l)))) (words_at 0 [] (l ++ (b :: sp) ++ r)) ([], 0%nat)) = List.length (l ++ (b :: sp))).
  { rewrite gaps_length, EW, E2. rewrite app_nth2; rewrite E1, app_length; cbn [List.length]; [|lia]. replace (Datatypes.S (pred (List.length rl + 1)) - (List.length rl + 1))%nat with 0%nat by lia. cbn [nth snd]. rewrite app_length. cbn [List.length]. lia. }
  rewrite POS. rewrite (app_assoc l (b :: sp) r). rewrite firstn_app, Nat.sub_diag, firstn_all, firstn_O, app_nil_r. rewrite skipn_app, Nat.sub_diag, skipn_all, skipn_O. cbn [app].
  assert (SL' : strip (l ++ b :: sp) = l). { pose proof (strip_pad [] l (b :: sp) eq_refl FB (trimmed_of l SL)) as X. cbn [app] in X. exact X. }
  assert (Y1 : has_separator l = true) by (apply has_separator_spec; exact SepL). assert (Y2 : has_separator r = true) by (apply has_separator_spec; exact SepR).
  rewrite SL', SR, Y1, Y2. reflexivity.
Qed.
Lemma split_one s : ~ two_columns s \/ (List.length (split_ws s) < 4)%nat -> split_columns s = [s].
Proof.
  intros H. unfold split_columns. destruct (List.length s <? 10)%nat; [reflexivity|]. cbv zeta. destruct (Nat.ltb_spec (List.length (words_at 0 [] s)) 4) as [_|W]; [reflexivity|]. rewrite words_count in W.
  destruct (Nat.leb_spec (fold_right Nat.max 0%nat (gaps (words_at 0 [] s))) 3) as [_|M]; [reflexivity|]. destruct H as [H|H]; [|lia].
  set (g := gaps (words_at 0 [] s)) in *. destruct (index_in (fold_right Nat.max 0%nat g) g) as [I NI]. { apply max_in. intros E. rewrite E in M. cbn in M. lia. }
  destruct (gap_split s 0 [] ltac:(cbn; lia) _ I) as (a & sp & b & E & S & L & P). fold g in L. rewrite NI in L. rewrite P. cbn [Nat.add].
  assert (LN : (List.length a + List.length sp)%nat = List.length (a ++ sp)) by (rewrite app_length; reflexivity). rewrite LN.
  destruct (has_separator (strip (firstn (List.length (a ++ sp)) s))) eqn:H1; [|reflexivity]. destruct (has_separator (strip (skipn (List.length (a ++ sp)) s))) eqn:H2; [|reflexivity]. exfalso. apply H. apply has_separator_spec in H1. apply has_separator_spec in H2.
  rewrite E, (app_assoc a sp b) in H1, H2. rewrite firstn_app, Nat.sub_diag, firstn_all, firstn_O, app_nil_r in H1. rewrite skipn_app, Nat.sub_diag, skipn_all, skipn_O in H2. cbn [app] in H2.
  exists a, sp, b. split; [exact E|]. split; [apply blanks_forallb; exact S|]. split; [lia|]. split.
  - destruct H1 as (c & C & I1). exists c. split; [exact C|]. apply strip_In in I1. apply in_app_or in I1 as [I1|I1]; [exact I1|]. exfalso. rewrite forallb_forall in S. specialize (S c I1). destruct C as [<-|[<-|[]]]; discriminate S.
  - destruct H2 as (c & C & I2). exists c. split; [exact C|]. apply strip_In in I2. exact I2.
Qed.
