(** Facts about the model of Python's json module: what is dumped is loaded, a cut or damaged text is refused. *)
From Coq Require Import NArith.
From Verif Require Import PyBase PyText PyNum PyFloat PyFloatFacts IsoModel IsoProofs PyFacts TextFacts PyJson.
Local Open Scope nat_scope.

(** ** Induction over trees *)
Section Ind.
Variable P : json -> Prop.
Hypothesis Hnull : P JNull.
Hypothesis Hbool : forall b, P (JBool b).
Hypothesis Hint : forall z, P (JInt z).
Hypothesis Hfloat : forall r, P (JFloat r).
Hypothesis Hstr : forall s, P (JStr s).
Hypothesis Harr : forall l, Forall P l -> P (JArr l).
Hypothesis Hobj : forall l, Forall (fun kv => P (snd kv)) l -> P (JObj l).
Fixpoint json_ind' (j : json) : P j :=
  match j with
  | JNull => Hnull | JBool b => Hbool b | JInt z => Hint z | JFloat r => Hfloat r | JStr s => Hstr s
  | JArr l => Harr l ((fix go l := match l return Forall P l with [] => Forall_nil _ | x :: r => Forall_cons _ (json_ind' x) (go r) end) l)
  | JObj l => Hobj l ((fix go l := match l return Forall (fun kv => P (snd kv)) l with [] => Forall_nil _ | x :: r => Forall_cons _ (json_ind' (snd x)) (go r) end) l)
  end.
End Ind.

(** A tree that is a Python value: the keys of an object differ, a float is a float's text. *)
Definition float_text (r : text) : Prop := In r [txt "NaN"; txt "Infinity"; txt "-Infinity"] \/ (read_number r = Some (JFloat r) /\ forallb number_char r = true).
Fixpoint good (j : json) : Prop :=
  match j with
  | JFloat r => float_text r
  | JArr l => fold_right (fun x p => good x /\ p) True l
  | JObj l => NoDup (map fst l) /\ fold_right (fun kv p => good (snd kv) /\ p) True l
  | _ => True
  end.
Lemma good_arr l : good (JArr l) <-> Forall good l.
Proof. cbn [good]. induction l as [|x l IH]; cbn [fold_right]; [split; [constructor|trivial]|]. rewrite Forall_cons_iff. tauto. Qed.
Lemma good_obj l : good (JObj l) <-> NoDup (map fst l) /\ Forall (fun kv => good (snd kv)) l.
Proof.
  cbn [good]. assert (E : fold_right (fun kv p => good (snd kv) /\ p) True l <-> Forall (fun kv : text * json => good (snd kv)) l).
  { induction l as [|x l IH]; cbn [fold_right]; [split; [constructor|trivial]|]. rewrite Forall_cons_iff. tauto. }
  tauto.
Qed.

(** ** Texts *)
Lemma skip_ws s : forall c r, skip s = c :: r -> ws c = false.
Proof. induction s as [|x s IH]; intros c r; [discriminate|]. cbn [skip]. destruct (ws x) eqn:E; [apply IH|]. intro H. injection H as <- <-. exact E. Qed.
Lemma skip_fixed c r : ws c = false -> skip (c :: r) = c :: r.
Proof. intro H. cbn [skip]. rewrite H. reflexivity. Qed.
Lemma skip_blank b s : forallb ws b = true -> skip (b ++ s) = skip s.
Proof. induction b as [|c b IH]; intro H; [reflexivity|]. cbn [forallb] in H. apply andb_true_iff in H as [H1 H2]. cbn [app skip]. rewrite H1. exact (IH H2). Qed.
Lemma skip_split s : exists b, s = b ++ skip s /\ forallb ws b = true.
Proof. induction s as [|c s (b & E & H)]; [exists []; auto|]. cbn [skip]. destruct (ws c) eqn:W; [|exists []; auto]. exists (c :: b). cbn [app forallb]. rewrite W, H, <- E. auto. Qed.
Lemma skip_ext s c r x : skip s = c :: r -> skip (s ++ x) = c :: r ++ x.
Proof. induction s as [|y s IH]; [discriminate|]. cbn [skip app]. destruct (ws y); [exact IH|]. intro H. injection H as <- <-. reflexivity. Qed.

Definition escape_ok (p : bool * ascii) : bool :=
  let '(b, c) := p in
  match escape b c with
  | [x] => (Ascii.eqb x c && negb (Ascii.eqb c quote) && negb (Ascii.eqb c backslash) && negb (N.ltb (N_of_ascii c) 32))%bool
  | [x; e] => (Ascii.eqb x backslash && negb (Ascii.eqb e "u") && match simple_escape e with Some y => Ascii.eqb y c | None => false end)%bool
  | [x; u; a; b; h; d] => (Ascii.eqb x backslash && Ascii.eqb u "u" && match unicode a b h d with Some y => Ascii.eqb y c | None => false end)%bool
  | _ => false
  end.
Lemma escape_all b c : escape_ok (b, c) = true.
Proof. destruct b; revert c; apply ascii_forall; vm_compute; reflexivity. Qed.
Lemma read_escape b c s : read_string (escape b c ++ s) = cons_to c (read_string s).
Proof.
  pose proof (escape_all b c) as H. unfold escape_ok in H. destruct (escape b c) as [|x [|e [|a [|f [|h [|d [|]]]]]]]; try discriminate.
  - apply andb_true_iff in H as [H H4]. apply andb_true_iff in H as [H H3]. apply andb_true_iff in H as [H1 H2]. apply Ascii.eqb_eq in H1. subst x.
    apply negb_true_iff in H2, H3, H4. cbn [app read_string]. rewrite H2, H3, H4. reflexivity.
  - apply andb_true_iff in H as [H H3]. apply andb_true_iff in H as [H1 H2]. apply Ascii.eqb_eq in H1. subst x. apply negb_true_iff in H2.
    cbn [app read_string]. change (Ascii.eqb backslash quote) with false. change (Ascii.eqb backslash backslash) with true. cbv iota. rewrite H2.
    destruct (simple_escape e); [|discriminate]. apply Ascii.eqb_eq in H3. subst. reflexivity.
  - apply andb_true_iff in H as [H H3]. apply andb_true_iff in H as [H1 H2]. apply Ascii.eqb_eq in H1, H2. subst x e.
    cbn [app read_string]. change (Ascii.eqb backslash quote) with false. change (Ascii.eqb backslash backslash) with true. change (Ascii.eqb "u" "u") with true. cbv iota.
    destruct (unicode a f h d); [|discriminate]. apply Ascii.eqb_eq in H3. subst. reflexivity.
Qed.
Lemma read_shown b s rest : read_string (flat_map (escape b) s ++ quote :: rest) = Ok (s, rest).
Proof.
  induction s as [|c s IH].
  - cbn [flat_map app read_string]. change (Ascii.eqb quote quote) with true. reflexivity.
  - cbn [flat_map]. rewrite <- app_assoc, read_escape, IH. reflexivity.
Qed.
Lemma show_string_app b s rest : show_string b s ++ rest = quote :: flat_map (escape b) s ++ quote :: rest.
Proof. unfold show_string. cbn [app]. rewrite <- app_assoc. reflexivity. Qed.

(** ** Numbers *)
Lemma span_app p a c r : forallb p a = true -> p c = false -> span p (a ++ c :: r) = (a, c :: r).
Proof. induction a as [|x a IH]; intros H C; cbn [app span]; [rewrite C; reflexivity|]. cbn [forallb] in H. apply andb_true_iff in H as [H1 H2]. rewrite H1, IH by assumption. reflexivity. Qed.
Lemma span_all p a : forallb p a = true -> span p a = (a, []).
Proof. induction a as [|x a IH]; intros H; [reflexivity|]. cbn [forallb span] in *. apply andb_true_iff in H as [H1 H2]. rewrite H1, IH by assumption. reflexivity. Qed.
Lemma span_parts p s : forall a b, span p s = (a, b) -> s = a ++ b /\ forallb p a = true /\ (forall c r, b = c :: r -> p c = false).
Proof.
  induction s as [|c s IH]; intros a b; cbn [span].
  - intro E. injection E as <- <-. repeat split. discriminate.
  - destruct (p c) eqn:C.
    + destruct (span p s) as [a' b'] eqn:E. intro H. injection H as <- <-. destruct (IH _ _ eq_refl) as (-> & A & B). cbn [app forallb]. rewrite C, A. auto.
    + intro H. injection H as <- <-. repeat split. intros x r E. injection E as <- <-. exact C.
Qed.
Lemma digits_first f : forall n, (0 < n < 2 ^ Z.of_nat f)%Z -> exists c r, show_digits f n = c :: r /\ c <> "0"%char.
Proof.
  induction f as [|f IH]; intros n H; [cbn in H; lia|]. cbn [show_digits]. destruct (Z.ltb_spec n 10) as [L|L].
  - exists (digit n), []. split; [reflexivity|]. intro E.
    assert (D : digit_value (digit n) = 0%Z) by (rewrite E; reflexivity). rewrite digit_value_digit in D by lia. lia.
  - assert (A : (0 < n / 10 < 2 ^ Z.of_nat f)%Z).
    { split; [apply Z.div_str_pos; lia|]. apply Z.div_lt_upper_bound; [lia|]. rewrite Nat2Z.inj_succ, Z.pow_succ_r in H by lia. lia. }
    destruct (IH _ A) as (c & r & E & N). rewrite E. exists c, (r ++ [digit (n mod 10)]). split; [reflexivity|exact N].
Qed.
Lemma nat_first n : (0 < n)%Z -> exists c r, show_nat n = c :: r /\ c <> "0"%char.
Proof. intro H. apply digits_first. split; [exact H|]. apply show_nat_fuel. lia. Qed.
Lemma nat_shape n : (0 <= n)%Z -> exists c r, show_nat n = c :: r /\ (c = "0"%char -> r = []) /\ is_digit c = true.
Proof.
  intro H. pose proof (show_nat_digits n H) as D. destruct (Z.eq_dec n 0) as [-> |N]; [exists "0"%char, []; repeat split|].
  destruct (nat_first n) as (c & r & E & X); [lia|]. exists c, r. split; [exact E|]. split; [congruence|]. rewrite E in D. cbn [forallb] in D. apply andb_true_iff in D. apply D.
Qed.
Lemma read_number_int z : read_number (show_int z) = Some (JInt z).
Proof.
  unfold show_int. destruct (Z.ltb_spec z 0) as [L|L].
  - destruct (nat_shape (- z)) as (c & r & E & F & C); [lia|]. unfold read_number. change (Ascii.eqb "-" "-") with true. cbv iota. rewrite E.
    pose proof (show_nat_digits (- z)) as D. rewrite E in D. rewrite span_all by (apply D; lia). rewrite <- E, number_of_show_nat by lia.
    assert (X : (Ascii.eqb c "0" && negb match r with [] => true | _ => false end)%bool = false).
    { destruct (Ascii.eqb c "0") eqn:Q; [|reflexivity]. apply Ascii.eqb_eq in Q. rewrite (F Q). reflexivity. }
    rewrite X. do 2 f_equal. lia.
  - destruct (nat_shape z) as (c & r & E & F & C); [lia|]. unfold read_number. rewrite E.
    assert (M : Ascii.eqb c "-" = false) by (destruct (Ascii.eqb c "-") eqn:Q; [apply Ascii.eqb_eq in Q; subst c; discriminate|reflexivity]). rewrite M.
    pose proof (show_nat_digits z) as D. rewrite E in D. rewrite span_all by (apply D; lia). rewrite <- E, number_of_show_nat by lia.
    assert (X : (Ascii.eqb c "0" && negb match r with [] => true | _ => false end)%bool = false).
    { destruct (Ascii.eqb c "0") eqn:Q; [|reflexivity]. apply Ascii.eqb_eq in Q. rewrite (F Q). reflexivity. }
    rewrite X. reflexivity.
Qed.
Lemma int_number_chars z : forallb number_char (show_int z) = true.
Proof.
  assert (A : forall s, forallb is_digit s = true -> forallb number_char s = true).
  { intros s H. rewrite forallb_forall in *. intros c I. unfold number_char. rewrite (H _ I). reflexivity. }
  unfold show_int. destruct (Z.ltb_spec z 0) as [L|L]; [cbn [forallb]|]; rewrite A by (apply show_nat_digits; lia); reflexivity.
Qed.

(** ** What ends a value *)
Definition ends_value (s : text) : Prop := match s with [] => True | c :: _ => number_char c = false end.
Lemma read_number_ok tok rest j : read_number tok = Some j -> forallb number_char tok = true -> ends_value rest -> read_plain (tok ++ rest) = Ok (j, rest).
Proof.
  intros R C E. unfold read_plain.
  assert (L : read_literal literals (tok ++ rest) = None).
  { destruct tok as [|c tok]; [discriminate|]. cbn [forallb] in C. apply andb_true_iff in C as [C C2]. unfold literals. cbn [read_literal app].
    assert (X : forall p, match p with a :: _ => number_char a = false | [] => False end -> strip_prefix p (c :: tok ++ rest) = None).
    { intros [|a p] A; [destruct A|]. cbn [strip_prefix]. destruct (Ascii.eqb a c) eqn:Q; [apply Ascii.eqb_eq in Q; subst; congruence|reflexivity]. }
    rewrite (X (txt "null")), (X (txt "true")), (X (txt "false")), (X (txt "NaN")), (X (txt "Infinity")) by reflexivity.
    change (txt "-Infinity") with ("-"%char :: "I"%char :: txt "nfinity").
    cbn [strip_prefix]. destruct (Ascii.eqb "-" c) eqn:Q; [|reflexivity]. apply Ascii.eqb_eq in Q. subst c.
    destruct tok as [|d tok]; [discriminate|]. cbn [forallb] in C2. apply andb_true_iff in C2 as [C2 _]. cbn [app].
    destruct (Ascii.eqb "I" d) eqn:Q; [apply Ascii.eqb_eq in Q; subst d; discriminate|reflexivity]. }
  rewrite L. destruct rest as [|c rest].
  - rewrite app_nil_r. rewrite span_all by exact C. rewrite R. reflexivity.
  - rewrite span_app by assumption. rewrite R. reflexivity.
Qed.
Lemma strip_prefix_app p s : strip_prefix p (p ++ s) = Some s.
Proof. induction p as [|c p IH]; [reflexivity|]. cbn [app strip_prefix]. rewrite Ascii.eqb_refl. exact IH. Qed.
Lemma read_lit p j rest : In (p, j) literals -> read_plain (p ++ rest) = Ok (j, rest).
Proof.
  intro I. unfold read_plain. assert (L : read_literal literals (p ++ rest) = Some (j, rest)).
  { repeat (destruct I as [I|I]; [injection I as <- <-; reflexivity|]). destruct I. }
  rewrite L. reflexivity.
Qed.

(** ** Loading what was dumped *)
Section Round.
Variable ao : bool.
Variable ind : text.
Hypothesis ind_ws : forallb ws ind = true.
Lemma newline_ws k : forallb ws (newline ind k) = true.
Proof. unfold newline. cbn [forallb]. change (ws nl_char) with true. cbn [andb]. induction k as [|k IH]; [reflexivity|]. cbn [repeat concat]. rewrite forallb_app, ind_ws, IH. reflexivity. Qed.
Lemma skip_newline k s : skip (newline ind k ++ s) = skip s.
Proof. apply skip_blank, newline_ws. Qed.
(** the first character of a value *)
Definition opens_value (c : ascii) : Prop := ws c = false /\ c <> "]"%char /\ c <> "}"%char.
Lemma dumps_head lev j : good j -> exists c r, dumps_at ao ind lev j = c :: r /\ opens_value c.
Proof.
  assert (OV : forall c, negb (ws c) && negb (Ascii.eqb c "]") && negb (Ascii.eqb c "}") = true -> opens_value c).
  { intros c H. apply andb_true_iff in H as [H H3]. apply andb_true_iff in H as [H1 H2]. apply negb_true_iff in H1, H2, H3. repeat split; [exact H1|..]; intros ->; discriminate. }
  assert (NC : forall c, number_char c = true -> opens_value c).
  { intros c H. apply OV. assert (G : implb (number_char c) (negb (ws c) && negb (Ascii.eqb c "]") && negb (Ascii.eqb c "}")) = true) by (clear; revert c; apply ascii_forall; vm_compute; reflexivity).
    rewrite H in G. exact G. }
  intro G. destruct j as [| [|] |z|r|s|l|l]; cbn [dumps_at].
  1,2,3: (eexists; eexists; split; [reflexivity|apply OV; reflexivity]).
  - pose proof (int_number_chars z) as H. pose proof (read_number_int z) as R. destruct (show_int z) as [|c r]; [discriminate|]. cbn [forallb] in H. apply andb_true_iff in H as [H _]. exists c, r. split; [reflexivity|apply NC, H].
  - destruct G as [I|[R H]].
    + cbn in I. repeat (destruct I as [<- |I]; [eexists; eexists; split; [reflexivity|apply OV; reflexivity]|]). destruct I.
    + destruct r as [|c r]; [discriminate|]. cbn [forallb] in H. apply andb_true_iff in H as [H _]. exists c, r. split; [reflexivity|apply NC, H].
  - eexists; eexists; split; [reflexivity|apply OV; reflexivity].
  - destruct l; cbn [map block]; eexists; eexists; (split; [reflexivity|apply OV; reflexivity]).
  - destruct l; cbn [map block]; eexists; eexists; (split; [reflexivity|apply OV; reflexivity]).
Qed.
Lemma join_cons2 sep a b l : join sep (a :: b :: l) = a ++ sep ++ join sep (b :: l).
Proof. reflexivity. Qed.
Lemma ends_newline k s : ends_value (newline ind k ++ s).
Proof. reflexivity. Qed.
Lemma ends_comma s : ends_value (","%char :: s).
Proof. reflexivity. Qed.

Definition item (lev : nat) (kv : text * json) : text := show_string ao (fst kv) ++ txt ": " ++ dumps_at ao ind lev (snd kv).
Lemma read_round j : forall lev fuel rest, good j -> List.length (dumps_at ao ind lev j) <= fuel -> ends_value rest ->
  read_value fuel (dumps_at ao ind lev j ++ rest) = Ok (j, rest).
Proof.
  induction j as [|b|z|r|s|l IH|l IH] using json_ind'; intros lev fuel rest G L E.
  - destruct fuel as [|f]; [cbn in L; lia|]. change (read_plain (txt "null" ++ rest) = Ok (JNull, rest)). apply read_lit. cbn; tauto.
  - destruct fuel as [|f]; [destruct b; cbn in L; lia|]. destruct b.
    + change (read_plain (txt "true" ++ rest) = Ok (JBool true, rest)). apply read_lit. cbn; tauto.
    + change (read_plain (txt "false" ++ rest) = Ok (JBool false, rest)). apply read_lit. cbn; tauto.
  - pose proof (int_number_chars z) as H. pose proof (read_number_int z) as R. cbn [dumps_at] in *. 
    assert (P : read_plain (show_int z ++ rest) = Ok (JInt z, rest)) by (apply read_number_ok; assumption).
    destruct (show_int z) as [|c t]; [discriminate|]. destruct fuel as [|f]; [cbn in L; lia|]. cbn [app] in P |- *. cbn [read_value]. cbn [forallb] in H. apply andb_true_iff in H as [H _].
    assert (N : Ascii.eqb c quote = false /\ Ascii.eqb c "{" = false /\ Ascii.eqb c "[" = false) by (repeat split; apply Ascii.eqb_neq; intros ->; discriminate).
    destruct N as (-> & -> & ->). exact P.
  - cbn [dumps_at] in *.
    assert (P : read_plain (r ++ rest) = Ok (JFloat r, rest)).
    { destruct G as [I|[R H]]; [|apply read_number_ok; assumption]. cbn in I. repeat (destruct I as [<- |I]; [apply read_lit; cbn; tauto|]). destruct I. }
    assert (H : exists c t, r = c :: t /\ Ascii.eqb c quote = false /\ Ascii.eqb c "{" = false /\ Ascii.eqb c "[" = false).
    { destruct G as [I|[R H]].
      - cbn in I. repeat (destruct I as [<- |I]; [eexists; eexists; split; [reflexivity|repeat split]|]). destruct I.
      - destruct r as [|c t]; [discriminate|]. cbn [forallb] in H. apply andb_true_iff in H as [H _]. exists c, t. split; [reflexivity|]. repeat split; apply Ascii.eqb_neq; intros ->; discriminate. }
    destruct H as (c & t & -> & A & B & C). destruct fuel as [|f]; [cbn in L; lia|]. cbn [app] in P |- *. cbn [read_value]. rewrite A, B, C. exact P.
  - cbn [dumps_at] in *. destruct fuel as [|f]; [cbn in L; lia|]. rewrite show_string_app. cbn [read_value]. change (Ascii.eqb quote quote) with true. cbv iota. rewrite read_shown. reflexivity.
  - apply good_arr in G. cbn [dumps_at] in *. destruct fuel as [|f]; [destruct l; cbn in L; lia|].
    destruct l as [|x l]; [reflexivity|].
    cbn [map block] in *. cbn [app read_value]. change (Ascii.eqb "[" quote) with false. change (Ascii.eqb "[" "{") with false. change (Ascii.eqb "[" "[") with true. cbv iota.
    change (dumps_at ao ind (S lev) x :: map (dumps_at ao ind (S lev)) l) with (map (dumps_at ao ind (S lev)) (x :: l)) in *.
    assert (EL : forall l acc f rest, Forall (fun j => forall lev fuel rest, good j -> List.length (dumps_at ao ind lev j) <= fuel -> ends_value rest -> read_value fuel (dumps_at ao ind lev j ++ rest) = Ok (j, rest)) l -> Forall good l -> l <> [] ->
      List.length (join (","%char :: newline ind (S lev)) (map (dumps_at ao ind (S lev)) l)) < f ->
      read_elements f acc (join (","%char :: newline ind (S lev)) (map (dumps_at ao ind (S lev)) l) ++ newline ind lev ++ "]"%char :: rest) = Ok (JArr (acc ++ l), rest)).
    { clear -ind_ws. induction l as [|y l IHl]; intros acc f rest I G N L; [congruence|]. apply Forall_cons_iff in I as [I1 I2]. apply Forall_cons_iff in G as [G1 G2].
      destruct f as [|f]; [lia|]. destruct l as [|z l].
      - cbn [map join] in *. cbn [read_elements]. rewrite I1 by (try assumption; try lia; reflexivity). rewrite skip_newline. rewrite skip_fixed by reflexivity.
        change (Ascii.eqb "]" "]") with true. reflexivity.
      - cbn [map] in *. rewrite join_cons2 in *. rewrite !app_length in L. cbn [read_elements]. rewrite <- !app_assoc.
        rewrite I1; [|exact G1|lia|reflexivity]. cbn [app]. rewrite skip_fixed by reflexivity. change (Ascii.eqb "," "]") with false. change (Ascii.eqb "," ",") with true. cbv iota.
        rewrite skip_newline. change (dumps_at ao ind (S lev) z :: map (dumps_at ao ind (S lev)) l) with (map (dumps_at ao ind (S lev)) (z :: l)) in *.
        assert (SK : skip (join (","%char :: newline ind (S lev)) (map (dumps_at ao ind (S lev)) (z :: l)) ++ newline ind lev ++ "]"%char :: rest) = join (","%char :: newline ind (S lev)) (map (dumps_at ao ind (S lev)) (z :: l)) ++ newline ind lev ++ "]"%char :: rest).
        { apply Forall_cons_iff in G2 as [G2 _]. destruct (dumps_head (S lev) z G2) as (c & r & E & (W & _)).
          assert (J : exists t, join (","%char :: newline ind (S lev)) (map (dumps_at ao ind (S lev)) (z :: l)) = c :: t).
          { cbn [map]. rewrite E. destruct l; cbn [map join app]; eexists; reflexivity. }
          destruct J as (t & ->). cbn [app]. apply skip_fixed, W. }
        rewrite SK. rewrite IHl; [|exact I2|exact G2|discriminate|cbn [List.length] in L; lia]. rewrite <- app_assoc. reflexivity. }
    rewrite <- !app_assoc. rewrite skip_newline.
    assert (SK : exists c t, join (","%char :: newline ind (S lev)) (map (dumps_at ao ind (S lev)) (x :: l)) = c :: t /\ opens_value c).
    { apply Forall_cons_iff in G as [G _]. destruct (dumps_head (S lev) x G) as (c & r & E' & OV). cbn [map]. rewrite E'. destruct l; cbn [map join app]; eexists; eexists; (split; [reflexivity|exact OV]). }
    destruct SK as (c & t & J & (W & N1 & N2)).
    assert (X := EL (x :: l) [] f rest IH G ltac:(discriminate)). rewrite J in X. cbn [app] in X |- *. rewrite J. cbn [app]. rewrite skip_fixed by exact W.
    assert (Q : Ascii.eqb c "]" = false) by (apply Ascii.eqb_neq; exact N1). rewrite Q. apply X.
    cbn [List.length app] in L. rewrite !app_length in L. change (List.length (newline ind (S lev))) with (S (List.length (concat (repeat ind (S lev))))) in L. rewrite J in L. lia.
  - apply good_obj in G as [ND G]. cbn [dumps_at] in *. destruct fuel as [|f]; [destruct l; cbn in L; lia|].
    destruct l as [|x l]; [reflexivity|].
    change (map (fun kv : text * json => show_string ao (fst kv) ++ txt ": " ++ dumps_at ao ind (S lev) (snd kv)) (x :: l)) with (item (S lev) x :: map (item (S lev)) l) in *.
    cbn [block] in *. cbn [app read_value]. change (Ascii.eqb "{" quote) with false. change (Ascii.eqb "{" "{") with true. cbv iota.
    change (item (S lev) x :: map (item (S lev)) l) with (map (item (S lev)) (x :: l)) in *.
    assert (EL : forall l acc f rest, Forall (fun kv : text * json => forall lev fuel rest, good (snd kv) -> List.length (dumps_at ao ind lev (snd kv)) <= fuel -> ends_value rest -> read_value fuel (dumps_at ao ind lev (snd kv) ++ rest) = Ok (snd kv, rest)) l -> Forall (fun kv => good (snd kv)) l -> l <> [] ->
      NoDup (map fst (acc ++ l)) ->
      List.length (join (","%char :: newline ind (S lev)) (map (item (S lev)) l)) <= S f -> exists t, join (","%char :: newline ind (S lev)) (map (item (S lev)) l) = quote :: t /\
      read_members f acc (t ++ newline ind lev ++ "}"%char :: rest) = Ok (JObj (acc ++ l), rest)).
    { clear -ind_ws. induction l as [|[k v] l IHl]; intros acc f rest I G N ND L; [congruence|]. apply Forall_cons_iff in I as [I1 I2]. apply Forall_cons_iff in G as [G1 G2]. cbn [snd] in I1, G1.
      assert (NK : ~ In k (map fst acc)).
      { rewrite map_app in ND. cbn [map fst] in ND. apply NoDup_remove_2 in ND. intro H. apply ND. apply in_or_app. left. exact H. }
      assert (DS : dset text_dec k v acc = acc ++ [(k, v)]) by (apply dset_notin; exact NK).
      assert (LI : List.length (item (S lev) (k, v)) >= 4 + List.length (dumps_at ao ind (S lev) v)).
      { unfold item, show_string. cbn [fst snd]. rewrite !app_length. cbn [List.length]. rewrite app_length. cbn [List.length txt list_ascii_of_string]. lia. }
      destruct l as [|z l].
      - cbn [map join] in *. exists (flat_map (escape ao) k ++ quote :: txt ": " ++ dumps_at ao ind (S lev) v). split.
        { unfold item. cbn [fst snd]. rewrite show_string_app. reflexivity. }
        destruct f as [|f]; [lia|]. cbn [read_members]. rewrite <- !app_assoc. cbn [app]. rewrite <- ?app_assoc. rewrite read_shown.
        change (skip (txt ": " ++ dumps_at ao ind (S lev) v ++ newline ind lev ++ "}"%char :: rest)) with (":"%char :: " "%char :: dumps_at ao ind (S lev) v ++ newline ind lev ++ "}"%char :: rest).
        change (Ascii.eqb ":" ":") with true. cbv iota. destruct (dumps_head (S lev) v G1) as (c & r & E & (W & _)).
        assert (SK : skip (" "%char :: dumps_at ao ind (S lev) v ++ newline ind lev ++ "}"%char :: rest) = dumps_at ao ind (S lev) v ++ newline ind lev ++ "}"%char :: rest).
        { cbn [skip]. change (ws " ") with true. cbv iota. rewrite E. cbn [app]. apply skip_fixed, W. }
        rewrite SK. rewrite I1; [|exact G1|lia|reflexivity]. rewrite skip_newline, skip_fixed by reflexivity. change (Ascii.eqb "}" "}") with true. cbv iota. rewrite DS. reflexivity.
      - cbn [map] in *. rewrite join_cons2 in *. change (item (S lev) z :: map (item (S lev)) l) with (map (item (S lev)) (z :: l)) in *.
        destruct f as [|f]; [rewrite !app_length in L; lia|].
        destruct (IHl (acc ++ [(k, v)]) f rest I2 G2 ltac:(discriminate)) as (t & J & R).
        { rewrite <- app_assoc. exact ND. }
        { rewrite !app_length in L. cbn [List.length] in L. lia. }
        exists (flat_map (escape ao) k ++ quote :: txt ": " ++ dumps_at ao ind (S lev) v ++ ","%char :: newline ind (S lev) ++ join (","%char :: newline ind (S lev)) (map (item (S lev)) (z :: l))). split.
        { unfold item at 1. cbn [fst snd]. rewrite <- !app_assoc. rewrite show_string_app. reflexivity. }
        cbn [read_members]. rewrite J. rewrite <- !app_assoc. cbn [app]. rewrite <- ?app_assoc. cbn [app]. rewrite <- ?app_assoc. cbn [app]. rewrite <- ?app_assoc. rewrite read_shown.
        change (skip (txt ": " ++ dumps_at ao ind (S lev) v ++ ","%char :: newline ind (S lev) ++ quote :: t ++ newline ind lev ++ "}"%char :: rest))
          with (":"%char :: " "%char :: dumps_at ao ind (S lev) v ++ ","%char :: newline ind (S lev) ++ quote :: t ++ newline ind lev ++ "}"%char :: rest).
        change (Ascii.eqb ":" ":") with true. cbv iota. destruct (dumps_head (S lev) v G1) as (c & r & E & (W & _)).
        assert (SK : forall X, skip (" "%char :: dumps_at ao ind (S lev) v ++ X) = dumps_at ao ind (S lev) v ++ X).
        { intro X. cbn [skip]. change (ws " ") with true. cbv iota. rewrite E. cbn [app]. apply skip_fixed, W. }
        rewrite SK. rewrite I1; [|exact G1|rewrite !app_length in L; lia|reflexivity]. rewrite skip_fixed by reflexivity. change (Ascii.eqb "," "}") with false. change (Ascii.eqb "," ",") with true. cbv iota.
        rewrite skip_newline, skip_fixed by reflexivity. change (Ascii.eqb quote quote) with true. cbv iota. rewrite DS, R. rewrite <- app_assoc. reflexivity. }
    rewrite <- !app_assoc. rewrite skip_newline. destruct (EL (x :: l) [] f rest IH G ltac:(discriminate) ND) as (t & J & R).
    { cbn [List.length] in L. rewrite !app_length in L. cbn [List.length] in L. lia. }
    rewrite J. cbn [app]. rewrite skip_fixed by reflexivity. change (Ascii.eqb quote "}") with false. change (Ascii.eqb quote quote) with true. cbv iota. exact R.
Qed.
End Round.

(** What is dumped is loaded, whatever the indent, with or without characters beyond ASCII escaped. *)
Theorem loads_dumps ao ind j : forallb ws ind = true -> good j -> loads (dumps ao ind j) = Ok j.
Proof.
  intros W G. unfold loads, dumps. destruct (dumps_head ao ind 0 j G) as (c & r & E & (V & _)). rewrite E. rewrite skip_fixed by exact V. rewrite <- E.
  pose proof (read_round ao ind W j 0 (S (List.length (dumps_at ao ind 0 j))) [] G) as R. rewrite app_nil_r in R. rewrite R; [reflexivity|lia|exact I].
Qed.

(** ** More text after what was read *)
Lemma cons_to_Ok c x k r : cons_to c x = Ok (k, r) -> exists k', x = Ok (k', r) /\ k = c :: k'.
Proof. unfold cons_to. destruct x as [[k' r']|]; [|discriminate]. intro E. injection E as <- <-. eauto. Qed.
Lemma read_string_ext : forall n s k r x, List.length s <= n -> read_string s = Ok (k, r) -> read_string (s ++ x) = Ok (k, r ++ x).
Proof.
  induction n as [|n IH]; intros s k r x L R; [destruct s; [discriminate|cbn in L; lia]|]. destruct s as [|c s]; [discriminate|]. cbn [List.length] in L. cbn [app read_string] in *.
  destruct (Ascii.eqb c quote); [injection R as <- <-; reflexivity|]. destruct (Ascii.eqb c backslash).
  - destruct s as [|e s]; [discriminate|]. cbn [app List.length] in *. destruct (Ascii.eqb e "u").
    + destruct s as [|a [|b [|h [|d s]]]]; try discriminate. cbn [app List.length] in *. destruct (unicode a b h d); [|discriminate].
      apply cons_to_Ok in R as (k' & R & ->). rewrite (IH s _ _ x ltac:(lia) R). reflexivity.
    + destruct (simple_escape e); [|discriminate]. apply cons_to_Ok in R as (k' & R & ->). rewrite (IH s _ _ x ltac:(lia) R). reflexivity.
  - destruct (N.ltb (N_of_ascii c) 32); [discriminate|]. apply cons_to_Ok in R as (k' & R & ->). rewrite (IH s _ _ x ltac:(lia) R). reflexivity.
Qed.
Lemma strip_prefix_some p : forall s r, strip_prefix p s = Some r -> s = p ++ r.
Proof. induction p as [|a p IH]; intros s r E; [injection E as <-; reflexivity|]. destruct s as [|b s]; [discriminate|]. cbn [strip_prefix] in E. destruct (Ascii.eqb a b) eqn:Q; [|discriminate]. apply Ascii.eqb_eq in Q. subst b. rewrite (IH _ _ E). reflexivity. Qed.
Lemma read_literal_some l : forall s j r, read_literal l s = Some (j, r) -> exists p, In (p, j) l /\ s = p ++ r.
Proof.
  induction l as [|[p j'] l IH]; intros s j r E; [discriminate|]. cbn [read_literal] in E. destruct (strip_prefix p s) eqn:P.
  - injection E as <- <-. exists p. split; [left; reflexivity|]. apply strip_prefix_some, P.
  - destruct (IH _ _ _ E) as (q & I & ->). exists q. split; [right; exact I|reflexivity].
Qed.
(** A plain value is a literal or a number, and what follows is not a number's. *)
Lemma read_plain_parts s j r : read_plain s = Ok (j, r) ->
  (exists p, In (p, j) literals /\ s = p ++ r) \/ (exists tok, s = tok ++ r /\ read_number tok = Some j /\ forallb number_char tok = true /\ ends_value r).
Proof.
  unfold read_plain. destruct (read_literal literals s) as [[j' r']|] eqn:L.
  - intro E. injection E as <- <-. left. exact (read_literal_some _ _ _ _ L).
  - destruct (span number_char s) as [tok rest] eqn:S. destruct (span_parts _ _ _ _ S) as (A & B & C). destruct (read_number tok) eqn:N; [|discriminate]. intro E. injection E as <- <-.
    right. exists tok. repeat split; try assumption. destruct rest; [exact I|]. exact (C _ _ eq_refl).
Qed.
Definition number (j : json) : Prop := match j with JInt _ | JFloat _ => True | _ => False end.
Lemma read_number_number tok j : read_number tok = Some j -> number j.
Proof.
  unfold read_number. destruct (match tok with [] => _ | _ => _ end) as [neg body]. destruct (span is_digit body) as [d rest]. destruct d as [|c d]; [discriminate|].
  destruct (_ && _)%bool; [discriminate|]. destruct rest; [intro E; injection E as <-; exact I|]. destruct (fraction_ok _); [|discriminate]. intro E. injection E as <-. exact I.
Qed.
Lemma read_plain_ext s j r x : read_plain s = Ok (j, r) -> r <> [] \/ ~ number j -> read_plain (s ++ x) = Ok (j, r ++ x).
Proof.
  intros R C. destruct (read_plain_parts _ _ _ R) as [(p & I & ->)|(tok & -> & N & K & E)]; rewrite <- app_assoc.
  - apply read_lit, I.
  - apply read_number_ok; try assumption. destruct r as [|c r]; [|exact E]. destruct C as [C|C]; [congruence|]. destruct (C (read_number_number _ _ N)).
Qed.
Lemma read_ext f :
  (forall s v r, read_value f s = Ok (v, r) -> r <> [] \/ ~ number v -> forall f' x, f <= f' -> read_value f' (s ++ x) = Ok (v, r ++ x)) /\
  (forall acc s v r, read_members f acc s = Ok (v, r) -> forall f' x, f <= f' -> read_members f' acc (s ++ x) = Ok (v, r ++ x)) /\
  (forall acc s v r, read_elements f acc s = Ok (v, r) -> forall f' x, f <= f' -> read_elements f' acc (s ++ x) = Ok (v, r ++ x)).
Proof.
  induction f as [|f (IV & IM & IE)]; [repeat split; intros; discriminate|]. repeat split.
  - intros s v r R C f' x L. destruct f' as [|f']; [lia|]. apply le_S_n in L. destruct s as [|c s]; [discriminate|]. cbn [app read_value] in *.
    destruct (Ascii.eqb c quote).
    { destruct (read_string s) as [[k t]|] eqn:S; [|discriminate]. injection R as <- <-. rewrite (read_string_ext _ _ _ _ x (le_n _) S). reflexivity. }
    destruct (Ascii.eqb c "{").
    { destruct (skip s) as [|q s'] eqn:S; [discriminate|]. rewrite (skip_ext _ _ _ x S). destruct (Ascii.eqb q "}"); [injection R as <- <-; reflexivity|].
      destruct (Ascii.eqb q quote); [|discriminate]. apply (IM _ _ _ _ R _ x L). }
    destruct (Ascii.eqb c "[").
    { destruct (skip s) as [|q s'] eqn:S; [discriminate|]. rewrite (skip_ext _ _ _ x S). destruct (Ascii.eqb q "]"); [injection R as <- <-; reflexivity|].
      apply (IE _ _ _ _ R _ x L). }
    exact (read_plain_ext (c :: s) v r x R C).
  - intros acc s v r R f' x L. destruct f' as [|f']; [lia|]. apply le_S_n in L. cbn [read_members] in *.
    destruct (read_string s) as [[k t]|] eqn:S; [|discriminate]. rewrite (read_string_ext _ _ _ _ x (le_n _) S).
    destruct (skip t) as [|c r1] eqn:K; [discriminate|]. rewrite (skip_ext _ _ _ x K). destruct (Ascii.eqb c ":"); [|discriminate].
    destruct (read_value f (skip r1)) as [[w r2]|] eqn:V; [|discriminate].
    assert (SK : skip (r1 ++ x) = skip r1 ++ x).
    { destruct (skip r1) as [|a b] eqn:Q; [|exact (skip_ext _ _ _ x Q)]. destruct f; discriminate. }
    rewrite SK. destruct (skip r2) as [|d r3] eqn:K2; [discriminate|].
    rewrite (IV _ _ _ V) by (try assumption; left; intros ->; discriminate). rewrite (skip_ext _ _ _ x K2).
    destruct (Ascii.eqb d "}"); [injection R as <- <-; reflexivity|]. destruct (Ascii.eqb d ","); [|discriminate].
    destruct (skip r3) as [|q r4] eqn:K3; [discriminate|]. rewrite (skip_ext _ _ _ x K3). destruct (Ascii.eqb q quote); [|discriminate]. apply (IM _ _ _ _ R _ x L).
  - intros acc s v r R f' x L. destruct f' as [|f']; [lia|]. apply le_S_n in L. cbn [read_elements] in *.
    destruct (read_value f s) as [[w r2]|] eqn:V; [|discriminate]. destruct (skip r2) as [|d r3] eqn:K2; [discriminate|].
    rewrite (IV _ _ _ V) by (try assumption; left; intros ->; discriminate). rewrite (skip_ext _ _ _ x K2).
    destruct (Ascii.eqb d "]"); [injection R as <- <-; reflexivity|]. destruct (Ascii.eqb d ","); [|discriminate].
    assert (SK : skip (r3 ++ x) = skip r3 ++ x).
    { destruct (skip r3) as [|a b] eqn:Q; [|exact (skip_ext _ _ _ x Q)]. destruct f as [|f]; [discriminate|]. cbn [read_elements] in R. destruct f; discriminate. }
    rewrite SK. apply (IE _ _ _ _ R _ x L).
Qed.
Lemma members_object f : forall acc s v r, read_members f acc s = Ok (v, r) -> exists l, v = JObj l.
Proof.
  induction f as [|f IH]; intros acc s v r R; [discriminate|]. cbn [read_members] in R.
  destruct (read_string s) as [[k t]|]; [|discriminate]. destruct (skip t) as [|c r1]; [discriminate|]. destruct (Ascii.eqb c ":"); [|discriminate].
  destruct (read_value f (skip r1)) as [[w r2]|]; [|discriminate]. destruct (skip r2) as [|d r3]; [discriminate|].
  destruct (Ascii.eqb d "}"); [injection R as <- <-; eauto|]. destruct (Ascii.eqb d ","); [|discriminate]. destruct (skip r3) as [|q r4]; [discriminate|]. destruct (Ascii.eqb q quote); [|discriminate]. exact (IH _ _ _ _ R).
Qed.
Lemma brace_object f s v r : read_value f ("{"%char :: s) = Ok (v, r) -> exists l, v = JObj l.
Proof.
  destruct f as [|f]; [discriminate|]. cbn [read_value]. change (Ascii.eqb "{" quote) with false. change (Ascii.eqb "{" "{") with true. cbv iota.
  destruct (skip s) as [|q s']; [discriminate|]. destruct (Ascii.eqb q "}"); [intro E; injection E as <- <-; eauto|]. destruct (Ascii.eqb q quote); [|discriminate]. apply members_object.
Qed.

(** A beginning of the text of an object, short of the whole, does not load. *)
Theorem prefix_refused ao ind l p x v : forallb ws ind = true -> good (JObj l) -> dumps ao ind (JObj l) = p ++ x -> loads p = Ok v -> x = [].
Proof.
  intros W G E R. unfold loads in R. destruct p as [|c p]; [discriminate|].
  assert (C : c = "{"%char).
  { unfold dumps in E. cbn [dumps_at] in E. destruct l; cbn [map block] in E; injection E as E _; congruence. }
  subst c. rewrite skip_fixed in R by reflexivity. destruct (read_value (S (List.length ("{"%char :: p))) ("{"%char :: p)) as [[w r]|] eqn:V; [|discriminate].
  destruct (brace_object _ _ _ _ V) as (lw & ->).
  pose proof (read_round ao ind W (JObj l) 0 (S (List.length (dumps_at ao ind 0 (JObj l)))) [] G ltac:(lia) I) as F. rewrite app_nil_r in F.
  change (dumps_at ao ind 0 (JObj l)) with (dumps ao ind (JObj l)) in F. rewrite E in F.
  assert (X := proj1 (read_ext _) _ _ _ V (or_intror (fun N => N)) (S (List.length (("{"%char :: p) ++ x))) x).
  rewrite X in F by (rewrite app_length; lia). injection F as _ F. destruct r; [exact F|discriminate].
Qed.

(** ** No NUL *)
Definition nul : ascii := "000"%char.
Definition used (s r : text) : Prop := exists a, s = a ++ r /\ ~ In nul a.
Lemma used_refl s : used s s. Proof. exists []. split; [reflexivity|]. intros []. Qed.
Lemma used_trans a b c : used a b -> used b c -> used a c.
Proof. intros (x & -> & X) (y & -> & Y). exists (x ++ y). split; [apply app_assoc|]. rewrite in_app_iff. tauto. Qed.
Lemma used_cons c s r : c <> nul -> used s r -> used (c :: s) r.
Proof. intros N (x & -> & X). exists (c :: x). split; [reflexivity|]. intros [H|H]; [congruence|exact (X H)]. Qed.
Lemma used_no_nul s : ~ In nul s -> used s []. Proof. intro H. exists s. rewrite app_nil_r. auto. Qed.
Lemma used_skip s : used s (skip s).
Proof.
  destruct (skip_split s) as (b & E & W). exists b. split; [exact E|]. intro I. rewrite forallb_forall in W. specialize (W _ I). discriminate.
Qed.
Lemma used_string : forall n s k r, List.length s <= n -> read_string s = Ok (k, r) -> used s r.
Proof.
  assert (H4 : forall a b h d y, unicode a b h d = Some y -> a <> nul /\ b <> nul /\ h <> nul /\ d <> nul).
  { intros a b h d y U. unfold unicode in U. repeat split; intros ->; change (hex_value nul) with (@None N) in U; cbv iota in U;
      repeat match type of U with match ?x with _ => _ end = _ => destruct x; try discriminate end; try discriminate. }
  induction n as [|n IH]; intros s k r L R; [destruct s; [discriminate|cbn in L; lia]|]. destruct s as [|c s]; [discriminate|]. cbn [List.length] in L. cbn [read_string] in R.
  destruct (Ascii.eqb_spec c quote) as [-> |Q]; [injection R as _ <-; apply used_cons; [discriminate|apply used_refl]|]. destruct (Ascii.eqb_spec c backslash) as [-> |B].
  - apply used_cons; [discriminate|]. destruct s as [|e s]; [discriminate|]. cbn [List.length] in *. destruct (Ascii.eqb_spec e "u") as [-> |U].
    + destruct s as [|a [|b [|h [|d s]]]]; try discriminate. cbn [List.length] in *. destruct (unicode a b h d) eqn:X; [|discriminate].
      destruct (H4 _ _ _ _ _ X) as (?&?&?&?). apply cons_to_Ok in R as (k' & R & ->). apply used_cons; [discriminate|]. do 4 (apply used_cons; [assumption|]). exact (IH s _ _ ltac:(lia) R).
    + destruct (simple_escape e) eqn:X; [|discriminate]. apply cons_to_Ok in R as (k' & R & ->). apply used_cons; [intros ->; discriminate|]. exact (IH s _ _ ltac:(lia) R).
  - destruct (N.ltb (N_of_ascii c) 32) eqn:X; [discriminate|]. apply cons_to_Ok in R as (k' & R & ->). apply used_cons; [intros ->; discriminate|]. exact (IH s _ _ ltac:(lia) R).
Qed.
Lemma used_plain s j r : read_plain s = Ok (j, r) -> used s r.
Proof.
  intro R. destruct (read_plain_parts _ _ _ R) as [(p & I & ->)|(tok & -> & N & K & E)].
  - exists p. split; [reflexivity|]. intro H. repeat (destruct I as [I|I]; [injection I as <- <-; cbn in H; repeat (destruct H as [H|H]; [discriminate|]); destruct H|]). destruct I.
  - exists tok. split; [reflexivity|]. intro H. rewrite forallb_forall in K. specialize (K _ H). discriminate.
Qed.
Lemma used_read f :
  (forall s v r, read_value f s = Ok (v, r) -> used s r) /\ (forall acc s v r, read_members f acc s = Ok (v, r) -> used s r) /\ (forall acc s v r, read_elements f acc s = Ok (v, r) -> used s r).
Proof.
  assert (SK : forall s c r, skip s = c :: r -> c <> nul -> used s r).
  { intros s c r S N. apply (used_trans _ (skip s)); [apply used_skip|]. rewrite S. apply used_cons; [exact N|apply used_refl]. }
  assert (SC : forall s c r d, skip s = c :: r -> Ascii.eqb c d = true -> d <> nul -> used s r).
  { intros s c r d S E N. apply Ascii.eqb_eq in E. subst d. exact (SK _ _ _ S N). }
  induction f as [|f (IV & IM & IE)]; [repeat split; intros; discriminate|]. repeat split.
  - intros s v r R. destruct s as [|c s]; [discriminate|]. cbn [read_value] in R.
    destruct (Ascii.eqb_spec c quote) as [-> |C1].
    { destruct (read_string s) as [[k t]|] eqn:S; [|discriminate]. injection R as _ <-. apply used_cons; [discriminate|]. exact (used_string _ _ _ _ (le_n _) S). }
    destruct (Ascii.eqb_spec c "{") as [-> |C2].
    { apply used_cons; [discriminate|]. destruct (skip s) as [|q s'] eqn:S; [discriminate|]. destruct (Ascii.eqb q "}") eqn:Q; [injection R as _ <-; apply (SC _ _ _ _ S Q); discriminate|].
      destruct (Ascii.eqb q quote) eqn:Q2; [|discriminate]. apply (used_trans _ s'); [apply (SC _ _ _ _ S Q2); discriminate|]. exact (IM _ _ _ _ R). }
    destruct (Ascii.eqb_spec c "[") as [-> |C3].
    { apply used_cons; [discriminate|]. destruct (skip s) as [|q s'] eqn:S; [discriminate|]. destruct (Ascii.eqb q "]") eqn:Q; [injection R as _ <-; apply (SC _ _ _ _ S Q); discriminate|].
      apply (used_trans _ (skip s)); [apply used_skip|]. rewrite S. exact (IE _ _ _ _ R). }
    exact (used_plain _ _ _ R).
  - intros acc s v r R. cbn [read_members] in R.
    destruct (read_string s) as [[k t]|] eqn:S; [|discriminate]. apply (used_trans _ t); [exact (used_string _ _ _ _ (le_n _) S)|].
    destruct (skip t) as [|c r1] eqn:K; [discriminate|]. destruct (Ascii.eqb c ":") eqn:Q; [|discriminate]. apply (used_trans _ r1); [apply (SC _ _ _ _ K Q); discriminate|].
    destruct (read_value f (skip r1)) as [[w r2]|] eqn:V; [|discriminate]. apply (used_trans _ (skip r1)); [apply used_skip|]. apply (used_trans _ r2); [exact (IV _ _ _ V)|].
    destruct (skip r2) as [|d r3] eqn:K2; [discriminate|].
    destruct (Ascii.eqb d "}") eqn:Q2; [injection R as _ <-; apply (SC _ _ _ _ K2 Q2); discriminate|]. destruct (Ascii.eqb d ",") eqn:Q3; [|discriminate].
    apply (used_trans _ r3); [apply (SC _ _ _ _ K2 Q3); discriminate|]. destruct (skip r3) as [|q r4] eqn:K3; [discriminate|]. destruct (Ascii.eqb q quote) eqn:Q4; [|discriminate].
    apply (used_trans _ r4); [apply (SC _ _ _ _ K3 Q4); discriminate|]. exact (IM _ _ _ _ R).
  - intros acc s v r R. cbn [read_elements] in R.
    destruct (read_value f s) as [[w r2]|] eqn:V; [|discriminate]. apply (used_trans _ r2); [exact (IV _ _ _ V)|]. destruct (skip r2) as [|d r3] eqn:K2; [discriminate|].
    destruct (Ascii.eqb d "]") eqn:Q2; [injection R as _ <-; apply (SC _ _ _ _ K2 Q2); discriminate|]. destruct (Ascii.eqb d ",") eqn:Q3; [|discriminate].
    apply (used_trans _ r3); [apply (SC _ _ _ _ K2 Q3); discriminate|]. apply (used_trans _ (skip r3)); [apply used_skip|]. exact (IE _ _ _ _ R).
Qed.
Theorem nul_refused s v : loads s = Ok v -> ~ In nul s.
Proof.
  unfold loads. destruct (read_value _ (skip s)) as [[w r]|] eqn:V; [|discriminate]. destruct (skip r) eqn:K; [|discriminate]. intros _.
  destruct (used_trans _ _ _ (used_trans _ _ _ (used_skip s) (proj1 (used_read _) _ _ _ V)) (used_skip r)) as (a & E & N). rewrite K, app_nil_r in E. subst. exact N.
Qed.

(** A file caught in the middle of a write: cut short, and each character in place or still unwritten. *)
Definition torn (full t : text) : Prop := List.length t <= List.length full /\ forall i c, nth_error t i = Some c -> c = nul \/ nth_error full i = Some c.
Lemma torn_prefix full : forall t, torn full t -> ~ In nul t -> exists x, full = t ++ x.
Proof.
  induction full as [|c full IH]; intros t [L P] N.
  - destruct t; [exists []; reflexivity|cbn in L; lia].
  - destruct t as [|d t]; [exists (c :: full); reflexivity|]. destruct (P 0 d eq_refl) as [-> |E]; [exfalso; apply N; left; reflexivity|]. injection E as ->.
    destruct (IH t) as (x & ->); [|intro H; apply N; right; exact H|exists x; reflexivity]. split; [cbn in L; lia|]. intros i e. exact (P (S i) e).
Qed.
Theorem torn_refused ao ind l t v : forallb ws ind = true -> good (JObj l) -> torn (dumps ao ind (JObj l)) t -> loads t = Ok v -> v = JObj l /\ t = dumps ao ind (JObj l).
Proof.
  intros W G T R. destruct (torn_prefix _ _ T (nul_refused _ _ R)) as (x & E). pose proof (prefix_refused _ _ _ _ _ _ W G E R). subst x. rewrite app_nil_r in E. rewrite <- E in R. split; [|congruence].
  rewrite loads_dumps in R by assumption. injection R as <-. reflexivity.
Qed.
