(** Facts about the Empower format of the INFO section. *)
From Verif Require Import PyBase PyFacts PyText TextFacts PyNum PyFloat PyRepr ValidatorsProofs EdiProofs EdiMetaModel EdiMetaSpec HeadSpec HeadProofs NetProofs InfoModel InfoSpec InfoProofs InfoProps PhxSpec PhxProofs PhxProofs2 EmpSpec.
From Coq Require Import Lia.
Local Open Scope list_scope.

(** ** What an entry does *)
Inductive action : Type := ASkip | APut (own : bool) (K : text) | ANote (own : bool) (K : text).
Definition action_eqb (a b : action) : bool :=
  match a, b with ASkip, ASkip => true | APut o K, APut o' K' => (Bool.eqb o o' && text_eqb K K')%bool | ANote o K, ANote o' K' => (Bool.eqb o o' && text_eqb K K')%bool | _, _ => false end.
Lemma action_eqb_eq a b : action_eqb a b = true -> a = b.
Proof. destruct a, b; cbn; intros H; try discriminate H; [reflexivity| |]; apply andb_true_iff in H as [H1 H2]; apply Bool.eqb_prop in H1; apply text_eqb_eq in H2; subst; reflexivity. Qed.
Definition moved (std : text) : text :=
  if (has "hx" std || has "hy" std || has "hz" std)%bool then
    if (has "acquired_by" std || has "data_logger" std)%bool then replace (txt ".hz.") (txt ".") (replace (txt ".hy.") (txt ".") (replace (txt ".hx.") (txt ".") std))
    else if (has "ac" std || has "dc" std)%bool then replace (txt "dc") (txt "comments") (replace (txt "ac") (txt "comments") std)
    else std
  else std.
Definition target (std : text) : action :=
  if (has "remote_references." std && (has "acquired_by" std || has "data_logger" std || has "author" std))%bool then ASkip
  else if (has "azimuth" std && negb (has "measured_azimuth" std))%bool then ASkip
  else
    let own := has "component" std in
    let std := moved std in
    if has "comments" std then ANote own std
    else if has "data_logger.model" std then APut own (txt "run.data_logger.model")
    else if (ends_with "d" std && prefix_of (rev (txt ".id")) (rev std) && negb (has "sensor.id" std))%bool then APut own (txt "run.id")
    else if has "geographic_name" std then APut own (if has "remote_references" std then txt "transfer_function.remote_references.geographic_name" else txt "station.geographic_name")
    else if has "author" std then APut own (txt "run.acquired_by.author")
    else APut own std.
Definition own_value (p : place) (own : bool) (v : text) : ival := if own then match component p with Some c => IText c | None => INone end else IText v.
Definition act (p : place) (key v : text) (a : action) (d : info) : info :=
  match a with
  | ASkip => d
  | APut own K => dset text_dec K (own_value p own v) d
  | ANote own K =>
      let old := match dget text_dec K d with None => [] | Some (ITexts l) => l | Some (IText []) | Some INone => [] | Some x => [show_ival x] end in
      dset text_dec K (ITexts (old ++ [key ++ equals :: show_ival (own_value p own v)])) d
  end.
Lemma entry_act p key std v d : empower_entry p key std v d = act p key v (target std) d.
Proof.
  unfold empower_entry, target. fold (moved std). destruct (_ && (_ || _ || _))%bool; [reflexivity|]. destruct (has "azimuth" std && _)%bool; [reflexivity|]. cbv zeta. fold (own_value p (has "component" std) v). destruct (has "comments" (moved std)); [reflexivity|]. destruct (has "data_logger.model" (moved std)); [reflexivity|]. destruct (_ && _ && _)%bool; [reflexivity|]. destruct (has "geographic_name" (moved std)); [reflexivity|]. destruct (has "author" (moved std)); reflexivity.
Qed.

(** ** Texts *)
Lemma contains_parted w a c b : ~ In c w -> contains w (a ++ c :: b) = (contains w a || contains w b)%bool.
Proof.
  intros N. destruct (contains w a || contains w b)%bool eqn:E.
  - apply orb_true_iff in E as [E|E]; apply contains_spec in E as (x & y & ->); apply contains_spec; [exists x, (y ++ c :: b)|exists (a ++ c :: x), y]; rewrite <- !app_assoc; reflexivity.
  - apply orb_false_iff in E as [E1 E2]. destruct (contains w (a ++ c :: b)) eqn:E; [|reflexivity]. exfalso. apply contains_spec in E as (x & y & E). apply app_eq_app in E as (m & [[H1 H2]|[H1 H2]]).
    + apply app_eq_app in H2 as (m2 & [[H3 H4]|[H3 H4]]).
      * destruct m2 as [|z m2]; [rewrite app_nil_r in H3|].
        -- assert (X : contains w a = true) by (apply contains_spec; exists x, []; rewrite app_nil_r, H1, H3; reflexivity). rewrite X in E1. discriminate E1.
        -- cbn [app] in H4. injection H4 as -> _. apply N. rewrite H3. apply in_or_app. right. left. reflexivity.
      * assert (X : contains w a = true) by (apply contains_spec; exists x, m2; rewrite H1, H3; reflexivity). rewrite X in E1. discriminate E1.
    + destruct m as [|z m]; cbn [app] in H2.
      * destruct w as [|z w]; [destruct a; discriminate E1|]. cbn [app] in H2. injection H2 as -> _. apply N. left. reflexivity.
      * injection H2 as -> H2. assert (X : contains w b = true) by (apply contains_spec; exists m, y; exact H2). rewrite X in E2. discriminate E2.
Qed.
Lemma mentions_no w s : ~ mentions w s -> contains (txt w) s = false.
Proof. intros N. destruct (contains (txt w) s) eqn:E; [|reflexivity]. apply contains_spec in E as (a & b & E). contradiction N. exists a, b. exact E. Qed.
Lemma no_mentions w s : contains (txt w) s = false -> ~ mentions w s.
Proof. intros E (a & b & ->). assert (X : contains (txt w) (a ++ txt w ++ b) = true) by (apply contains_spec; exists a, b; reflexivity). rewrite X in E. discriminate E. Qed.

(** ** Values *)
Lemma find_at c a b : ~ In c a -> find [c] (a ++ c :: b) = Some (List.length a).
Proof.
  induction a as [|x a IH]; intros N.
  - cbn [app find prefix_of]. rewrite Ascii.eqb_refl. reflexivity.
  - cbn [app find prefix_of List.length]. destruct (Ascii.eqb c x) eqn:E; [apply Ascii.eqb_eq in E; exfalso; apply N; left; symmetry; exact E|]. cbn [andb]. rewrite IH by (intros I; apply N; right; exact I). reflexivity.
Qed.
Lemma first_of n u : n <> [] -> strip n = n -> ~ In " "%char n -> exists t, split_on " " (strip (n ++ " "%char :: u)) = n :: t.
Proof.
  intros NE S NB. destruct (strip_decomp (n ++ " "%char :: u)) as (sp1 & sp2 & EQ & S1 & S2). revert EQ. generalize (strip (n ++ " "%char :: u)). intros st EQ. pose proof (trimmed_of _ S) as [T1 T2].
  destruct sp1 as [|y sp1]; [|exfalso; destruct n as [|c0 n0]; [contradiction|]; cbn [app] in EQ; injection EQ as <- _; pose proof (T1 c0 n0 eq_refl) as C0; cbn [forallb] in S1; rewrite C0 in S1; discriminate S1]. cbn [app] in EQ.
  apply app_eq_app in EQ as (m & [[H1 H2]|[H1 H2]]).
  - assert (MM : m = []). { destruct (exists_last NE) as (n1 & z & EZ). destruct m as [|y m]; [reflexivity|]. exfalso. destruct (exists_last (l := y :: m) ltac:(discriminate)) as (m1 & z' & EM). pose proof (T2 z n1 EZ) as CZ. rewrite EZ, EM, app_assoc in H1. apply app_inj_tail in H1 as [_ <-]. rewrite forallb_forall in S2. rewrite H2, EM in S2. rewrite (S2 z) in CZ; [discriminate CZ|]. apply in_or_app. left. apply in_or_app. right. left. reflexivity. }
    subst m. rewrite app_nil_r in H1. exists []. rewrite <- H1. apply split_on_no. exact NB.
  - destruct m as [|y m]; [rewrite app_nil_r in H1; exists []; rewrite H1; apply split_on_no; exact NB|]. cbn [app] in H2. injection H2 as <- H2. exists (split_on " " m). rewrite H1. apply split_on_app. exact NB.
Qed.
Lemma value_reads s v : value_of s v -> empower_value s = v.
Proof.
  unfold empower_value. intros [n u L N S U|x B M V S|c u C NC NU|x (r & ->) M V S].
  - assert (NN : forall c, In c [" "; "["; "]"; ","]%char -> ~ In c n) by (intros c I J; exact (N c J I)). assert (UU : forall c, In c ["["; "]"; ","]%char -> ~ In c u) by (intros c I J; exact (U c J I)).
    assert (E : n ++ txt " [" ++ u ++ txt "]" = (n ++ [" "%char]) ++ "["%char :: u ++ ["]"%char]) by (rewrite <- app_assoc; reflexivity).
    assert (F : find ["["%char] (n ++ txt " [" ++ u ++ txt "]") = Some (Datatypes.S (List.length n))). { rewrite E, find_at; [rewrite app_length; cbn [List.length]; f_equal; lia|]. intros I. apply in_app_or in I as [I|[I|[]]]; [revert I; apply NN; cbn; tauto|discriminate I]. }
    rewrite F. destruct (Nat.ltb_spec 2 (Datatypes.S (List.length n))) as [_|X]; [|lia].
    rewrite E, !replace_char_app. rewrite (replace_char_absent "["%char [] n) by (apply NN; cbn; tauto). change (replace_char "[" [] [" "%char]) with [" "%char]. change (replace_char "[" [] ("["%char :: u ++ ["]"%char])) with (replace_char "[" [] (u ++ ["]"%char])). rewrite !replace_char_app. rewrite (replace_char_absent "["%char [] u) by (apply UU; cbn; tauto). change (replace_char "[" [] ["]"%char]) with ["]"%char].
    rewrite ?replace_char_app. rewrite (replace_char_absent "]"%char [] n) by (apply NN; cbn; tauto). rewrite (replace_char_absent "]"%char [] u) by (apply UU; cbn; tauto). change (replace_char "]" [] [" "%char]) with [" "%char]. change (replace_char "]" [] ["]"%char]) with (@nil ascii). rewrite app_nil_r.
    rewrite split_on_no; [|intros I; apply in_app_or in I as [I|I]; [apply in_app_or in I as [I|[I|[]]]; [revert I; apply NN; cbn; tauto|discriminate I]|revert I; apply UU; cbn; tauto]].
    assert (SP : exists t, split_on " " (strip ((n ++ [" "%char]) ++ u)) = n :: t) by (rewrite <- app_assoc; apply first_of; [destruct n; [cbn in L; lia|discriminate]|exact S|apply NN; cbn; tauto]).
    destruct SP as (t & ->). assert (NB : ~ In " "%char n) by (apply NN; cbn; tauto). change (txt " m") with (" "%char :: txt "m"). change (txt " V") with (" "%char :: txt "V"). rewrite (ValidatorsProofs.replace_absent " "%char (txt "m") [] n NB), (ValidatorsProofs.replace_absent " "%char (txt "V") [] n NB). exact S.
  - rewrite (find_absent _ x B). apply mentions_no in M, V. rewrite (NetProofs.replace_absent (txt " m") [] x ltac:(discriminate) M), (NetProofs.replace_absent (txt " V") [] x ltac:(discriminate) V). exact S.
  - assert (F : find ["["%char] (c :: txt " [" ++ u ++ txt "]") = Some 2%nat). { change (c :: txt " [" ++ u ++ txt "]") with ([c; " "%char] ++ "["%char :: u ++ txt "]"). rewrite find_at; [reflexivity|]. intros [X|[X|[]]]; [apply NC; left; symmetry; exact X|discriminate X]. }
    rewrite F. destruct (Nat.ltb_spec 2 2) as [X|_]; [lia|]. assert (NB : forall z, ~ contains (" "%char :: z :: []) (c :: txt " [" ++ u ++ txt "]") = true \/ z = "["%char).
    { intros z. destruct (Ascii.eqb_spec z "["%char) as [->|Z]; [right; reflexivity|left]. intros X. apply contains_spec in X as (a & b & X). destruct a as [|a0 a]; cbn [app] in X; [injection X as -> _; discriminate C|]. injection X as _ X. destruct a as [|a1 a]; cbn [app] in X; [injection X as X _; exact (Z (eq_sym X))|]. injection X as _ X. destruct a as [|a2 a]; cbn [app] in X; [discriminate X|]. injection X as _ X. assert (I : In " "%char (u ++ txt "]")) by (refine (eq_ind_r (fun l => In " "%char l) _ X); apply in_or_app; right; left; reflexivity). apply in_app_or in I as [I|[I|[]]]; [exact (NU _ I (or_introl eq_refl))|discriminate I]. }
    assert (RE : forall z, z <> "["%char -> replace [" "%char; z] [] (c :: txt " [" ++ u ++ txt "]") = c :: txt " [" ++ u ++ txt "]"). { intros z Z. apply NetProofs.replace_absent; [discriminate|]. destruct (NB z) as [X|X]; [|contradiction]. destruct (contains _ _); [contradiction X; reflexivity|reflexivity]. }
    change (txt " m") with [" "%char; "m"%char]. change (txt " V") with [" "%char; "V"%char]. rewrite (RE "m"%char) by discriminate. rewrite (RE "V"%char) by discriminate. apply strip_trimmed. split; intros x r X; [injection X as <- _; exact C|]. change (c :: txt " [" ++ u ++ txt "]") with ((c :: txt " [") ++ u ++ ["]"%char]) in X. rewrite app_assoc in X. apply app_inj_tail in X as [_ <-]. reflexivity.
  - assert (F : find ["["%char] ("["%char :: r) = Some 0%nat) by reflexivity. rewrite F. destruct (Nat.ltb_spec 2 0) as [X|_]; [lia|]. apply mentions_no in M, V. rewrite (NetProofs.replace_absent (txt " m") [] _ ltac:(discriminate) M), (NetProofs.replace_absent (txt " V") [] _ ltac:(discriminate) V). exact S.
Qed.
