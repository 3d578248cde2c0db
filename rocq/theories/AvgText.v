(** The lines of AVG files. *)
From Coq Require Import Qabs.
From Verif Require Import PyBase PyText PyNum IsoModel PyFloat PySci PyFacts TextFacts PyFloatFacts PySciFacts ValidatorsModel UnitsModel LocationModel EdiProofs Cplx AvgHeadModel AvgHeadSpec AvgHeadProofs AvgHeadValues AvgHeadProps AvgModel.
From Verif Require HeadValues.
Local Open Scope nat_scope.

(** ** Numbers in capital letters *)
Lemma to_upper_space c : is_space (to_upper c) = is_space c.
Proof. apply eqb_prop. revert c. apply ascii_forall. vm_compute. reflexivity. Qed.
Lemma lstrip_upper s : lstrip (upper s) = upper (lstrip s).
Proof. induction s as [|c r IH]; [reflexivity|]. cbn [upper map lstrip]. rewrite to_upper_space. destruct (is_space c); [exact IH|reflexivity]. Qed.
Lemma strip_upper s : strip (upper s) = upper (strip s).
Proof. unfold strip, rstrip. rewrite lstrip_upper. unfold upper at 1. rewrite <- map_rev. fold (upper (rev (lstrip s))). rewrite lstrip_upper. unfold upper at 1. rewrite <- map_rev. reflexivity. Qed.
Lemma lower_upper s : lower (upper s) = lower s.
Proof. unfold lower, upper. rewrite map_map. apply map_ext. intros c. apply to_lower_to_upper. Qed.
Lemma upper_char_facts c : is_digit (to_upper c) = is_digit c /\ (is_digit c = true -> to_upper c = c) /\ Ascii.eqb (to_upper c) "-" = Ascii.eqb c "-" /\ Ascii.eqb (to_upper c) "+" = Ascii.eqb c "+" /\
  Ascii.eqb (to_upper c) "." = Ascii.eqb c "." /\ (Ascii.eqb (to_upper c) "e" || Ascii.eqb (to_upper c) "E") = (Ascii.eqb c "e" || Ascii.eqb c "E").
Proof.
  assert (G : (Bool.eqb (is_digit (to_upper c)) (is_digit c) && implb (is_digit c) (Ascii.eqb (to_upper c) c) && Bool.eqb (Ascii.eqb (to_upper c) "-") (Ascii.eqb c "-") && Bool.eqb (Ascii.eqb (to_upper c) "+") (Ascii.eqb c "+") &&
    Bool.eqb (Ascii.eqb (to_upper c) ".") (Ascii.eqb c ".") && Bool.eqb (Ascii.eqb (to_upper c) "e" || Ascii.eqb (to_upper c) "E") (Ascii.eqb c "e" || Ascii.eqb c "E")) = true) by (revert c; apply ascii_forall; vm_compute; reflexivity).
  repeat (apply andb_true_iff in G; destruct G as [G ?G]). repeat split; try (apply eqb_prop; assumption). intros D. rewrite D in G4. cbn [implb] in G4. apply Ascii.eqb_eq in G4. exact G4.
Qed.
Lemma take_digits_upper s : take_digits (upper s) = (fst (take_digits s), upper (snd (take_digits s))).
Proof.
  induction s as [|c r IH]; [reflexivity|]. cbn [upper map take_digits]. destruct (upper_char_facts c) as (D & DD & _). rewrite D. destruct (is_digit c) eqn:E; [|reflexivity].
  fold (upper r). rewrite IH. destruct (take_digits r) as [a b]. cbn [fst snd]. rewrite (DD eq_refl). reflexivity.
Qed.
Lemma read_sign_upper s : read_sign (upper s) = (fst (read_sign s), upper (snd (read_sign s))).
Proof. destruct s as [|c r]; [reflexivity|]. cbn [upper map read_sign]. destruct (upper_char_facts c) as (_ & _ & A & B & _). rewrite A, B. destruct (Ascii.eqb c "-"); [reflexivity|]. destruct (Ascii.eqb c "+"); reflexivity. Qed.
Lemma read_point_upper s : read_point (upper s) = (fst (read_point s), upper (snd (read_point s))).
Proof. destruct s as [|c r]; [reflexivity|]. cbn [upper map read_point]. destruct (upper_char_facts c) as (_ & _ & _ & _ & A & _). rewrite A. destruct (Ascii.eqb c "."); [apply take_digits_upper|reflexivity]. Qed.
Lemma nonempty_upper s : nonempty (upper s) = nonempty s. Proof. destruct s; reflexivity. Qed.
Lemma read_exponent_upper s : read_exponent (upper s) = read_exponent s.
Proof.
  destruct s as [|c r]; [reflexivity|]. cbn [upper map read_exponent]. destruct (upper_char_facts c) as (_ & _ & _ & _ & _ & A). rewrite A. destruct (Ascii.eqb c "e" || Ascii.eqb c "E"); [|reflexivity].
  fold (upper r). rewrite read_sign_upper. destruct (read_sign r) as [sg r1]. cbn [fst snd]. rewrite take_digits_upper. destruct (take_digits r1) as [w r2]. cbn [fst snd]. rewrite nonempty_upper. reflexivity.
Qed.
Lemma read_float_upper s : read_float (upper s) = read_float s.
Proof.
  unfold read_float. rewrite strip_upper, read_sign_upper. destruct (read_sign (strip s)) as [sg r]. cbn [fst snd]. rewrite lower_upper, take_digits_upper. destruct (take_digits r) as [ip r1]. cbn [fst snd].
  rewrite read_point_upper. destruct (read_point r1) as [fp r2]. cbn [fst snd]. rewrite read_exponent_upper. reflexivity.
Qed.
(** ** Pieces of lines *)
Lemma strip_space s : strip (" "%char :: s) = strip s. Proof. reflexivity. Qed.
Lemma strip_spaces n s : strip (repeat " "%char n ++ s) = strip s.
Proof. induction n as [|n IH]; [reflexivity|]. cbn [repeat app]. rewrite strip_space. exact IH. Qed.
Lemma strip_rjust w s : strip (rjust w s) = strip s. Proof. apply strip_spaces. Qed.
Lemma read_strip s : read_float (strip s) = read_float s.
Proof. unfold read_float. rewrite strip_idem. reflexivity. Qed.
Definition piece_value (s : text) : result pynum := to_number (strip s).
Lemma piece_read s : piece_value s = to_number s.
Proof. unfold piece_value, to_number. rewrite read_strip. reflexivity. Qed.
Definition fixed_value (d : nat) (q : Q) : Q := (inject_Z (round_half_even (q * inject_Z (10 ^ Z.of_nat d))) / inject_Z (10 ^ Z.of_nat d))%Q.
(** What a number is after writing and reading. *)
Definition by_value (value : Q -> Q) (x y : pynum) : Prop := match x, y with Fin q, Fin v => (v == value q)%Q | NonFinite, NonFinite => True | _, _ => False end.
Definition five_digits : pynum -> pynum -> Prop := by_value (sci_value 4).
Definition decimals (d : nat) : pynum -> pynum -> Prop := by_value (fixed_value d).
Definition whole (x y : pynum) : Prop := exists q v, x = Fin q /\ y = Fin v /\ (v == inject_Z (py_int q))%Q.
Lemma fmt_e_read x : exists y, piece_value (fmt_e x) = Ok y /\ five_digits x y.
Proof.
  unfold fmt_e, piece_value. rewrite strip_rjust. destruct x as [q|].
  - destruct (read_show_sci 4 q ltac:(lia)) as (v & R & E). exists (Fin v). split; [|exact E]. unfold to_number. rewrite read_strip, read_float_upper, R. reflexivity.
  - exists NonFinite. split; [reflexivity|exact I].
Qed.
Lemma fmt_f_read w d x : exists y, piece_value (fmt_f w d x) = Ok y /\ decimals d x y.
Proof.
  unfold fmt_f, piece_value. rewrite strip_rjust. destruct x as [q|].
  - cbn [show_num]. unfold show_fixed. destruct (read_show_scaled d (round_half_even (q * inject_Z (10 ^ Z.of_nat d)))) as (v & R & E). exists (Fin v). split; [|exact E]. unfold to_number. rewrite read_strip, R. reflexivity.
  - exists NonFinite. split; [reflexivity|exact I].
Qed.
Lemma int_read n : exists v, to_number (show_int n) = Ok (Fin v) /\ (v == inject_Z n)%Q.
Proof. destruct (read_show_int n) as (v & R & E). exists v. split; [|exact E]. unfold to_number. rewrite R. reflexivity. Qed.
Lemma piece_pad n s : piece_value (repeat " "%char n ++ s) = piece_value s.
Proof. unfold piece_value. rewrite strip_spaces. reflexivity. Qed.
(** The characters of the lines of numbers. *)
Definition row_char (c : ascii) : bool := is_digit c || existsb (Ascii.eqb c) [" "; "."; "-"; "+"; "E"; "N"; "A"; "n"; "a"]%char.
Lemma row_char_not c : row_char c = true -> c <> ","%char /\ c <> "$"%char /\ c <> newline /\ c <> "*"%char /\ to_lower c <> "s"%char /\ c <> "="%char.
Proof.
  intros H. assert (G : implb (row_char c) (negb (Ascii.eqb c ",") && negb (Ascii.eqb c "$") && negb (Ascii.eqb c newline) && negb (Ascii.eqb c "*") && negb (Ascii.eqb (to_lower c) "s") && negb (Ascii.eqb c "=")) = true) by (clear H; revert c; apply ascii_forall; vm_compute; reflexivity).
  rewrite H in G. cbn [implb] in G. repeat (apply andb_true_iff in G; destruct G as [G ?G]). repeat match goal with X : negb _ = true |- _ => apply negb_true_iff in X; apply Ascii.eqb_neq in X end. repeat split; assumption.
Qed.
Lemma chars_rjust w s : forallb row_char s = true -> forallb row_char (rjust w s) = true.
Proof. intros H. unfold rjust. rewrite forallb_app, H, andb_true_r. apply forallb_forall. intros c I. apply repeat_spec in I. subst c. reflexivity. Qed.
Lemma num_row_char c : num_char c = true -> row_char c = true.
Proof.
  intros H. assert (G : implb (num_char c) (row_char c) = true) by (clear H; revert c; apply ascii_forall; vm_compute; reflexivity). rewrite H in G. exact G.
Qed.
Lemma num_row_chars s : forallb num_char s = true -> forallb row_char s = true.
Proof. intros H. apply forallb_forall. intros c I. apply num_row_char. exact (proj1 (forallb_forall num_char s) H c I). Qed.
Lemma sci_row_char c : sci_char c = true -> row_char (to_upper c) = true.
Proof.
  intros H. assert (G : implb (sci_char c) (row_char (to_upper c)) = true) by (clear H; revert c; apply ascii_forall; vm_compute; reflexivity). rewrite H in G. exact G.
Qed.
Lemma fmt_e_chars x : forallb row_char (fmt_e x) = true.
Proof.
  apply chars_rjust. destruct x as [q|]; [|reflexivity]. apply forallb_forall. intros c I. apply in_map_iff in I. destruct I as (b & <- & I). apply sci_row_char. exact (proj1 (forallb_forall sci_char _) (show_sci_chars 4 q) b I).
Qed.
Lemma fmt_f_chars w d x : forallb row_char (fmt_f w d x) = true.
Proof. apply chars_rjust. destruct x as [q|]; [|reflexivity]. apply num_row_chars, fixed_chars. Qed.
Lemma int_chars n : forallb row_char (show_int n) = true.
Proof. apply num_row_chars, show_int_chars. Qed.
(** Splitting at the commas. *)
Fixpoint cut (x : text) (l : list text) (tail : text) : list text := match l with [] => [x ++ tail] | y :: r => x :: cut (" "%char :: y) r tail end.
Lemma split_cut tail : ~ In ","%char tail -> forall l x, (forall w, In w (x :: l) -> ~ In ","%char w) -> split_on "," (join (txt ", ") (x :: l) ++ tail) = cut x l tail.
Proof.
  intros T. induction l as [|y l IH]; intros x H.
  - cbn [join cut]. apply split_on_no. intros I. apply in_app_or in I. destruct I as [I|I]; [exact (H x (or_introl eq_refl) I)|exact (T I)].
  - change (join (txt ", ") (x :: y :: l)) with (x ++ ","%char :: " "%char :: join (txt ", ") (y :: l)). rewrite <- app_assoc. cbn [app]. rewrite split_on_app by exact (H x (or_introl eq_refl)). cbn [cut]. f_equal.
    specialize (IH (" "%char :: y)). rewrite <- IH.
    + f_equal. destruct l; reflexivity.
    + intros w [<-|I]; [|apply H; right; right; exact I]. intros [E|I]; [discriminate E|]. exact (H y (or_intror (or_introl eq_refl)) I).
Qed.
Lemma cut_values tail : tail = [] \/ tail = [newline] -> forall l x, map_result piece_value (cut x l tail) = map_result piece_value (x :: l).
Proof.
  intros T. induction l as [|y l IH]; intros x; cbn [cut map_result].
  - assert (E : piece_value (x ++ tail) = piece_value x). { destruct T as [-> | ->]; [rewrite app_nil_r; reflexivity|]. unfold piece_value. rewrite strip_line. reflexivity. } rewrite E. reflexivity.
  - rewrite IH. cbn [map_result]. assert (E : piece_value (" "%char :: y) = piece_value y) by (unfold piece_value; rewrite strip_space; reflexivity). rewrite E. reflexivity.
Qed.
Lemma replace_none a b s : ~ In a s -> replace_char a b s = s.
Proof.
  induction s as [|c r IH]; intros H; [reflexivity|]. unfold replace_char in *. cbn [flat_map]. destruct (Ascii.eqb_spec c a) as [->|N]; [exfalso; apply H; left; reflexivity|].
  cbn [app]. f_equal. apply IH. intros I. apply H. right. exact I.
Qed.
(** ** One line of numbers *)
Definition rounded (r r' : row) : Prop :=
  whole (r_skip r) (r_skip r') /\ five_digits (r_freq r) (r_freq r') /\ five_digits (r_e r) (r_e r') /\ five_digits (r_b r) (r_b r') /\ five_digits (r_mag r) (r_mag r') /\
  decimals 1 (r_phase r) (r_phase r') /\ five_digits (r_ares r) (r_ares r') /\ decimals 1 (r_err r) (r_err r') /\ decimals 1 (r_perr r) (r_perr r') /\ decimals 3 (r_coh r) (r_coh r') /\
  whole (r_use r) (r_use r') /\ whole (r_try r) (r_try r').
Definition line_char (c : ascii) : bool := row_char c || Ascii.eqb c ",".
Lemma join_chars l : Forall (fun s => forallb row_char s = true) l -> forallb line_char (join (txt ", ") l) = true.
Proof.
  assert (W : forall s, forallb row_char s = true -> forallb line_char s = true). { intros s H. apply forallb_forall. intros c I. unfold line_char. rewrite (proj1 (forallb_forall row_char s) H c I). reflexivity. }
  induction l as [|x l IH]; intros F; [reflexivity|]. cbn [join]. destruct l as [|y l]; [apply W, (Forall_inv F)|]. rewrite !forallb_app, (W _ (Forall_inv F)), (IH (Forall_inv_tail F)). reflexivity.
Qed.
Lemma chars_app a b : forallb row_char a = true -> forallb row_char b = true -> forallb row_char (a ++ b) = true.
Proof. intros A B. rewrite forallb_app, A, B. reflexivity. Qed.
Definition pieces (r : row) (skip use try : Z) : list text :=
  [show_int skip; fmt_e (r_freq r); fmt_e (r_e r); fmt_e (r_b r); fmt_e (r_mag r); fmt_f 6 1 (r_phase r); txt "  " ++ fmt_e (r_ares r);
     fmt_f 4 1 (r_err r); txt "    " ++ fmt_f 6 1 (r_perr r); txt "  " ++ fmt_f 5 3 (r_coh r); txt "  " ++ rjust 2 (show_int use);
     txt "    " ++ rjust 2 (show_int try)].
Lemma pieces_chars r a b c : Forall (fun s => forallb row_char s = true) (pieces r a b c).
Proof.
  unfold pieces. repeat apply Forall_cons; try apply Forall_nil; try apply int_chars; try apply fmt_e_chars; try apply fmt_f_chars; apply chars_app; try reflexivity; try apply fmt_e_chars; try apply fmt_f_chars; apply chars_rjust, int_chars.
Qed.
Lemma row_line_pieces r s : row_line r = Ok s -> exists a b c, to_int (r_skip r) = Ok a /\ to_int (r_use r) = Ok b /\ to_int (r_try r) = Ok c /\ s = join (txt ", ") (pieces r a b c).
Proof.
  unfold row_line. destruct (to_int (r_skip r)) as [a|]; [|discriminate]. cbn [bindR]. destruct (to_int (r_use r)) as [b|]; [|discriminate]. cbn [bindR]. destruct (to_int (r_try r)) as [c|]; [|discriminate]. cbn [bindR]. intros E.
  exists a, b, c. split; [reflexivity|]. split; [reflexivity|]. split; [reflexivity|]. assert (X : forall x y : text, Ok x = Ok y -> y = x) by (intros x y H; injection H as <-; reflexivity). apply X in E. exact E.
Qed.
Lemma row_line_chars r s : row_line r = Ok s -> forallb line_char s = true /\ 3 <= length s.
Proof.
  intros H. destruct (row_line_pieces r s H) as (a & b & c & _ & _ & _ & ->). split; [apply join_chars, pieces_chars|]. unfold pieces.
  cbn [join]. rewrite !app_length. cbn [length txt list_ascii_of_string]. lia.
Qed.
Lemma line_char_not c : line_char c = true -> c <> "$"%char /\ c <> newline /\ c <> "*"%char /\ to_lower c <> "s"%char.
Proof.
  unfold line_char. intros H. apply orb_true_iff in H. destruct H as [H|H]; [destruct (row_char_not c H) as (_ & A & B & C & D & _); repeat split; assumption|].
  apply Ascii.eqb_eq in H. subst c. repeat split; discriminate.
Qed.
Lemma to_int_whole x n y v : to_int x = Ok n -> y = Fin v -> (v == inject_Z n)%Q -> whole x y.
Proof. destruct x as [q|]; [|discriminate]. cbn [to_int]. intros E -> V. assert (X : forall a b : Z, Ok a = Ok b -> b = a) by (intros a b H; injection H as <-; reflexivity). apply X in E. subst n. exists q, v. repeat split. exact V. Qed.
Lemma row_back r c s tail : row_line r = Ok s -> tail = [] \/ tail = [newline] -> exists r', read_row c (s ++ tail) = Ok r' /\ r_comp r' = lower c /\ rounded r r'.
Proof.
  intros H T. destruct (row_line_chars r s H) as [CH _]. destruct (row_line_pieces r s H) as (n1 & n2 & n3 & I1 & I2 & I3 & E).
  assert (NS : ~ In "*"%char (s ++ tail)). { intros J. apply in_app_or in J. destruct J as [J|J]; [pose proof (proj1 (forallb_forall line_char s) CH _ J) as X; discriminate X|]. destruct T as [-> | ->]; [destruct J|destruct J as [J|[]]; discriminate J]. }
  unfold read_row. rewrite (replace_none _ _ _ NS). rewrite E. unfold pieces at 1. rewrite split_cut.
  - change (fun p : text => to_number (strip p)) with piece_value. rewrite (cut_values tail T).
    destruct (int_read n1) as (v1 & R1 & E1). destruct (fmt_e_read (r_freq r)) as (y2 & R2 & E2). destruct (fmt_e_read (r_e r)) as (y3 & R3 & E3). destruct (fmt_e_read (r_b r)) as (y4 & R4 & E4). destruct (fmt_e_read (r_mag r)) as (y5 & R5 & E5).
    destruct (fmt_f_read 6 1 (r_phase r)) as (y6 & R6 & E6). destruct (fmt_e_read (r_ares r)) as (y7 & R7 & E7). destruct (fmt_f_read 4 1 (r_err r)) as (y8 & R8 & E8). destruct (fmt_f_read 6 1 (r_perr r)) as (y9 & R9 & E9).
    destruct (fmt_f_read 5 3 (r_coh r)) as (y10 & R10 & E10). destruct (int_read n2) as (v11 & R11 & E11). destruct (int_read n3) as (v12 & R12 & E12).
    assert (P1 : piece_value (show_int n1) = Ok (Fin v1)) by (rewrite piece_read; exact R1).
    assert (P7 : piece_value (txt "  " ++ fmt_e (r_ares r)) = Ok y7) by (change (txt "  ") with (repeat " "%char 2); rewrite piece_pad; exact R7).
    assert (P9 : piece_value (txt "    " ++ fmt_f 6 1 (r_perr r)) = Ok y9) by (change (txt "    ") with (repeat " "%char 4); rewrite piece_pad; exact R9).
    assert (P10 : piece_value (txt "  " ++ fmt_f 5 3 (r_coh r)) = Ok y10) by (change (txt "  ") with (repeat " "%char 2); rewrite piece_pad; exact R10).
    assert (P11 : piece_value (txt "  " ++ rjust 2 (show_int n2)) = Ok (Fin v11)) by (change (txt "  ") with (repeat " "%char 2); unfold rjust; rewrite !piece_pad, piece_read; exact R11).
    assert (P12 : piece_value (txt "    " ++ rjust 2 (show_int n3)) = Ok (Fin v12)) by (change (txt "    ") with (repeat " "%char 4); unfold rjust; rewrite !piece_pad, piece_read; exact R12).
    rewrite (map_result_ok piece_value _ [Fin v1; y2; y3; y4; y5; y6; y7; y8; y9; y10; Fin v11; Fin v12]); [|repeat (apply Forall2_cons; [assumption|]); apply Forall2_nil].
    cbn [bindR nth_num nth]. eexists. split; [reflexivity|]. split; [reflexivity|]. unfold rounded. cbn [r_skip r_freq r_e r_b r_mag r_phase r_ares r_err r_perr r_coh r_use r_try].
    split; [apply (to_int_whole _ n1 _ v1 I1 eq_refl E1)|]. do 9 (split; [assumption|]). split; [apply (to_int_whole _ n2 _ v11 I2 eq_refl E11)|apply (to_int_whole _ n3 _ v12 I3 eq_refl E12)].
  - destruct T as [-> | ->]; [intros []|intros [J|[]]; discriminate J].
  - intros w I J. pose proof (proj1 (Forall_forall _ _) (pieces_chars r n1 n2 n3) w I) as X. pose proof (proj1 (forallb_forall row_char w) X _ J) as Y. discriminate Y.
Qed.
