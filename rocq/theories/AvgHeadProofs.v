(** Lemmas about the headers of AVG files. *)
From Coq Require Import Qabs.
From Verif Require Import PyBase PyText PyNum IsoModel PyFloat PySci PyFacts TextFacts PyFloatFacts ValidatorsModel UnitsModel LocationModel EdiProofs AvgHeadModel AvgHeadSpec.
From Verif Require HeadValues ZheadProps HeadProofs.

Definition nl : ascii := newline.
Lemma nl_space : is_space nl = true. Proof. reflexivity. Qed.

(** ** Texts *)
Lemma to_lower_space c : is_space (to_lower c) = is_space c.
Proof.
  assert (G : Bool.eqb (is_space (to_lower c)) (is_space c) = true) by (revert c; apply ascii_forall; vm_compute; reflexivity).
  apply eqb_prop. exact G.
Qed.
Lemma lstrip_lower s : lstrip (lower s) = lower (lstrip s).
Proof. induction s as [|c r IH]; [reflexivity|]. cbn [lower map lstrip]. rewrite to_lower_space. destruct (is_space c); [exact IH|reflexivity]. Qed.
Lemma lower_rev s : lower (rev s) = rev (lower s).
Proof. unfold lower. apply map_rev. Qed.
Lemma strip_lower s : strip (lower s) = lower (strip s).
Proof. unfold strip, rstrip. rewrite lstrip_lower, <- lower_rev, lstrip_lower, <- lower_rev. reflexivity. Qed.
Lemma lower_capitalize s : lower (capitalize s) = lower s.
Proof. destruct s as [|c r]; [reflexivity|]. cbn [capitalize]. cbn [lower map]. rewrite to_lower_to_upper. f_equal. apply lower_idem. Qed.
Lemma strip_line s : strip (s ++ [nl]) = strip s.
Proof. unfold strip. destruct (forallb is_space s) eqn:A.
  - assert (B : forallb is_space (s ++ [nl]) = true) by (rewrite forallb_app, A; reflexivity). now rewrite (lstrip_all _ A), (lstrip_all _ B).
  - destruct (lstrip_decomp s) as (sp & E & SP). assert (L : lstrip (s ++ [nl]) = lstrip s ++ [nl]).
    { rewrite E at 1. rewrite <- app_assoc, lstrip_spaces by exact SP. destruct (lstrip s) as [|c r] eqn:F.
      - exfalso. rewrite E, app_nil_r in A. congruence.
      - apply (lstrip_app_nonspace [] c). apply (lstrip_head s c r F). }
    rewrite L. apply rstrip_spaces. reflexivity.
Qed.
Lemma read_text_value s : lower (strip (capitalize s ++ [nl])) = lower (strip s).
Proof. rewrite strip_line, <- strip_lower, lower_capitalize, strip_lower. reflexivity. Qed.
Lemma num_char_case c : num_char c = true -> to_upper c = c /\ to_lower c = c.
Proof.
  intros H. assert (G : implb (num_char c) (Ascii.eqb (to_upper c) c && Ascii.eqb (to_lower c) c) = true) by (clear H; revert c; apply ascii_forall; vm_compute; reflexivity).
  rewrite H in G. cbn [implb] in G. apply andb_true_iff in G. destruct G as [A B]. split; [apply Ascii.eqb_eq, A|apply Ascii.eqb_eq, B].
Qed.
Lemma num_lower s : forallb num_char s = true -> lower s = s.
Proof. induction s as [|c r IH]; intros H; [reflexivity|]. cbn [forallb] in H. apply andb_true_iff in H. destruct H as [A B]. cbn [lower map]. rewrite (proj2 (num_char_case c A)). f_equal. apply IH, B. Qed.
Lemma num_capitalize s : forallb num_char s = true -> capitalize s = s.
Proof. intros H. destruct s as [|c r]; [reflexivity|]. cbn [forallb] in H. apply andb_true_iff in H. destruct H as [A B]. cbn [capitalize]. rewrite (proj1 (num_char_case c A)). f_equal. apply num_lower, B. Qed.

(** ** Lines *)
Lemma find_equals s r : ~ In "="%char s -> find (txt "=") (s ++ "="%char :: r) = Some (length s).
Proof.
  induction s as [|c s IH]; intros H; [reflexivity|]. cbn [app find].
  assert (E : prefix_of (txt "=") (c :: s ++ "="%char :: r) = false).
  { change (prefix_of (txt "=") (c :: s ++ "="%char :: r)) with (Ascii.eqb "=" c && true). rewrite andb_true_r. apply Ascii.eqb_neq. intros E. apply H. left. symmetry. exact E. }
  rewrite E, IH by (intros I; apply H; right; exact I). reflexivity.
Qed.
Lemma header_line_is k v : ~ In "="%char k -> is_header_line (txt "$" ++ k ++ txt "=" ++ v) = true.
Proof.
  intros H. unfold is_header_line. change (txt "$" ++ k ++ txt "=" ++ v) with (("$"%char :: k) ++ "="%char :: v).
  rewrite find_equals; [reflexivity|]. intros [E|I]; [discriminate E|exact (H I)].
Qed.
Lemma header_line_split k v : ~ In "="%char k -> ~ In "="%char v -> split_on "=" (tl (txt "$" ++ k ++ txt "=" ++ v)) = [k; v].
Proof.
  intros H G. change (tl (txt "$" ++ k ++ txt "=" ++ v)) with (k ++ "="%char :: v). rewrite split_on_app by exact H. rewrite split_on_no by exact G. reflexivity.
Qed.
(** The keys that are written are those that are read. *)
Definition key_check (fk : hfield * text) : bool :=
  negb (has_char "=" (key_text (snd fk))) &&
  match read_key (key_text (snd fk)) with Ok k => text_eqb k (snd fk) | Err _ => false end &&
  negb (contains (txt "rx.cmp") (snd fk)) &&
  match field_of (replace (txt "g_d_p") (txt "gdp") (replace (txt "g_p_s") (txt "gps") (snd fk))) with Some f => if hfield_dec f (fst fk) then true else false | None => false end.
Lemma keys_ok : forallb key_check header_keys = true. Proof. vm_compute. reflexivity. Qed.
Lemma key_ok f k : In (f, k) header_keys -> ~ In "="%char (key_text k) /\ read_key (key_text k) = Ok k /\ contains (txt "rx.cmp") k = false /\
  field_of (replace (txt "g_d_p") (txt "gdp") (replace (txt "g_p_s") (txt "gps") k)) = Some f.
Proof.
  intros H. pose proof (proj1 (forallb_forall key_check header_keys) keys_ok (f, k) H) as C. unfold key_check in C. cbn [fst snd] in C.
  apply andb_true_iff in C. destruct C as [C C4]. apply andb_true_iff in C. destruct C as [C C3]. apply andb_true_iff in C. destruct C as [C1 C2].
  split; [apply has_char_notIn; apply negb_true_iff; exact C1|]. split; [|split; [apply negb_true_iff; exact C3|]].
  - destruct (read_key (key_text k)) as [k'|e]; [|discriminate C2]. apply text_eqb_eq in C2. now subst.
  - destruct (field_of _) as [f'|]; [|discriminate C4]. destruct (hfield_dec f' f) as [->|]; [reflexivity|discriminate C4].
Qed.
Definition line_of (k s : text) : text := txt "$" ++ key_text k ++ txt "=" ++ s.
Lemma read_header_line h d f k s : In (f, k) header_keys -> ~ In "="%char s ->
  read_line (h, None, d) (line_of k s ++ [nl]) = bindR (read_value k (s ++ [nl])) (fun v => bindR (validate_field f v) (fun x => Ok (set_field h f x, None, d))).
Proof.
  intros IN NE. destruct (key_ok f k IN) as (K1 & K2 & K3 & K4).
  assert (L : line_of k s ++ [nl] = txt "$" ++ key_text k ++ txt "=" ++ (s ++ [nl])) by (unfold line_of; rewrite <- !app_assoc; reflexivity).
  assert (NE' : ~ In "="%char (s ++ [nl])) by (intros I; apply in_app_or in I; destruct I as [I|[I|[]]]; [exact (NE I)|discriminate I]).
  rewrite L. unfold read_line. rewrite (header_line_is _ _ K1), (header_line_split _ _ K1 NE'), K2. cbn [bindR]. destruct (read_value k (s ++ [nl])) as [v|e]; [|reflexivity]. cbn [bindR].
  rewrite K3. cbn [fst snd]. unfold update_attribute. rewrite K4. destruct (validate_field f v) as [x|e]; reflexivity.
Qed.
Lemma equals_line h d f k s : In (f, k) header_keys -> In "="%char s -> exists e, read_line (h, None, d) (line_of k s ++ [nl]) = Err e.
Proof.
  intros IN NE. destruct (key_ok f k IN) as (K1 & _).
  assert (L : line_of k s ++ [nl] = txt "$" ++ key_text k ++ txt "=" ++ (s ++ [nl])) by (unfold line_of; rewrite <- !app_assoc; reflexivity).
  rewrite L. unfold read_line. rewrite (header_line_is _ _ K1). change (tl (txt "$" ++ key_text k ++ txt "=" ++ s ++ [nl])) with (key_text k ++ "="%char :: (s ++ [nl])).
  rewrite split_on_app by exact K1. apply in_split in NE. destruct NE as (a & b & ->).
  destruct (split_on "=" ((a ++ "="%char :: b) ++ [nl])) as [|x [|y r]] eqn:S.
  - exists ValueError. reflexivity.
  - exfalso. pose proof (join_split "="%char ((a ++ "="%char :: b) ++ [nl])) as J. rewrite S in J. cbn [join] in J.
    assert (I : In x (split_on "=" ((a ++ "="%char :: b) ++ [nl]))) by (rewrite S; left; reflexivity). apply split_on_parts in I. apply I. rewrite J. apply in_or_app. left. apply in_or_app. right. left. reflexivity.
  - exists ValueError. reflexivity.
Qed.
(** ** All the lines *)
Fixpoint set_all (l : list (hfield * text)) (g : hfield -> hvalue) (h : head) : head :=
  match l with [] => h | (f, _) :: r => set_all r g (set_field h f (g f)) end.
Lemma read_all (w : hfield -> text) g d : forall l h rest, (forall f k, In (f, k) l -> In (f, k) header_keys /\ ~ In "="%char (w f) /\
    bindR (read_value k (w f ++ [nl])) (validate_field f) = Ok (g f)) ->
  read_lines (h, None, d) (map (fun fk => line_of (snd fk) (w (fst fk)) ++ [nl]) l ++ rest) = read_lines (set_all l g h, None, d) rest.
Proof.
  induction l as [|[f k] l IH]; intros h rest H; [reflexivity|]. cbn [map app read_lines fst snd set_all].
  destruct (H f k (or_introl eq_refl)) as (I & NE & R). rewrite (read_header_line h d f k _ I NE).
  destruct (read_value k (w f ++ [nl])) as [v|e]; [|discriminate R]. cbn [bindR] in R |- *. rewrite R. cbn [bindR]. apply IH. intros f' k' I'. apply H. right. exact I'.
Qed.
Lemma set_all_value g : forall l h f, h_value (set_all l g h) f = if in_dec hfield_dec f (map fst l) then g f else h_value h f.
Proof.
  induction l as [|[f' k] l IH]; intros h f; [reflexivity|]. cbn [set_all]. rewrite IH. cbn [map fst].
  destruct (in_dec hfield_dec f (map fst l)) as [I|I].
  - destruct (in_dec hfield_dec f (f' :: map fst l)) as [J|J]; [reflexivity|exfalso; apply J; right; exact I].
  - cbn [set_field h_value]. destruct (hfield_dec f f') as [->|N].
    + destruct (in_dec hfield_dec f' (f' :: map fst l)) as [J|J]; [reflexivity|exfalso; apply J; left; reflexivity].
    + destruct (in_dec hfield_dec f (f' :: map fst l)) as [[J|J]|J]; [exfalso; apply N; symmetry; exact J|exfalso; exact (I J)|reflexivity].
Qed.
Lemma set_all_rest g : forall l h, h_other (set_all l g h) = h_other h /\ h_comps (set_all l g h) = h_comps h.
Proof. induction l as [|[f k] l IH]; intros h; [split; reflexivity|]. cbn [set_all]. destruct (IH (set_field h f (g f))) as [-> ->]. split; reflexivity. Qed.
Lemma all_fields f : In f (map fst header_keys).
Proof. destruct f; cbn; tauto. Qed.
Lemma field_key f : exists k, In (f, k) header_keys.
Proof. pose proof (all_fields f) as H. apply in_map_iff in H. destruct H as ((f' & k) & E & I). cbn in E. subst f'. eauto. Qed.
