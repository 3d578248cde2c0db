From Coq Require Import Qabs Qpower.
From Verif Require Import PyBase PyFacts PyText TextFacts PyNum IsoModel IsoProofs PyFloat PyFloatFacts PySci PySciFacts EdiModel EdiSpec.
Local Open Scope Z_scope.
Open Scope list_scope.

(** ** Words *)
Lemma split_ws_lstrip s : split_ws (lstrip s) = split_ws s.
Proof.
  unfold split_ws. induction s as [|c s IH]; [reflexivity|]. cbn [lstrip]. destruct (is_space c) eqn:E; [|reflexivity].
  rewrite IH. cbn [split_ws_from]. rewrite E. reflexivity.
Qed.
Lemma split_ws_spaces sp : forallb is_space sp = true -> forall cur,
  split_ws_from cur sp = match cur with [] => [] | _ => [rev cur] end.
Proof.
  induction sp as [|c sp IH]; intros H cur; [reflexivity|]. cbn [forallb] in H. apply andb_prop in H as [H1 H2].
  cbn [split_ws_from]. rewrite H1. destruct cur; rewrite (IH H2); reflexivity.
Qed.
Lemma split_ws_trail s sp : forallb is_space sp = true -> forall cur, split_ws_from cur (s ++ sp) = split_ws_from cur s.
Proof.
  intros H. induction s as [|c s IH]; intros cur; [cbn [app]; rewrite (split_ws_spaces sp H); reflexivity|].
  cbn [app split_ws_from]. destruct (is_space c); [destruct cur; rewrite IH; reflexivity|apply IH].
Qed.
Lemma rstrip_decomp s : exists sp, s = rstrip s ++ sp /\ forallb is_space sp = true.
Proof.
  destruct (lstrip_decomp (rev s)) as (sp & E & H). exists (rev sp). split; [|rewrite forallb_rev; exact H].
  unfold rstrip. rewrite <- rev_app_distr, <- E. symmetry. apply rev_involutive.
Qed.
Lemma split_ws_strip s : split_ws (strip s) = split_ws s.
Proof.
  unfold strip. destruct (rstrip_decomp (lstrip s)) as (sp & E & H).
  rewrite <- (split_ws_lstrip s). rewrite E at 2. unfold split_ws. rewrite split_ws_trail by exact H. reflexivity.
Qed.
Lemma strip_incl s c : In c (strip s) -> In c s.
Proof.
  intros I. unfold strip in I. destruct (rstrip_decomp (lstrip s)) as (sp & E & _). destruct (lstrip_decomp s) as (sp' & E' & _).
  rewrite E'. apply in_or_app. right. rewrite E. apply in_or_app. left. exact I.
Qed.
Lemma has_char_strip c s : ~ In c s -> has_char c (strip s) = false.
Proof. intros N. apply has_char_notIn. intros I. apply N. exact (strip_incl s c I). Qed.

Lemma split_ws_word w : forall cur r, forallb (fun c => negb (is_space c)) w = true ->
  split_ws_from cur (w ++ r) = split_ws_from (rev w ++ cur) r.
Proof.
  induction w as [|c w IH]; intros cur r H; [reflexivity|]. cbn [forallb] in H. apply andb_prop in H as [H1 H2].
  apply negb_true_iff in H1. cbn [app split_ws_from rev]. rewrite H1, IH by exact H2. rewrite <- app_assoc. reflexivity.
Qed.
(** A word and what follows it. *)
Lemma split_ws_cons w r : w <> [] -> forallb (fun c => negb (is_space c)) w = true ->
  (r = [] \/ exists c r', r = c :: r' /\ is_space c = true) ->
  split_ws (w ++ r) = w :: split_ws r.
Proof.
  intros N H R. unfold split_ws. rewrite split_ws_word by exact H. rewrite app_nil_r.
  assert (M : rev w <> []) by (intros E; apply N; rewrite <- (rev_involutive w), E; reflexivity).
  destruct (rev w) as [|x l] eqn:E; [contradiction|]. assert (W : rev (x :: l) = w) by (rewrite <- E; apply rev_involutive).
  destruct R as [->|(c & r' & -> & C)]; cbn [split_ws_from]; rewrite ?C, W; reflexivity.
Qed.
Lemma split_ws_lead sp r : forallb is_space sp = true -> split_ws (sp ++ r) = split_ws r.
Proof.
  intros H. induction sp as [|c sp IH]; [reflexivity|]. cbn [forallb] in H. apply andb_prop in H as [H1 H2].
  unfold split_ws in *. cbn [app split_ws_from]. rewrite H1. apply IH, H2.
Qed.

(** ** Numbers *)
Local Notation ten := PySciFacts.ten.
Lemma sci_exp_range q m e : double_range q -> sci 6 q = (m, e) -> -324 <= e <= 309.
Proof.
  intros [Z0|[A B]] E; [|change ((ten (-324) <= Qabs q)%Q) in A; change ((Qabs q < ten 309)%Q) in B].
  - assert (Z1 : sci 6 q = (0, 0)) by (rewrite Z0; reflexivity). rewrite Z1 in E. injection E as <- <-. lia.
  - assert (P : (0 < Qabs q)%Q) by (pose proof (ten_pos (-324)); lra). destruct (sci_exp_spec _ P) as [C D].
    assert (X : -324 <= sci_exp (Qabs q)) by (apply ten_inj; lra).
    assert (Y : sci_exp (Qabs q) <= 308) by (apply ten_inj; change (308 + 1) with 309; lra).
    unfold sci in E. destruct (Qcompare q 0); cbv beta iota zeta in E.
    + injection E as _ <-. lia.
    + destruct (_ =? _); apply pair_equal_spec in E; destruct E; lia.
    + destruct (_ =? _); apply pair_equal_spec in E; destruct E; lia.
Qed.
Lemma exp_text_length e : -324 <= e <= 309 -> (List.length (sci_exp_text e) <= 5)%nat.
Proof.
  intros B. unfold sci_exp_text. rewrite !app_length.
  assert (L2 : List.length (if e <? 0 then txt "-" else txt "+") = 1%nat) by (destruct (e <? 0); reflexivity). rewrite L2.
  change (List.length (txt "e")) with 1%nat.
  destruct (Z.ltb_spec (Z.abs e) 100) as [L|L]; [rewrite pad_length; lia|].
  assert (S3 : (List.length (show_nat (Z.abs e)) <= 3)%nat); [|lia].
  assert (G : forall k, 100 <= k <= 324 -> (List.length (show_nat k) <=? 3)%nat = true).
  { intros k K. assert (F : forallb (fun i => (List.length (show_nat (100 + Z.of_nat i)) <=? 3)%nat) (seq 0 225) = true) by (vm_compute; reflexivity).
    rewrite forallb_forall in F. specialize (F (Z.to_nat (k - 100)) ltac:(apply in_seq; lia)).
    replace (100 + Z.of_nat (Z.to_nat (k - 100))) with k in F by lia. exact F. }
  apply Nat.leb_le. apply G. lia.
Qed.
(** A written number: spaces, at least one, and its text. *)
Lemma number_text_shape q : double_range q -> exists sp, sp <> [] /\ forallb is_space sp = true /\ ~ In newline sp /\
  number_text q = sp ++ show_sci 6 q.
Proof.
  intros D. unfold number_text, rjust, show_sci_sign, show_sci. destruct (sci 6 q) as [m e] eqn:E.
  assert (R : forall n, forallb is_space (repeat " "%char n) = true /\ ~ In newline (repeat " "%char n)).
  { intros n. split; [apply forallb_forall; intros c I; apply repeat_spec in I; subst c; reflexivity|].
    intros I. apply repeat_spec in I. discriminate I. }
  destruct (m <? 0) eqn:M.
  - exists (repeat " "%char (15 - List.length ("-"%char :: sci_body 6 m e))). destruct (R (15 - List.length ("-"%char :: sci_body 6 m e))%nat) as [R1 R2].
    split; [|split; [exact R1|split; [exact R2|reflexivity]]].
    pose proof (exp_text_length e (sci_exp_range q m e D E)) as L.
    assert (LB : (List.length ("-"%char :: sci_body 6 m e) <= 14)%nat).
    { unfold sci_body. cbn [List.length]. rewrite app_length, pad_length. lia. }
    destruct (15 - List.length ("-"%char :: sci_body 6 m e))%nat eqn:Q0; [lia|discriminate].
  - exists (repeat " "%char (15 - List.length (" "%char :: sci_body 6 m e)) ++ [" "%char]). destruct (R (15 - List.length (" "%char :: sci_body 6 m e))%nat) as [R1 R2].
    split; [intros F; apply app_eq_nil in F as [_ F]; discriminate F|]. split; [rewrite forallb_app, R1; reflexivity|].
    split; [intros I; apply in_app_or in I as [I|[I|[]]]; [contradiction|discriminate I]|]. rewrite <- app_assoc. reflexivity.
Qed.
Lemma show_sci_word q : show_sci 6 q <> [] /\ forallb (fun c => negb (is_space c)) (show_sci 6 q) = true.
Proof.
  split.
  - unfold show_sci. destruct (sci 6 q) as [m e]. destruct (m <? 0); discriminate.
  - pose proof (show_sci_chars 6 q) as H. rewrite forallb_forall in *. intros c I. specialize (H c I). apply sci_char_not in H. rewrite (proj1 H). reflexivity.
Qed.
Lemma split_ws_numbers xs : Forall double_range xs -> split_ws (concat (map number_text xs)) = map (show_sci 6) xs.
Proof.
  induction xs as [|x xs IH]; intros F; [reflexivity|]. inversion F as [|? ? D F']; subst. cbn [map concat].
  destruct (number_text_shape x D) as (sp & N & H & _ & ->). rewrite <- app_assoc, (split_ws_lead sp _ H).
  destruct (show_sci_word x) as [W1 W2]. rewrite split_ws_cons; [rewrite IH by exact F'; reflexivity|exact W1|exact W2|].
  destruct xs as [|y xs]; [left; reflexivity|]. right. inversion F' as [|? ? D' _]; subst. cbn [map concat].
  destruct (number_text_shape y D') as (sp' & N' & H' & _ & ->). destruct sp' as [|c sp']; [contradiction|].
  cbn [forallb] in H'. apply andb_prop in H' as [H' _]. exists c. eexists. cbn [app]. split; [reflexivity|exact H'].
Qed.
Lemma number_text_chars q c : double_range q -> In c (number_text q) -> is_space c = true /\ c <> newline \/ sci_char c = true.
Proof.
  intros D I. destruct (number_text_shape q D) as (sp & _ & H & NL & E). rewrite E in I. apply in_app_or in I as [I|I].
  - left. rewrite forallb_forall in H. split; [exact (H c I)|intros ->; contradiction].
  - right. pose proof (show_sci_chars 6 q) as G. rewrite forallb_forall in G. exact (G c I).
Qed.
Lemma numbers_no c xs : Forall double_range xs -> (is_space c = false \/ c = newline) -> sci_char c = false ->
  ~ In c (concat (map number_text xs)).
Proof.
  intros F S0 N I. apply in_concat in I as (l & L & I). apply in_map_iff in L as (x & <- & X). rewrite Forall_forall in F.
  destruct (number_text_chars x c (F x X) I) as [[A B]|A]; [|congruence]. destruct S0; [congruence|contradiction].
Qed.

(** ** Reading line by line *)
Section Reading.
  Variable empty : Q.
  Definition read_text (st : rstate) (s : text) : rstate := fold_left (read_line empty) (file_lines s) st.
  Lemma read_text_line st l r : ~ In newline l -> read_text st (l ++ newline :: r) = read_text (read_line empty st l) r.
  Proof. intros N. unfold read_text, file_lines. rewrite split_on_app by exact N. reflexivity. Qed.
  (** A line of numbers. *)
  Lemma read_numbers key d l xs : Forall double_range xs -> dget text_dec key d = Some l ->
    read_line empty (mkRs true key d) (concat (map number_text xs)) =
    mkRs true key (dset text_dec key (l ++ map (fun x => read_value empty (show_sci 6 x)) xs) d).
  Proof.
    intros F D. unfold read_line. set (s := concat (map number_text xs)).
    assert (G : has_char gt_char (strip s) = false) by (apply has_char_strip, numbers_no; [exact F|left; reflexivity|reflexivity]).
    assert (B : has_char bang (strip s) = false) by (apply has_char_strip, numbers_no; [exact F|left; reflexivity|reflexivity]).
    cbv zeta. rewrite G, B. cbn [rs_find negb andb rs_key rs_dict]. rewrite D. rewrite !split_ws_strip. unfold s.
    rewrite split_ws_numbers by exact F. rewrite map_map. reflexivity.
  Qed.
  Lemma dset_same (key : text) (d : blocks) l : dget text_dec key d = Some l -> dset text_dec key l d = d.
  Proof.
    induction d as [|[k v] d IH]; cbn [dget dset]; intros E; [discriminate|]. destruct (text_dec key k); [congruence|]. rewrite (IH E). reflexivity.
  Qed.
  Lemma dset_twice (key : text) (d : blocks) l m : dset text_dec key l (dset text_dec key m d) = dset text_dec key l d.
  Proof.
    induction d as [|[k v] d IH]; cbn [dset]; [destruct (text_dec key key); [reflexivity|congruence]|].
    destruct (text_dec key k) as [->|N]; cbn [dset]; [destruct (text_dec k k); [reflexivity|congruence]|].
    destruct (text_dec key k); [contradiction|]. rewrite IH. reflexivity.
  Qed.
  Lemma read_nothing key d l : dget text_dec key d = Some l -> read_line empty (mkRs true key d) [] = mkRs true key d.
  Proof.
    intros D. pose proof (read_numbers key d l [] ltac:(constructor) D) as H. cbn [map concat] in H. rewrite H.
    rewrite app_nil_r, dset_same by exact D. reflexivity.
  Qed.

  (** What is printed for a value of a block. *)
  Definition is_rot (key : text) : bool := existsb (text_eqb (lower key)) [txt "zrot"; txt "trot"].
  Definition shown (key : text) (x : Q) : Q := if (Qeq_bool x 0 && negb (is_rot key))%bool then empty else x.
  Definition got (key : text) (x : Q) : pynum := read_value empty (show_sci 6 (shown key x)).

  Lemma numbers_read wkey key : forall r i size xs d l rest, Forall double_range xs -> Forall double_range (map (shown wkey) r) ->
    r <> [] -> (i + List.length r = S size)%nat -> dget text_dec key d = Some l ->
    read_text (mkRs true key d) (concat (map number_text xs) ++ block_numbers empty wkey size i r ++ rest) =
    read_text (mkRs true key (dset text_dec key (l ++ map (fun x => read_value empty (show_sci 6 x)) xs ++ map (got wkey) r) d)) rest.
  Proof.
    assert (NL : forall xs, Forall double_range xs -> ~ In newline (concat (map number_text xs))).
    { intros xs F. apply numbers_no; [exact F|right; reflexivity|reflexivity]. }
    assert (SN : forall xs x, concat (map number_text xs) ++ number_text x = concat (map number_text (xs ++ [x]))).
    { intros xs x. rewrite map_app, concat_app. cbn [map concat]. rewrite app_nil_r. reflexivity. }
    induction r as [|x r IH]; intros i size xs d l rest F G NE L D; [contradiction (NE eq_refl)|].
    inversion G as [|? ? Gx G']; subst. cbn [block_numbers]. fold (is_rot wkey). cbv zeta.
    change (if (Qeq_bool x 0 && negb (is_rot wkey))%bool then empty else x) with (shown wkey x).
    assert (F' : Forall double_range (xs ++ [shown wkey x])) by (apply Forall_app; split; [exact F|constructor; [exact Gx|constructor]]).
    pose proof (NL _ F') as N'.
    assert (V : map (fun x => read_value empty (show_sci 6 x)) (xs ++ [shown wkey x]) = map (fun x => read_value empty (show_sci 6 x)) xs ++ [got wkey x]).
    { rewrite map_app. reflexivity. }
    destruct r as [|y r].
    - assert (E : Nat.eqb i size = true) by (apply Nat.eqb_eq; cbn [List.length] in L; lia). rewrite E.
      cbn [block_numbers]. rewrite app_nil_r. rewrite !app_assoc. rewrite SN. rewrite <- !app_assoc.
      destruct (Nat.eqb (Nat.modulo i block_len) 0).
      + cbn [app]. rewrite read_text_line by exact N'. rewrite (read_numbers key d l _ F' D), V.
        change (newline :: rest) with ([] ++ newline :: rest). rewrite read_text_line by (intros []).
        rewrite (read_nothing key _ (l ++ map (fun x => read_value empty (show_sci 6 x)) xs ++ [got wkey x])) by apply dget_dset_eq.
        reflexivity.
      + cbn [app]. rewrite read_text_line by exact N'. rewrite (read_numbers key d l _ F' D), V. reflexivity.
    - assert (E : Nat.eqb i size = false) by (apply Nat.eqb_neq; cbn [List.length] in L; lia). rewrite E. cbn [app].
      destruct (Nat.eqb (Nat.modulo i block_len) 0).
      + rewrite !app_assoc. rewrite SN. rewrite <- !app_assoc. cbn [app]. rewrite read_text_line by exact N'.
        rewrite (read_numbers key d l _ F' D), V.
        pose proof (IH (S i) size [] (dset text_dec key (l ++ map (fun x => read_value empty (show_sci 6 x)) xs ++ [got wkey x]) d)
                      (l ++ map (fun x => read_value empty (show_sci 6 x)) xs ++ [got wkey x]) rest ltac:(constructor) G' ltac:(discriminate)
                      ltac:(cbn [List.length] in L |- *; lia) (dget_dset_eq _ _ _ _)) as IH'.
        cbn [map concat app] in IH' |- *. rewrite IH'. rewrite dset_twice. do 3 f_equal. rewrite <- !app_assoc. reflexivity.
      + cbn [app]. rewrite !app_assoc. rewrite SN. rewrite <- !app_assoc.
        rewrite (IH (S i) size (xs ++ [shown wkey x]) d l rest F' G' ltac:(discriminate) ltac:(cbn [List.length] in L |- *; lia) D).
        rewrite V. cbn [map]. do 3 f_equal. rewrite <- !app_assoc. reflexivity.
  Qed.
End Reading.

(** ** Blocks *)
Definition written_keys : list text :=
  txt "freq" :: txt "zrot" :: txt "trot" ::
  flat_map (fun c => [zkey c ++ txt "r"; zkey c ++ txt "i"; zkey c ++ txt ".var"]) zcs ++
  flat_map (fun c => [tkey c ++ txt "r.exp"; tkey c ++ txt "i.exp"; tkey c ++ txt "var.exp"]) tcs.
Definition plain_char (c : ascii) : bool :=
  negb (Ascii.eqb c newline) && negb (Ascii.eqb c gt_char) && negb (Ascii.eqb c bang).
Definition key_check (key : text) : bool :=
  (negb (Nat.eqb (List.length key) 0) && forallb (fun c => negb (is_space c) && plain_char c) (upper key) &&
   text_eqb (lower (upper key)) key && existsb (text_eqb key) accepted_keys)%bool.
Lemma written_keys_ok : forallb key_check written_keys = true.
Proof. vm_compute. reflexivity. Qed.
Lemma header_of key : In key written_keys -> exists mid, forallb plain_char mid = true /\ (exists mid', mid = " "%char :: mid') /\
  forall n, block_header key n = Ok (gt_char :: upper key ++ mid ++ show_nat (Z.of_nat n) ++ [newline]).
Proof.
  intros I. unfold written_keys in I. cbn [flat_map zcs tcs app zkey tkey] in I.
  assert (E1 : exists mid', txt " ROT=ZROT // " = " "%char :: mid') by (eexists; reflexivity).
  assert (E2 : exists mid', txt " ROT=TROT // " = " "%char :: mid') by (eexists; reflexivity).
  assert (E3 : exists mid', txt " // " = " "%char :: mid') by (eexists; reflexivity).
  repeat (destruct I as [<-|I];
    [first [exists (txt " ROT=ZROT // "); split; [reflexivity|split; [exact E1|intros n; reflexivity]]
           |exists (txt " ROT=TROT // "); split; [reflexivity|split; [exact E2|intros n; reflexivity]]
           |exists (txt " // "); split; [reflexivity|split; [exact E3|intros n; reflexivity]]]|]).
  destruct I.
Qed.
Lemma plain_not c s : forallb plain_char s = true -> plain_char c = false -> ~ In c s.
Proof. intros H N I. rewrite forallb_forall in H. specialize (H c I). congruence. Qed.
Lemma digits_plain s : forallb is_digit s = true -> forallb plain_char s = true.
Proof.
  intros H. rewrite forallb_forall in *. intros c I. specialize (H c I).
  assert (G : implb (is_digit c) (plain_char c) = true) by (clear; revert c; apply ascii_forall; vm_compute; reflexivity).
  rewrite H in G. exact G.
Qed.
Section Blocks.
  Variable empty : Q.
  Lemma read_header key st n : In key written_keys -> exists h, block_header key n = Ok (h ++ [newline]) /\ ~ In newline h /\
    read_line empty st h = mkRs true key (dset text_dec key [] (rs_dict st)).
  Proof.
    intros I. pose proof written_keys_ok as W. rewrite forallb_forall in W. specialize (W key I). unfold key_check in W.
    apply andb_prop in W as [W W4]. apply andb_prop in W as [W W3]. apply andb_prop in W as [W1 W2].
    apply text_eqb_eq in W3. apply negb_true_iff, Nat.eqb_neq in W1.
    destruct (header_of key I) as (mid & M & (mid' & E) & H).
    set (size := show_nat (Z.of_nat n)). assert (SD : forallb is_digit size = true) by (apply show_nat_digits; lia).
    assert (SN : size <> []) by (apply show_nat_nonempty; lia).
    assert (K : forallb (fun c => negb (is_space c)) (upper key) = true /\ forallb plain_char (upper key) = true).
    { rewrite !forallb_forall in *. split; intros c Ic; specialize (W2 c Ic); apply andb_prop in W2; tauto. }
    destruct K as [K1 K2]. assert (U : upper key <> []) by (intros F; apply W1; unfold upper in F; apply map_eq_nil in F; subst key; reflexivity).
    set (body := upper key ++ mid ++ size).
    assert (PB : forallb plain_char body = true) by (unfold body; rewrite !forallb_app, K2, M, (digits_plain _ SD); reflexivity).
    exists (gt_char :: body). split; [|split].
    - rewrite H. unfold body. cbn [app]. rewrite <- !app_assoc. reflexivity.
    - intros [F|F]; [discriminate F|]. exact (plain_not newline _ PB eq_refl F).
    - unfold read_line.
      assert (LS : forall s, s <> [] -> (exists c r, s = c :: r /\ is_space c = false) -> (exists r c, s = r ++ [c] /\ is_space c = false) -> strip s = s).
      { intros s N (c & r & E1 & C1) (r' & c' & E2 & C2). unfold strip. rewrite lstrip_fixed by (intros x y X; rewrite X in E1; injection E1 as -> _; exact C1).
        rewrite E2 at 1. rewrite rstrip_snoc by exact C2. symmetry. exact E2. }
      destruct (exists_last SN) as (s' & cl & ES).
      assert (CL : is_space cl = false).
      { rewrite forallb_forall in SD. specialize (SD cl ltac:(rewrite ES; apply in_or_app; right; left; reflexivity)). apply digit_not in SD. apply SD. }
      assert (S1 : strip (gt_char :: body) = gt_char :: body).
      { apply LS; [discriminate|exists gt_char, body; split; reflexivity|]. exists (gt_char :: upper key ++ mid ++ s'), cl. split; [|exact CL].
        unfold body. rewrite ES. cbn [app]. rewrite <- !app_assoc. reflexivity. }
      rewrite S1. cbn [tl]. cbv zeta.
      assert (HG : has_char gt_char (gt_char :: body) = true) by reflexivity.
      assert (HB : has_char bang (gt_char :: body) = false).
      { apply has_char_notIn. intros [F|F]; [discriminate F|]. exact (plain_not bang _ PB eq_refl F). }
      rewrite HG, HB. cbn [negb andb]. rewrite split_ws_strip. unfold body. rewrite split_ws_cons; [|exact U|exact K1|].
      2: { right. rewrite E. exists " "%char. eexists. split; reflexivity. }
      rewrite W3, W4. reflexivity.
  Qed.
  (** A whole block. *)
  Lemma read_block key l rest st b : In key written_keys -> Forall double_range (map (shown empty key) l) ->
    dget text_dec key (rs_dict st) = None -> write_data_block empty l key = Ok b ->
    read_text empty st (b ++ rest) = read_text empty (mkRs true key (rs_dict st ++ [(key, map (got empty key) l)])) rest.
  Proof.
    intros I F D W. unfold write_data_block in W. destruct (read_header key st (List.length l) I) as (h & H & N & R).
    rewrite H in W. cbn [bindR] in W. assert (E : b = (h ++ [newline]) ++ block_numbers empty key (List.length l) 1 l) by congruence.
    rewrite E. rewrite <- !app_assoc. cbn [app]. rewrite read_text_line by exact N. rewrite R.
    assert (DS : forall v, dset text_dec key v (rs_dict st) = rs_dict st ++ [(key, v)]).
    { intros v. revert D. generalize (rs_dict st). clear. intros d. induction d as [|[k w] d IH]; cbn [dget dset app]; intros D; [reflexivity|].
      destruct (text_dec key k); [discriminate|]. rewrite (IH D). reflexivity. }
    destruct l as [|x l].
    - cbn [block_numbers app map]. rewrite DS. reflexivity.
    - pose proof (numbers_read empty key key (x :: l) 1 (List.length (x :: l)) [] (dset text_dec key [] (rs_dict st)) [] rest
        ltac:(constructor) F ltac:(discriminate) eq_refl (dget_dset_eq _ _ _ _)) as G.
      cbn [map concat app] in G. rewrite G. rewrite dset_twice. cbn [map app]. rewrite DS. reflexivity.
  Qed.
  (** Blocks one after the other. *)
  Lemma read_blocks_seq : forall bs rest st ts, (forall k l, In (k, l) bs -> In k written_keys /\ Forall double_range (map (shown empty k) l)) ->
    NoDup (map fst bs) -> (forall k, In k (map fst bs) -> dget text_dec k (rs_dict st) = None) ->
    mapR (fun b => write_data_block empty (snd b) (fst b)) bs = Ok ts ->
    exists st', rs_dict st' = rs_dict st ++ map (fun b => (fst b, map (got empty (fst b)) (snd b))) bs /\
      read_text empty st (concat ts ++ rest) = read_text empty st' rest.
  Proof.
    induction bs as [|[k l] bs IH]; intros rest st ts G ND D M.
    - cbn [mapR] in M. injection M as <-. exists st. cbn [map concat app]. rewrite app_nil_r. split; reflexivity.
    - cbn [mapR fst snd] in M. destruct (write_data_block empty l k) as [b|] eqn:B; [|discriminate M]. cbn [bindR] in M.
      destruct (mapR _ bs) as [ts'|] eqn:M'; [|discriminate M]. cbn [bindR] in M. assert (Ets : ts = b :: ts') by congruence. subst ts.
      cbn [map fst] in ND. inversion ND as [|? ? N0 ND']; subst.
      destruct (G k l (or_introl eq_refl)) as [Ik Fk].
      cbn [concat]. rewrite <- app_assoc. rewrite (read_block k l _ st b Ik Fk (D k (or_introl eq_refl)) B).
      destruct (IH rest (mkRs true k (rs_dict st ++ [(k, map (got empty k) l)])) ts') as (st' & E1 & E2); [..|reflexivity|].
      + intros k' l' I'. apply G. right. exact I'.
      + exact ND'.
      + intros k' I'. cbn [rs_dict]. specialize (D k' (or_intror I')). assert (NE : k' <> k) by (intros ->; contradiction).
        revert D. generalize (rs_dict st). clear - NE. intros d. induction d as [|[q w] d IHd]; cbn [dget app]; intros D.
        * destruct (text_dec k' k); [contradiction|reflexivity].
        * destruct (text_dec k' q); [discriminate|exact (IHd D)].
      + exists st'. split; [rewrite E1; cbn [rs_dict map fst snd]; rewrite <- app_assoc; reflexivity|exact E2].
  Qed.
  (** The headline of a section. *)
  Lemma read_comment t rest st : forallb plain_char t = true -> read_text empty st (data_header t ++ rest) = read_text empty st rest.
  Proof.
    intros P. unfold data_header.
    replace ((txt ">!****" ++ t ++ txt "****!" ++ [newline]) ++ rest) with ((txt ">!****" ++ t ++ txt "****!") ++ newline :: rest)
      by (rewrite <- !app_assoc; reflexivity).
    rewrite read_text_line.
    2: { intros I. apply in_app_or in I as [I|I]; [cbn in I; repeat (destruct I as [I|I]; [discriminate I|]); destruct I|].
         apply in_app_or in I as [I|I]; [exact (plain_not newline _ P eq_refl I)|]. cbn in I. repeat (destruct I as [I|I]; [discriminate I|]). destruct I. }
    f_equal. unfold read_line.
    assert (S1 : exists u, strip (txt ">!****" ++ t ++ txt "****!") = gt_char :: bang :: u).
    { unfold strip. rewrite lstrip_fixed by (intros c r E; injection E as <- _; reflexivity).
      replace (txt ">!****" ++ t ++ txt "****!") with ((txt ">!****" ++ t ++ txt "****") ++ [bang]) by (rewrite <- !app_assoc; reflexivity).
      rewrite rstrip_snoc by reflexivity. eexists. reflexivity. }
    destruct S1 as [u ->]. cbv zeta.
    assert (HG : has_char gt_char (gt_char :: bang :: u) = true) by reflexivity.
    assert (HB : has_char bang (gt_char :: bang :: u) = true) by reflexivity. rewrite HG, HB. cbn [negb andb]. rewrite andb_false_r. reflexivity.
  Qed.
  Lemma read_sections : forall ss rest st ts,
    (forall t bs, In (t, bs) ss -> forallb plain_char t = true /\ forall k l, In (k, l) bs -> In k written_keys /\ Forall double_range (map (shown empty k) l)) ->
    NoDup (map fst (concat (map snd ss))) -> (forall k, In k (map fst (concat (map snd ss))) -> dget text_dec k (rs_dict st) = None) ->
    mapR (write_section empty) ss = Ok ts ->
    exists st', rs_dict st' = rs_dict st ++ map (fun b => (fst b, map (got empty (fst b)) (snd b))) (concat (map snd ss)) /\
      read_text empty st (concat ts ++ rest) = read_text empty st' rest.
  Proof.
    induction ss as [|[t bs] ss IH]; intros rest st ts G ND D M.
    - cbn [mapR] in M. injection M as <-. exists st. cbn [map concat app]. rewrite app_nil_r. split; reflexivity.
    - cbn [mapR] in M. unfold write_section at 1 in M. cbn [fst snd] in M.
      destruct (mapR (fun b => write_data_block empty (snd b) (fst b)) bs) as [us|] eqn:B; [|discriminate M]. cbn [bindR] in M.
      destruct (mapR (write_section empty) ss) as [ts'|] eqn:M'; [|discriminate M]. cbn [bindR] in M.
      assert (Ets : ts = (data_header t ++ concat us) :: ts') by (injection M as M; symmetry; exact M). subst ts.
      destruct (G t bs (or_introl eq_refl)) as [Pt Gb]. cbn [concat map snd] in ND, D |- *. rewrite map_app in ND, D.
      assert (ND1 : NoDup (map fst bs) /\ NoDup (map fst (concat (map snd ss))) /\ forall k, In k (map fst bs) -> ~ In k (map fst (concat (map snd ss)))).
      { clear - ND. induction (map fst bs) as [|a A IHA]; cbn [app] in ND; [repeat split; [constructor|exact ND|intros k []]|].
        inversion ND as [|? ? N0 ND']; subst. destruct (IHA ND') as (X & Y & Z0). repeat split.
        - constructor; [intros F; apply N0, in_or_app; left; exact F|exact X].
        - exact Y.
        - intros k [->|I]; [intros F; apply N0, in_or_app; right; exact F|exact (Z0 k I)]. }
      destruct ND1 as (ND1 & ND2 & DJ).
      rewrite <- !app_assoc. rewrite read_comment by exact Pt.
      destruct (read_blocks_seq bs (concat ts' ++ rest) st us Gb ND1 (fun k I => D k (in_or_app _ _ _ (or_introl I))) B) as (st1 & E1 & R1).
      rewrite R1. destruct (IH rest st1 ts') as (st2 & E2 & R2); [..|reflexivity|].
      + intros t' bs' I. apply G. right. exact I.
      + exact ND2.
      + intros k I. rewrite E1. pose proof (D k (in_or_app _ _ _ (or_intror I))) as Dk.
        assert (NK : ~ In k (map fst bs)) by (intros F; exact (DJ k F I)).
        revert Dk. generalize (rs_dict st). clear - NK. intros d. induction d as [|[q w] d IHd]; cbn [dget app]; intros Dk.
        * induction bs as [|[a b] bs IHb]; [reflexivity|]. cbn [map dget fst snd] in *. destruct (text_dec k a) as [->|]; [exfalso; apply NK; left; reflexivity|].
          apply IHb. intros F. apply NK. right. exact F.
        * destruct (text_dec k q); [discriminate|exact (IHd Dk)].
      + exists st2. split; [rewrite E2, E1, map_app, <- app_assoc; reflexivity|exact R2].
  Qed.
End Blocks.
