(** C108: metadata to and from JSON. *)
From Verif Require Import PyBase PyText PyFacts TextFacts PyJson PyJsonFacts JsonModel.
Local Open Scope nat_scope.

(** ** What is meant *)
(** The JSON value a dictionary stands for: numpy numbers are numbers, arrays lists, urls, paths and references texts, complex arrays two lists. *)
Inductive stands_for : pyval -> json -> Prop :=
| sf_none : stands_for VNone JNull
| sf_bool b : stands_for (VBool b) (JBool b)
| sf_int z : stands_for (VInt z) (JInt z)
| sf_float r : stands_for (VFloat r) (JFloat r)
| sf_str s : stands_for (VStr s) (JStr s)
| sf_list l l' : list_stands l l' -> stands_for (VList l) (JArr l')
| sf_dict l l' : dict_stands l l' -> stands_for (VDict l) (JObj l')
| sf_npint z : stands_for (VNpInt z) (JInt z)
| sf_npfloat r : stands_for (VNpFloat r) (JFloat r)
| sf_array l : stands_for (VArray l) (JArr l)
| sf_carray re im : stands_for (VComplexArray re im) (JObj [(txt "real", JArr re); (txt "imag", JArr im)])
| sf_h5 s : stands_for (VH5 s) (JStr s)
| sf_url s : stands_for (VUrl s) (JStr s)
| sf_path s : stands_for (VPath s) (JStr s)
with list_stands : list pyval -> list json -> Prop :=
| ls_nil : list_stands [] []
| ls_cons v l j l' : stands_for v j -> list_stands l l' -> list_stands (v :: l) (j :: l')
with dict_stands : list (text * pyval) -> list (text * json) -> Prop :=
| ds_nil : dict_stands [] []
| ds_cons k v l j l' : stands_for v j -> dict_stands l l' -> dict_stands ((k, v) :: l) ((k, j) :: l').
Scheme stands_mut := Induction for stands_for Sort Prop with list_mut := Induction for list_stands Sort Prop with dict_mut := Induction for dict_stands Sort Prop.
(** A value with a numpy bool or a complex number somewhere in it *)
Inductive has_no_json : pyval -> Prop :=
| nj_bool b : has_no_json (VNpBool b)
| nj_complex : has_no_json VComplex
| nj_list l v : In v l -> has_no_json v -> has_no_json (VList l)
| nj_dict l k v : In (k, v) l -> has_no_json v -> has_no_json (VDict l).

(** ** Encoding *)
Fixpoint encode_list (l : list pyval) : result (list json) := match l with [] => Ok [] | x :: r => bindR (encode x) (fun y => bindR (encode_list r) (fun ys => Ok (y :: ys))) end.
Fixpoint encode_dict (l : list (text * pyval)) : result (list (text * json)) := match l with [] => Ok [] | (k, x) :: r => bindR (encode x) (fun y => bindR (encode_dict r) (fun ys => Ok ((k, y) :: ys))) end.
Lemma encode_VList l : encode (VList l) = bindR (encode_list l) (fun l' => Ok (JArr l')).
Proof. reflexivity. Qed.
Lemma encode_VDict l : encode (VDict l) = bindR (encode_dict l) (fun l' => Ok (JObj l')).
Proof. reflexivity. Qed.
Lemma encode_stands v j : stands_for v j -> encode v = Ok j.
Proof.
  intro S. induction S using stands_mut with (P0 := fun l l' _ => encode_list l = Ok l') (P1 := fun l l' _ => encode_dict l = Ok l'); try reflexivity.
  - rewrite encode_VList, IHS. reflexivity.
  - rewrite encode_VDict, IHS. reflexivity.
  - cbn [encode_list]. rewrite IHS. cbn [bindR]. rewrite IHS0. reflexivity.
  - cbn [encode_dict]. rewrite IHS. cbn [bindR]. rewrite IHS0. reflexivity.
Qed.
Section Ind.
Variable P : pyval -> Prop.
Hypothesis H0 : forall v, (forall l, v <> VList l) -> (forall l, v <> VDict l) -> P v.
Hypothesis H1 : forall l, Forall P l -> P (VList l).
Hypothesis H2 : forall l, Forall (fun kv => P (snd kv)) l -> P (VDict l).
Fixpoint pyval_ind' (v : pyval) : P v.
Proof.
  destruct v as [|b|z|r|s|l|l|z|r|b| |l|re im|s|s|s]; try (apply H0; intros; discriminate).
  - apply H1. exact ((fix go l := match l return Forall P l with [] => Forall_nil _ | x :: r => Forall_cons _ (pyval_ind' x) (go r) end) l).
  - apply H2. exact ((fix go l := match l return Forall (fun kv => P (snd kv)) l with [] => Forall_nil _ | x :: r => Forall_cons _ (pyval_ind' (snd x)) (go r) end) l).
Defined.
End Ind.
Lemma encode_cases v : (exists j, stands_for v j) \/ (encode v = Err TypeError /\ has_no_json v).
Proof.
  induction v as [v NL ND|l IH|l IH] using pyval_ind'.
  - destruct v as [|b|z|r|s|l|l|z|r|b| |l|re im|s|s|s].
    + left. eexists. apply sf_none.
    + left. eexists. apply sf_bool.
    + left. eexists. apply sf_int.
    + left. eexists. apply sf_float.
    + left. eexists. apply sf_str.
    + destruct (NL l eq_refl).
    + destruct (ND l eq_refl).
    + left. eexists. apply sf_npint.
    + left. eexists. apply sf_npfloat.
    + right. split; [reflexivity|apply nj_bool].
    + right. split; [reflexivity|apply nj_complex].
    + left. eexists. apply sf_array.
    + left. eexists. apply sf_carray.
    + left. eexists. apply sf_h5.
    + left. eexists. apply sf_url.
    + left. eexists. apply sf_path.
  - assert (C : (exists l', list_stands l l') \/ (encode_list l = Err TypeError /\ exists v, In v l /\ has_no_json v)).
    { induction IH as [|v l H F IHl]; [left; exists []; constructor|]. destruct H as [(j & S)|[E N]].
      - destruct IHl as [(l' & S')|[E (w & I & N)]]; [left; exists (j :: l'); constructor; assumption|]. right. cbn [encode_list]. rewrite (encode_stands _ _ S). cbn [bindR]. rewrite E. split; [reflexivity|]. exists w. split; [right; exact I|exact N].
      - right. cbn [encode_list]. rewrite E. split; [reflexivity|]. exists v. split; [left; reflexivity|exact N]. }
    destruct C as [(l' & S)|[E (w & I & N)]]; [left; exists (JArr l'); constructor; exact S|right]. rewrite encode_VList, E. split; [reflexivity|eapply nj_list; eassumption].
  - assert (C : (exists l', dict_stands l l') \/ (encode_dict l = Err TypeError /\ exists k v, In (k, v) l /\ has_no_json v)).
    { induction IH as [|[k v] l H F IHl]; [left; exists []; constructor|]. cbn [snd] in H. destruct H as [(j & S)|[E N]].
      - destruct IHl as [(l' & S')|[E (k' & w & I & N)]]; [left; exists ((k, j) :: l'); constructor; assumption|]. right. cbn [encode_dict]. rewrite (encode_stands _ _ S). cbn [bindR]. rewrite E. split; [reflexivity|]. exists k', w. split; [right; exact I|exact N].
      - right. cbn [encode_dict]. rewrite E. split; [reflexivity|]. exists k, v. split; [left; reflexivity|exact N]. }
    destruct C as [(l' & S)|[E (k & w & I & N)]]; [left; exists (JObj l'); constructor; exact S|right]. rewrite encode_VDict, E. split; [reflexivity|eapply nj_dict; eassumption].
Qed.
Lemma stands_unique v j j' : stands_for v j -> stands_for v j' -> j = j'.
Proof. intros A B. apply encode_stands in A, B. congruence. Qed.
Lemma no_json_stands v : has_no_json v -> forall j, ~ stands_for v j.
Proof.
  intro N. induction N as [b| |l v I N IH|l k v I N IH]; intros j S; inversion S; subst.
  - clear S. match goal with H : list_stands _ _ |- _ => rename H into L end. revert I. induction L as [|w l j l' S L IHl]; intro I; [destruct I|]. destruct I as [<- |I]; [exact (IH _ S)|exact (IHl I)].
  - clear S. match goal with H : dict_stands _ _ |- _ => rename H into L end. revert I. induction L as [|k' w l j l' S L IHl]; intro I; [destruct I|]. destruct I as [I|I]; [injection I as -> ->; exact (IH _ S)|exact (IHl I)].
Qed.

(** ** C108 *)
(** Writing succeeds exactly for dictionaries that stand for a JSON value; what is written is the text of that value. *)
Theorem C108_writes : forall indent d t, to_json indent d = Ok t <-> exists j, stands_for d j /\ t = dumps true indent j.
Proof.
  intros indent d t. unfold to_json. destruct (encode_cases d) as [(j & S)|[E N]].
  - rewrite (encode_stands _ _ S). cbn [bindR]. split.
    + intro H. injection H as <-. eauto.
    + intros (j' & S' & ->). rewrite (stands_unique _ _ _ S S'). reflexivity.
  - rewrite E. cbn [bindR]. split; [discriminate|]. intros (j & S & _). destruct (no_json_stands _ N _ S).
Qed.
(** What to_json writes is read back by from_json as the dictionary it stands for, whatever the indent of blanks: as a text, if no file has that
    text for a name, and from a file at a path. *)
Theorem C108_round_trip : forall (obj : Type) files from_dict indent d j t, forallb ws indent = true -> stands_for d j -> good j -> to_json indent d = Ok t ->
  (forall f, files t <> File f) -> from_json obj files from_dict (Str t) = from_dict j.
Proof.
  intros obj files from_dict indent d j t W S G T F. unfold to_json in T. rewrite (encode_stands _ _ S) in T. injection T as <-. cbn [from_json].
  destruct (files (dumps true indent j)) eqn:E; [| |destruct (F _ eq_refl)]; rewrite (loads_dumps true indent j W G); reflexivity.
Qed.
Theorem C108_file_round_trip : forall (obj : Type) files from_dict indent d j t p, forallb ws indent = true -> stands_for d j -> good j -> to_json indent d = Ok t ->
  files p = File t -> from_json obj files from_dict (Path p) = from_dict j.
Proof.
  intros obj files from_dict indent d j t p W S G T F. unfold to_json in T. rewrite (encode_stands _ _ S) in T. injection T as <-. cbn [from_json]. rewrite F, (loads_dumps true indent j W G). reflexivity.
Qed.
(** The text has only printable ASCII characters and newlines, given an indent of blanks. *)
Definition printable (c : ascii) : bool := (Ascii.eqb c nl_char || (N.leb 32 (N_of_ascii c) && N.leb (N_of_ascii c) 126))%bool.
Lemma escape_printable c : forallb printable (escape true c) = true.
Proof. revert c. apply ascii_forall. vm_compute. reflexivity. Qed.
Lemma show_string_printable s : forallb printable (show_string true s) = true.
Proof.
  unfold show_string. cbn [forallb]. rewrite forallb_app. cbn [forallb]. change (printable quote) with true. cbn [andb]. rewrite andb_true_r.
  induction s as [|c s IH]; [reflexivity|]. cbn [flat_map]. rewrite forallb_app, escape_printable, IH. reflexivity.
Qed.
Lemma join_printable sep l : forallb printable sep = true -> Forall (fun s => forallb printable s = true) l -> forallb printable (join sep l) = true.
Proof.
  intros S F. induction F as [|x l H F IH]; [reflexivity|]. destruct l as [|y l]; [exact H|]. change (join sep (x :: y :: l)) with (x ++ sep ++ join sep (y :: l)). rewrite !forallb_app, H, S, IH. reflexivity.
Qed.
Lemma newline_printable ind k : forallb printable ind = true -> forallb printable (newline ind k) = true.
Proof. intro H. unfold newline. cbn [forallb]. change (printable nl_char) with true. cbn [andb]. induction k as [|k IH]; [reflexivity|]. cbn [repeat concat]. rewrite forallb_app, H, IH. reflexivity. Qed.
Lemma block_printable ind k op cl l : printable op = true -> printable cl = true -> forallb printable ind = true -> Forall (fun s => forallb printable s = true) l -> forallb printable (block ind k op cl l) = true.
Proof.
  intros O C I F. destruct l as [|x l]; [cbn [block forallb]; rewrite O, C; reflexivity|]. unfold block. cbn [forallb]. rewrite !forallb_app, O, !newline_printable by exact I.
  rewrite join_printable; [cbn [forallb]; rewrite C; reflexivity| |exact F]. cbn [forallb]. change (printable ",") with true. exact (newline_printable ind (S k) I).
Qed.
Lemma number_printable s : forallb number_char s = true -> forallb printable s = true.
Proof.
  intro H. rewrite forallb_forall in *. intros c I. specialize (H _ I).
  assert (G : implb (number_char c) (printable c) = true) by (clear; revert c; apply ascii_forall; vm_compute; reflexivity). rewrite H in G. exact G.
Qed.
Theorem C108_ascii : forall indent j, forallb printable indent = true -> good j -> forallb printable (dumps true indent j) = true.
Proof.
  intros indent j I. unfold dumps. generalize 0. induction j as [|b|z|r|s|l IH|l IH] using json_ind'; intros k G; cbn [dumps_at].
  - reflexivity.
  - destruct b; reflexivity.
  - apply number_printable, int_number_chars.
  - destruct G as [G|[_ G]]; [|apply number_printable, G]. cbn in G. repeat (destruct G as [<- |G]; [reflexivity|]). destruct G.
  - apply show_string_printable.
  - apply good_arr in G. apply block_printable; try reflexivity; [exact I|]. rewrite Forall_map. rewrite Forall_forall in *. intros x X. exact (IH _ X _ (G _ X)).
  - apply good_obj in G as [_ G]. apply block_printable; try reflexivity; [exact I|]. rewrite Forall_map. rewrite Forall_forall in *. intros x X. rewrite !forallb_app, show_string_printable, (IH _ X _ (G _ X)). reflexivity.
Qed.
(** The text of a path in place of JSON never works: the file is read and then the path itself is taken for JSON.  Here for every path that begins
    with a slash. *)
Theorem C108_str_path_refuted : forall (obj : Type) files from_dict p, exists e, from_json obj files from_dict (Str ("/"%char :: p)) = Err e.
Proof.
  intros obj files from_dict p. assert (L : loads ("/"%char :: p) = Err ValueError).
  { unfold loads. rewrite skip_fixed by reflexivity. cbn [read_value List.length]. reflexivity. }
  cbn [from_json]. destruct (files ("/"%char :: p)) as [| |t].
  - rewrite L. exists ValueError. reflexivity.
  - rewrite L. exists ValueError. reflexivity.
  - destruct (loads t) as [v|e]; [|exists e; reflexivity]. cbn [bindR]. rewrite L. exists ValueError. reflexivity.
Qed.
(** A path where there is no file: not an error that says so. *)
Theorem C108_missing_file_refuted : forall (obj : Type) files from_dict p, files p = NoFile -> from_json obj files from_dict (Path p) = Err UnboundLocalError.
Proof. intros obj files from_dict p E. cbn [from_json]. rewrite E. reflexivity. Qed.
(** A numpy bool, or a complex number, anywhere in the dictionary: nothing is written. *)
Theorem C108_numpy_bool_refuted : forall indent d, has_no_json d -> to_json indent d = Err TypeError.
Proof. intros indent d N. unfold to_json. destruct (encode_cases d) as [(j & S)|[E _]]; [destruct (no_json_stands _ N _ S)|rewrite E; reflexivity]. Qed.

Definition ex_dict : pyval := VDict [(txt "run", VDict [(txt "id", VStr (txt "a\n""b")); (txt "n", VNpInt (-12)); (txt "rate", VFloat (txt "0.125")); (txt "z", VComplexArray [JInt 1] [JFloat (txt "-2.5e-07")]); (txt "list", VList []); (txt "none", VNone)])].
Definition ex_json : json := JObj [(txt "run", JObj [(txt "id", JStr (txt "a\n""b")); (txt "n", JInt (-12)); (txt "rate", JFloat (txt "0.125")); (txt "z", JObj [(txt "real", JArr [JInt 1]); (txt "imag", JArr [JFloat (txt "-2.5e-07")])]); (txt "list", JArr []); (txt "none", JNull)])].
Example C108_round_trip_hyp : stands_for ex_dict ex_json /\ good ex_json /\ loads (dumps true (txt "    ") ex_json) = Ok ex_json /\ forallb ws (txt "    ") = true.
Proof.
  split; [|split; [|split; [vm_compute; reflexivity|reflexivity]]].
  - repeat constructor.
  - assert (F1 : float_text (txt "0.125")) by (right; split; reflexivity). assert (F2 : float_text (txt "-2.5e-07")) by (right; split; reflexivity).
    cbn [ex_json good fold_right snd map fst]. repeat split; try assumption; repeat constructor; cbn; intuition discriminate.
Qed.
Print Assumptions C108_round_trip.
Print Assumptions C108_ascii.
