(** Reading back what was written as a dictionary. *)
From Verif Require Import PyBase PyFacts PyText TextFacts XmlModel ExpxModel ExpdModel ExpdSpec.
From Coq Require Import Lia.
Local Open Scope list_scope.

(** ** Components *)
Lemma word_tail c : tail_char c -> word_char c = true.
Proof.
  unfold tail_char, small_letter, digit, word_char. intros [H|[H| ->]]; [| |reflexivity].
  - replace (Nat.leb 97 (nat_of_ascii c)) with true by (symmetry; apply Nat.leb_le; lia). replace (Nat.leb (nat_of_ascii c) 122) with true by (symmetry; apply Nat.leb_le; lia). cbn [andb orb]. rewrite !orb_true_r. reflexivity.
  - replace (Nat.leb 48 (nat_of_ascii c)) with true by (symmetry; apply Nat.leb_le; lia). replace (Nat.leb (nat_of_ascii c) 57) with true by (symmetry; apply Nat.leb_le; lia). reflexivity.
Qed.
Lemma word_lower c : word_char (to_lower c) = word_char c.
Proof. apply Bool.eqb_prop. revert c. apply ascii_forall. vm_compute. reflexivity. Qed.
Lemma lower_tail c : word_char (to_lower c) = true -> tail_char (to_lower c).
Proof.
  set (b := fun c => let n := nat_of_ascii (to_lower c) in implb (word_char (to_lower c)) (orb (andb (Nat.leb 97 n) (Nat.leb n 122)) (orb (andb (Nat.leb 48 n) (Nat.leb n 57)) (Ascii.eqb (to_lower c) "_")))).
  intros W. assert (H : b c = true) by (revert c W; intros c _; revert c; apply ascii_forall; vm_compute; reflexivity). unfold b in H. rewrite W in H. cbn [implb] in H.
  apply orb_prop in H. destruct H as [H|H]; [|apply orb_prop in H; destruct H as [H|H]].
  - apply andb_prop in H. destruct H as [A B]. apply Nat.leb_le in A, B. left. split; assumption.
  - apply andb_prop in H. destruct H as [A B]. apply Nat.leb_le in A, B. right. left. split; assumption.
  - apply Ascii.eqb_eq in H. right. right. exact H.
Qed.
Lemma tail_lower c : tail_char c -> to_lower c = c.
Proof.
  set (b := fun c => let n := nat_of_ascii c in implb (orb (andb (Nat.leb 97 n) (Nat.leb n 122)) (orb (andb (Nat.leb 48 n) (Nat.leb n 57)) (Ascii.eqb c "_"))) (Ascii.eqb (to_lower c) c)).
  intros T. assert (H : b c = true) by (revert c T; intros c _; revert c; apply ascii_forall; vm_compute; reflexivity). unfold b in H.
  assert (E : orb (andb (Nat.leb 97 (nat_of_ascii c)) (Nat.leb (nat_of_ascii c) 122)) (orb (andb (Nat.leb 48 (nat_of_ascii c)) (Nat.leb (nat_of_ascii c) 57)) (Ascii.eqb c "_")) = true).
  { destruct T as [[A B]|[[A B]| ->]]; [| |reflexivity]; apply Nat.leb_le in A, B; rewrite A, B; cbn [andb orb]; rewrite ?orb_true_r; reflexivity. }
  rewrite E in H. apply Ascii.eqb_eq. exact H.
Qed.
Lemma tails_lower r : Forall tail_char r -> lower r = r.
Proof. induction 1 as [|c r T _ IH]; [reflexivity|]. unfold lower in *. cbn [map]. rewrite (tail_lower c T), IH. reflexivity. Qed.
Lemma tails_word r : Forall tail_char r -> forallb word_char r = true.
Proof. induction 1 as [|c r T _ IH]; [reflexivity|]. cbn [forallb]. rewrite (word_tail c T). exact IH. Qed.
Lemma word_tails r : forallb word_char (lower r) = true -> Forall tail_char (lower r).
Proof. induction r as [|c r IH]; intros H; [constructor|]. unfold lower in *. cbn [map forallb] in *. apply andb_prop in H. destruct H as [A B]. constructor; [apply lower_tail; exact A|apply IH; exact B]. Qed.
Lemma fits_named c s : component_fits c (lower s) = true <-> named_for c (lower s).
Proof.
  destruct c; cbn [named_for component_fits].
  - split.
    + destruct s as [|x s]; [discriminate|]. intros H. unfold lower in H |- *. cbn [map] in *. apply andb_prop in H. destruct H as [A B]. exists (lower s). split; [|apply word_tails; exact B].
      cbn [existsb txt list_ascii_of_string] in A. rewrite orb_false_r in A. apply orb_prop in A. destruct A as [A|A]; apply Ascii.eqb_eq in A; [rewrite A; reflexivity|].
      exfalso. assert (N : forall c, negb (Ascii.eqb (to_lower c) "E") = true) by (apply ascii_forall; vm_compute; reflexivity). specialize (N x). rewrite A in N. discriminate N.
    + intros (r & -> & T). cbn [existsb txt list_ascii_of_string Ascii.eqb Bool.eqb orb andb]. apply tails_word. exact T.
  - split.
    + destruct s as [|x s]; [discriminate|]. intros H. unfold lower in H |- *. cbn [map] in *. apply andb_prop in H. destruct H as [A B]. exists (to_lower x), (lower s). split; [reflexivity|]. split; [|apply word_tails; exact B].
      assert (N : forall c, implb (existsb (Ascii.eqb (to_lower c)) (txt "hHbBrR")) (orb (Ascii.eqb (to_lower c) "h") (orb (Ascii.eqb (to_lower c) "b") (Ascii.eqb (to_lower c) "r"))) = true) by (apply ascii_forall; vm_compute; reflexivity).
      specialize (N x). rewrite A in N. cbn [implb] in N. apply orb_prop in N. destruct N as [N|N]; [|apply orb_prop in N; destruct N as [N|N]]; apply Ascii.eqb_eq in N; auto.
    + intros (x & r & -> & X & T). apply andb_true_intro. split; [destruct X as [-> |[-> | ->]]; reflexivity|]. apply tails_word. exact T.
  - split.
    + intros H. apply existsb_exists in H. destruct H as (x & I & W). apply in_split in I. destruct I as (a & b & E). exists a, x, b. split; [exact E|]. assert (I : In x (lower s)) by (rewrite E; apply in_elt). unfold lower in I. apply in_map_iff in I. destruct I as (y & <- & _).
      apply lower_tail. exact W.
    + intros (a & x & b & -> & T). apply existsb_exists. exists x. split; [apply in_elt|apply word_tail; exact T].
Qed.
Lemma named_fits c s : named_for c s -> component_fits c (lower s) = true.
Proof.
  destruct c; cbn [named_for].
  - intros (r & -> & T). apply fits_named. unfold lower. cbn [map]. exists r. split; [|exact T]. f_equal. apply tails_lower. exact T.
  - intros (x & r & -> & X & T). apply fits_named. unfold lower. cbn [map]. exists x, r. split; [|split; [exact X|exact T]]. f_equal; [destruct X as [-> |[-> | ->]]; reflexivity|]. apply tails_lower. exact T.
  - intros (a & x & b & -> & T). cbn [component_fits]. unfold lower. rewrite map_app. cbn [map]. apply existsb_exists. exists (to_lower x). split; [apply in_elt|]. rewrite word_lower. apply word_tail. exact T.
Qed.

(** ** Lists of parts *)
Lemma collect_map {A B} (f : xval -> result B) (g : A -> xval) (h : A -> B) l : Forall (fun x => f (g x) = Ok (h x)) l -> collect f (map g l) false = Ok (map h l).
Proof. induction 1 as [|x l E _ IH]; [reflexivity|]. cbn [map collect]. rewrite E. rewrite IH. reflexivity. Qed.
Lemma each_map {A B} (f : xval -> result B) (g : A -> xval) (h : A -> B) l : Forall (fun x => f (g x) = Ok (h x)) l -> each f (map g l) = Ok (map h l).
Proof. induction 1 as [|x l E _ IH]; [reflexivity|]. cbn [map each]. rewrite E. cbn [bindR]. rewrite IH. reflexivity. Qed.
Lemma unwrap_list (d : fields) k l : dget text_dec k d = Some (XList l) -> unwrap d = d.
Proof. intros H. destruct d as [|[k' v] [|kv d]]; [reflexivity| |destruct v; reflexivity]. cbn [dget] in H. destruct (text_dec k k'); [|discriminate H]. injection H as ->. reflexivity. Qed.
Lemma ddel_fresh k (d : fields) v : ~ In k (map fst d) -> ddel text_dec k (dset text_dec k v d) = d.
Proof.
  intros NI. rewrite (dset_notin text_dec) by exact NI. induction d as [|[k' v'] d IH]; cbn [app ddel].
  - destruct (text_dec k k); [reflexivity|congruence].
  - destruct (text_dec k k') as [->|N]; [exfalso; apply NI; left; reflexivity|]. f_equal. apply IH. intros I. apply NI. right. exact I.
Qed.
Lemma parts_dset {B} k (f : xval -> result B) l d : parts k f (dset text_dec k (XList l) d) = collect f l false.
Proof. unfold parts. rewrite (dget_dset_eq text_dec). reflexivity. Qed.

Lemma channel_back c : typed_channel c -> channel_of (XDict (c_fields c)) = Ok c.
Proof.
  destruct c as [cl d]. intros [T (s & C & N)]. cbn [c_fields c_class] in *. cbn [channel_of]. unfold channel_of_dict, type_of. rewrite T. cbn [bindR].
  assert (M : make_channel cl d = Ok (mkChan cl d)) by (unfold make_channel; rewrite C, (named_fits _ _ N); reflexivity). destruct cl; exact M.
Qed.
Lemma run_back r : run_ok r -> run_of (run_dict r) = Ok r.
Proof.
  intros [C N]. destruct r as [d cs]. cbn [r_fields r_channels] in *. unfold run_dict. cbn [run_of r_fields r_channels].
  rewrite (unwrap_list _ (txt "channels") _ (dget_dset_eq text_dec _ _ _)). rewrite parts_dset. rewrite (collect_map _ _ (fun c => c)).
  - cbn [bindR]. rewrite ddel_fresh by exact N. rewrite map_id. reflexivity.
  - apply Forall_impl with (2 := C). intros c. apply channel_back.
Qed.
Lemma station_back s : station_ok s -> station_of (station_dict s) = Ok s.
Proof.
  intros [C N]. destruct s as [d rs]. cbn [s_fields s_runs] in *. unfold station_dict. cbn [station_of s_fields s_runs].
  rewrite (unwrap_list _ (txt "runs") _ (dget_dset_eq text_dec _ _ _)). rewrite parts_dset. rewrite (collect_map _ _ (fun c => c)).
  - cbn [bindR]. rewrite ddel_fresh by exact N. rewrite map_id. reflexivity.
  - apply Forall_impl with (2 := C). intros c. apply run_back.
Qed.

(** ** Filters *)
Lemma class_back c : c <> ResponseTable -> class_of_type (filter_type c) = Some c.
Proof. destruct c; intros N; try reflexivity. congruence. Qed.
Definition put_named (acc : list (text * filt)) (fs : list filt) : list (text * filt) := fold_left (fun a f => dset text_dec (the_name f) f a) fs acc.
Lemma list_of_typed fs : Forall typed_filter fs -> (forall f, In f fs -> f_class f <> ResponseTable) -> forall last acc rest bad, exists last',
  filters_in_list (map (fun f => GDict (f_fields f)) fs ++ rest) last acc bad = filters_in_list rest last' (put_named acc fs) bad /\ (fs = [] -> last' = last) /\ (fs <> [] -> last' <> None).
Proof.
  induction 1 as [|f fs T _ IH]; intros NT last acc rest bad.
  - exists last. repeat split; congruence.
  - cbn [map app filters_in_list]. rewrite T, (class_back _ (NT f (or_introl eq_refl))). destruct (IH (fun g I => NT g (or_intror I)) (Some (f_class f)) (dset text_dec (name_of (f_fields f)) (mkFilt (f_class f) (f_fields f)) acc) rest bad) as (l' & E & N1 & N2).
    exists l'. split; [|split; [congruence|]]. + rewrite E. unfold put_named. cbn [fold_left]. destruct f as [c d]. reflexivity.
    + intros _. destruct fs as [|g fs]; [rewrite N1 by reflexivity; discriminate|apply N2; discriminate].
Qed.
Lemma put_named_distinct fs : forall acc, NoDup (map fst acc ++ map the_name fs) -> put_named acc fs = acc ++ map (fun f => (the_name f, f)) fs.
Proof.
  induction fs as [|f fs IH]; intros acc ND; [symmetry; apply app_nil_r|]. cbn [put_named fold_left map] in *. fold (put_named (dset text_dec (the_name f) f acc) fs).
  assert (NI : ~ In (the_name f) (map fst acc)) by (apply NoDup_remove_2 in ND; intros I; apply ND; apply in_or_app; left; exact I).
  rewrite (dset_notin text_dec) by exact NI. rewrite IH; [rewrite <- app_assoc; reflexivity|]. rewrite map_app. cbn [map fst]. rewrite <- app_assoc. exact ND.
Qed.
(** Dictionaries that are filled one entry after the other *)
Lemma fill_get {A B} (key : A -> text) (val : A -> B) l : forall acc k,
  dget text_dec k (fold_left (fun a x => dset text_dec (key x) (val x) a) l acc) = match last_such (fun x => same k (key x)) l with Some x => Some (val x) | None => dget text_dec k acc end.
Proof.
  unfold last_such.
  assert (G : forall k l (o : option A), fold_left (fun acc x => if same k (key x) then Some x else acc) l o = match fold_left (fun acc x => if same k (key x) then Some x else acc) l None with Some x => Some x | None => o end).
  { intros k. induction l0 as [|x l0 IH]; intros o; [reflexivity|]. cbn [fold_left]. rewrite IH. rewrite (IH (if same k (key x) then Some x else None)). destruct (fold_left (fun acc x0 => if same k (key x0) then Some x0 else acc) l0 None); [reflexivity|]. destruct (same k (key x)); reflexivity. }
  induction l as [|x l IH]; intros acc k; [reflexivity|]. cbn [fold_left]. rewrite IH, (G k l (if same k (key x) then Some x else None)). destruct (fold_left (fun acc0 x0 => if same k (key x0) then Some x0 else acc0) l None) as [y|]; [reflexivity|].
  unfold same. destruct (text_dec k (key x)) as [->|N]; [apply (dget_dset_eq text_dec)|apply (dget_dset_neq text_dec); exact N].
Qed.
Lemma filters_back fs : Forall typed_filter fs -> (forall f, In f fs -> f_class f <> ResponseTable) -> set_filters (VList (map (fun f => GDict (f_fields f)) fs)) = Ok (put_named [] fs).
Proof. intros T N. cbn [set_filters]. destruct (list_of_typed fs T N None [] [] false) as (l' & E & _). rewrite app_nil_r in E. rewrite E. reflexivity. Qed.
Lemma survey_parts v : survey_ok v -> survey_of (survey_dict v) = bindR (set_filters (VList (map (fun f => GDict (f_fields f)) (v_filters v)))) (fun fs => Ok (mkRead (v_fields v) fs (v_stations v))).
Proof.
  intros (_ & SO & NS & NF). destruct v as [d fs ss]. cbn [v_fields v_filters v_stations] in *. unfold survey_dict. cbn [survey_of v_fields v_filters v_stations].
  assert (D : txt "stations" <> txt "filters") by discriminate.
  rewrite (unwrap_list _ (txt "filters") _ (dget_dset_eq text_dec _ _ _)). unfold parts at 1. rewrite (dget_dset_neq text_dec) by exact D. rewrite (dget_dset_eq text_dec).
  rewrite (collect_map _ _ (fun s => s)) by (apply Forall_impl with (2 := SO); intros s; apply station_back). cbn [bindR]. unfold filters_of. rewrite (dget_dset_eq text_dec). rewrite map_map, map_id.
  assert (E : ddel text_dec (txt "filters") (ddel text_dec (txt "stations") (dset text_dec (txt "filters") (XList (map (fun f => XDict (f_fields f)) fs)) (dset text_dec (txt "stations") (XList (map station_dict ss)) d))) = d).
  { rewrite (dset_notin text_dec (txt "filters")).
    - rewrite (dset_notin text_dec (txt "stations")) by exact NS. rewrite <- app_assoc. cbn [app]. rewrite <- (ddel_fresh (txt "filters") d (XList (map (fun f => XDict (f_fields f)) fs)) NF) at 2. f_equal. rewrite (dset_notin text_dec (txt "filters")) by exact NF.
      clear NF SO. induction d as [|[k v] d IH]; cbn [app ddel].
      + destruct (text_dec (txt "stations") (txt "stations")) as [_|X]; [reflexivity|congruence].
      + destruct (text_dec (txt "stations") k) as [<-|N]; [exfalso; apply NS; left; reflexivity|]. f_equal. apply IH. intros I. apply NS. right. exact I.
    - unfold dkeys. rewrite (dset_notin text_dec (txt "stations")) by exact NS. rewrite map_app. intros I. apply in_app_or in I. destruct I as [I|[I|[]]]; [exact (NF I)|exact (D I)]. }
  rewrite E. reflexivity.
Qed.
