(** C128: the file that [TF.write] writes, its format, and whether [TF.read] takes it for that format. *)
From Verif Require Import PyBase PyFacts PyText TextFacts WfnModel WfnSpec WfnProofs.
From Coq Require Import Lia.
Local Open Scope list_scope.

Local Ltac fnstep P := unfold write; rewrite (parse_spelled _ _ P).
Lemma plain_last l (n : text) : Forall plain l -> plain n -> Forall plain (l ++ [n]).
Proof. intros P Q. apply Forall_app. split; [exact P|constructor; [exact Q|constructor]]. Qed.
Lemma put_ext f d (n stem ext : text) : name d = n -> has_ext n stem ext -> f <> JFILE -> (f = ZFILE -> names_format (lower ext) ZFILE) -> put f d = Ok (d, f).
Proof. intros E H J Z. destruct f; try reflexivity; [contradiction|]. unfold put. rewrite (proj2 (zname_ext d n stem ext E H) (Z eq_refl)). reflexivity. Qed.
Lemma write_fn a l (n stem ext : text) dir station sd base t d' : Forall plain l -> ~ In "/"%char n -> has_ext n stem ext -> directory (mkPath a l) sd d' ->
  write dir station (Some (spelled a (l ++ [n]))) sd base t =
  (d', match dget text_dec (lower ext) formats with None => Err TFError | Some f => put f (from_dir d' false [n]) end).
Proof.
  intros P N H D. assert (Q : plain n) by exact (has_ext_plain _ _ _ H N). unfold write. rewrite (parse_spelled a (l ++ [n]) (plain_last l n P Q)), parent_last, name_last, (parse_name n Q), (directory_parse _ _ _ D).
  rewrite (type_ext _ n stem ext (name_last a l n) H). rewrite (name_last false [] n : name (mkPath false [n]) = n), (suffix_ext _ _ _ H). cbv iota beta. rewrite join_from. reflexivity.
Qed.

(** A full path with an extension is written exactly there, in the format of its extension in any case; names and types given besides do not matter, and its directory becomes the one of the object. *)
Theorem C128_fn a l (n stem ext : text) f : Forall plain l -> ~ In "/"%char n -> has_ext n stem ext -> names_format (lower ext) f -> f <> JFILE ->
  forall dir station base t, write dir station (Some (spelled a (l ++ [n]))) None base t = (mkPath a l, Ok (mkPath a (l ++ [n]), f)).
Proof.
  intros P N H F J dir station base t. rewrite (write_fn a l n stem ext _ _ None _ _ (mkPath a l) P N H (dir_own _)), (proj2 (formats_spec _ _) F). f_equal.
  apply (put_ext f (from_dir (mkPath a l) false [n]) n stem ext); [apply (name_from (mkPath a l) false [] n)|exact H|exact J|intros ->; exact F].
Qed.
Example C128_fn_hyp : Forall plain [txt "data"; txt ".."] /\ ~ In "/"%char (txt "a.b.XML") /\ has_ext (txt "a.b.XML") (txt "a.b") (txt "XML") /\ names_format (lower (txt "XML")) EMTF /\
  spelled true [txt "data"; txt ".."; txt "a.b.XML"] = txt "/data/../a.b.XML" /\
  write (mkPath false []) (txt "MT01") (Some (txt "/data/../a.b.XML")) None None (Some (txt "edi")) = (mkPath true [txt "data"; txt ".."], Ok (mkPath true [txt "data"; txt ".."; txt "a.b.XML"], EMTF)).
Proof.
  repeat split; try discriminate.
  - repeat constructor; try discriminate; cbn; intros X; repeat (destruct X as [X|X]; [discriminate X|]); exact X.
  - cbn; intros X; repeat (destruct X as [X|X]; [discriminate X|]); exact X.
  - cbn; intros X; repeat (destruct X as [X|X]; [discriminate X|]); exact X.
  - apply n_xml.
Qed.

(** With another extension nothing is written. *)
Theorem C128_fn_unsupported a l (n stem ext : text) : Forall plain l -> ~ In "/"%char n -> has_ext n stem ext -> (forall f, ~ names_format (lower ext) f) ->
  forall dir station base t, write dir station (Some (spelled a (l ++ [n]))) None base t = (mkPath a l, Err TFError).
Proof. intros P N H F dir station base t. rewrite (write_fn a l n stem ext _ _ None _ _ (mkPath a l) P N H (dir_own _)), (proj2 (formats_none _) F). reflexivity. Qed.
(** Nor without an extension, whatever type is given besides. *)
Theorem C128_fn_bare a l (n : text) : Forall plain l -> plain n -> bare n ->
  forall dir station base t, write dir station (Some (spelled a (l ++ [n]))) None base t = (mkPath a l, Err TFError).
Proof.
  intros P Q B dir station base t. unfold write. rewrite (parse_spelled a (l ++ [n]) (plain_last l n P Q)), parent_last, name_last, (parse_name n Q), (type_bare _ n (name_last a l n) B).
  rewrite (name_last false [] n : name (mkPath false [n]) = n), (suffix_bare _ B). cbv iota beta. unfold with_name. cbn [p_parts shown]. destruct (has_char "/" _ || _ || _)%bool eqn:E; [|reflexivity]. exfalso.
  rewrite !orb_true_iff in E. destruct Q as (Q1 & Q2 & Q3). destruct E as [[E|E]|E].
  - apply has_char_In in E. rewrite !in_app_iff in E. destruct E as [E|[E|[]]]; [exact (Q3 E)|]. cbn in E. destruct E as [E|[]]; discriminate E.
  - apply text_eqb_eq in E. destruct n; [contradiction|discriminate E].
  - apply text_eqb_eq in E. destruct n as [|x [|y n]]; [contradiction| |]; discriminate E.
Qed.
(** J files are never written. *)
Theorem C128_fn_j a l (n stem ext : text) : Forall plain l -> ~ In "/"%char n -> has_ext n stem ext -> names_format (lower ext) JFILE ->
  forall dir station base t, write dir station (Some (spelled a (l ++ [n]))) None base t = (mkPath a l, Err NotImplementedError).
Proof. intros P N H F dir station base t. rewrite (write_fn a l n stem ext _ _ None _ _ (mkPath a l) P N H (dir_own _)), (proj2 (formats_spec _ _) F). reflexivity. Qed.
Example C128_fn_errors_hyp :
  write (mkPath false []) (txt "MT01") (Some (txt "a/b.txt")) None None (Some (txt "edi")) = (mkPath false [txt "a"], Err TFError) /\
  write (mkPath false []) (txt "MT01") (Some (txt "a/b")) None None (Some (txt "edi")) = (mkPath false [txt "a"], Err TFError) /\
  write (mkPath false []) (txt "MT01") (Some (txt "a/b.j")) None None (Some (txt "edi")) = (mkPath false [txt "a"], Err NotImplementedError).
Proof. vm_compute. repeat split; reflexivity. Qed.

Lemma name_ext (n t : text) : plain n -> t <> [] -> ~ In "."%char t -> has_ext (n ++ txt "." ++ t) n t.
Proof. intros (A & _ & _) B C. repeat split; assumption. Qed.
Lemma ext_noslash (n t : text) : ~ In "/"%char n -> ~ In "/"%char t -> ~ In "/"%char (n ++ txt "." ++ t).
Proof. intros A B X. rewrite !in_app_iff in X. destruct X as [X|[X|X]]; [exact (A X)| |exact (B X)]. cbn in X. destruct X as [X|[]]; discriminate X. Qed.
Lemma with_ext a l (n t : text) : plain n -> ~ In "/"%char t -> with_name (mkPath a (l ++ [n])) (n ++ txt "." ++ t) = Ok (mkPath a (l ++ [n ++ txt "." ++ t])).
Proof.
  intros (A & B & C) T. unfold with_name. cbn [p_parts p_abs]. destruct (l ++ [n]) as [|x r] eqn:E; [destruct l; discriminate E|]. rewrite <- E, removelast_last.
  destruct (has_char "/" _ || _ || _)%bool eqn:Z; [|reflexivity]. exfalso. rewrite !orb_true_iff in Z. destruct Z as [[Z|Z]|Z].
  - apply has_char_In in Z. exact (ext_noslash n t C T Z).
  - apply text_eqb_eq in Z. destruct n; [contradiction|discriminate Z].
  - apply text_eqb_eq in Z. destruct n as [|c [|c2 n]]; [contradiction| |]; discriminate Z.
Qed.
(** A base name without an extension gets the type as its extension, in the directory given or that of the object. *)
Theorem C128_base a l (n t : text) f dir sd d' station : Forall plain l -> plain n -> bare n -> names_format t f -> f <> JFILE -> directory dir sd d' ->
  write dir station None sd (Some (spelled a (l ++ [n]))) (Some t) = (d', Ok (from_dir d' a (l ++ [n ++ txt "." ++ t]), f)).
Proof.
  intros P Q B F J D. destruct (names_plain t f F) as (T1 & T2 & T3). unfold write. rewrite (directory_parse _ _ _ D), (parse_spelled a (l ++ [n]) (plain_last l n P Q)), name_last, (suffix_bare _ B). cbn [shown].
  rewrite (with_ext a l n t Q T3), (proj2 (formats_spec _ _) F). f_equal. rewrite join_from.
  apply (put_ext f _ (n ++ txt "." ++ t) n t); [apply name_from|exact (name_ext n t Q T1 T2)|exact J|intros ->; rewrite (names_lower t _ F); exact F].
Qed.
(** With an extension it is kept, and the format is that of the type given, whatever the extension; only Z files need one of theirs. *)
Theorem C128_base_ext a l (n stem ext : text) t f dir sd d' station : Forall plain l -> ~ In "/"%char n -> has_ext n stem ext -> names_format t f -> f <> JFILE -> directory dir sd d' ->
  (f = ZFILE -> names_format (lower ext) ZFILE) ->
  write dir station None sd (Some (spelled a (l ++ [n]))) (Some t) = (d', Ok (from_dir d' a (l ++ [n]), f)).
Proof.
  intros P N H F J D Z. unfold write. rewrite (directory_parse _ _ _ D), (parse_spelled a (l ++ [n]) (plain_last l n P (has_ext_plain _ _ _ H N))), name_last, (suffix_ext _ _ _ H), (proj2 (formats_spec _ _) F). f_equal. rewrite join_from.
  apply (put_ext f _ n stem ext); [apply name_from|exact H|exact J|exact Z].
Qed.
(** Without a type ([file_type=None]) it is that of the extension. *)
Theorem C128_base_untyped a l (n stem ext : text) f dir sd d' station : Forall plain l -> ~ In "/"%char n -> has_ext n stem ext -> names_format (lower ext) f -> f <> JFILE -> directory dir sd d' ->
  write dir station None sd (Some (spelled a (l ++ [n]))) None = (d', Ok (from_dir d' a (l ++ [n]), f)).
Proof.
  intros P N H F J D. unfold write. rewrite (directory_parse _ _ _ D), (parse_spelled a (l ++ [n]) (plain_last l n P (has_ext_plain _ _ _ H N))), name_last, (suffix_ext _ _ _ H). cbv iota. rewrite (type_ext _ n stem ext (name_last a l n) H), (proj2 (formats_spec _ _) F). f_equal. rewrite join_from.
  apply (put_ext f _ n stem ext); [apply name_from|exact H|exact J|intros ->; exact F].
Qed.
Lemma word_noslash s c : forallb word_char s = true -> word_char c = false -> ~ In c s.
Proof. intros W C I. rewrite forallb_forall in W. rewrite (W c I) in C. discriminate C. Qed.
(** Without a name the file is named after the station. *)
Theorem C128_default t f dir sd d' station : forallb word_char station = true -> names_format t f -> directory dir sd d' -> f <> JFILE -> (f = ZFILE -> station <> []) ->
  write dir station None sd None (Some t) = (d', Ok (from_dir d' false [station ++ txt "." ++ t], f)).
Proof.
  intros W F D J Z. destruct (names_plain t f F) as (T1 & T2 & T3). unfold write. rewrite (directory_parse _ _ _ D). cbn [shown].
  assert (Q : plain (station ++ txt "." ++ t)).
  { split; [|split].
    - destruct station; discriminate.
    - destruct station as [|x [|y r]]; [|discriminate|discriminate]. destruct t; [contradiction|discriminate].
    - apply ext_noslash; [apply (word_noslash _ _ W); reflexivity|exact T3]. }
  rewrite (parse_name _ Q), (proj2 (formats_spec _ _) F). f_equal. rewrite join_from. destruct station as [|x r] eqn:ES.
  - destruct f; try reflexivity; [contradiction J; reflexivity|contradiction (Z eq_refl); reflexivity].
  - rewrite <- ES in *. apply (put_ext f _ (station ++ txt "." ++ t) station t); [exact (name_from d' false [] (station ++ txt "." ++ t))| |exact J|intros ->; rewrite (names_lower t _ F); exact F].
    repeat split; [rewrite ES; discriminate|exact T1|exact T2].
Qed.
Example C128_base_hyp :
  write (mkPath true [txt "own"]) (txt "MT01") None None (Some (txt "sub/a")) (Some (txt "xml")) = (mkPath true [txt "own"], Ok (mkPath true [txt "own"; txt "sub"; txt "a.xml"], EMTF)) /\
  write (mkPath true [txt "own"]) (txt "MT01") None (Some (txt "out")) (Some (txt "a.xml")) (Some (txt "edi")) = (mkPath false [txt "out"], Ok (mkPath false [txt "out"; txt "a.xml"], EDI)) /\
  write (mkPath true [txt "own"]) (txt "MT01") None (Some (txt "out")) (Some (txt "a.xml")) None = (mkPath false [txt "out"], Ok (mkPath false [txt "out"; txt "a.xml"], EMTF)) /\
  write (mkPath true [txt "own"]) (txt "MT01") None None None (Some (txt "zss")) = (mkPath true [txt "own"], Ok (mkPath true [txt "own"; txt "MT01.zss"], ZFILE)) /\
  bare (txt "a") /\ directory (mkPath true [txt "own"]) (Some (txt "out")) (mkPath false [txt "out"]).
Proof.
  repeat split; try (vm_compute; reflexivity).
  - intros s e (E & S & _ & _). destruct s as [|x s]; [contradiction|]. destruct s; [discriminate E|]. destruct s; discriminate E.
  - apply (dir_given _ false [txt "out"]). repeat constructor; try discriminate. cbn; intros X; repeat (destruct X as [X|X]; [discriminate X|]); exact X.
Qed.

(** A type that is not one of the eight names is refused. *)
Theorem C128_unsupported t dir station sd base : (forall f, ~ names_format t f) ->
  exists e, snd (write dir station None sd base (Some t)) = Err e /\ (e = TFError \/ e = ValueError).
Proof.
  intros F. unfold write. cbn [snd]. rewrite (proj2 (formats_none _) F). destruct base as [b|]; [|exists TFError; auto]. destruct (suffix (name (parse b))); [|exists TFError; auto].
  unfold with_name. destruct (p_parts (parse b)); [exists ValueError; auto|]. destruct (_ || _ || _)%bool; [exists ValueError|exists TFError]; auto.
Qed.
Example C128_unsupported_hyp : (forall f, ~ names_format (txt "EDI") f) /\ snd (write (mkPath false []) (txt "MT01") None None None (Some (txt "EDI"))) = Err TFError.
Proof. split; [intros f H; inversion H|vm_compute; reflexivity]. Qed.

(** Where the object writes next: the directory given, else that of the full path, else its own; also if the call failed. *)
Theorem C128_directory dir station fn sd base t :
  (forall a l, Forall plain l -> sd = Some (spelled a l) -> fst (write dir station fn sd base t) = mkPath a l) /\
  (forall a l n, Forall plain (l ++ [n]) -> fn = Some (spelled a (l ++ [n])) -> sd = None -> fst (write dir station fn sd base t) = mkPath a l) /\
  (fn = None -> sd = None -> fst (write dir station fn sd base t) = dir).
Proof.
  repeat split.
  - intros a l P ->. unfold write. destruct fn as [s|]; cbn [fst]; apply parse_spelled, P.
  - intros a l n P -> ->. unfold write. cbn [fst]. rewrite (parse_spelled _ _ P). apply parent_last.
  - intros -> ->. reflexivity.
Qed.
Example C128_directory_hyp : fst (write (mkPath false []) (txt "MT01") (Some (txt "/a/b.edi")) None None None) = mkPath true [txt "a"].
Proof. reflexivity. Qed.

(** Any file written is read in its format if the type is named, and without a type exactly if its extension names that format. *)
Theorem C128_read dir station fn sd base t d' a l (n : text) f : write dir station fn sd base t = (d', Ok (mkPath a (l ++ [n]), f)) -> forall fn0,
  (forall t', names_format t' f -> read fn0 (Some (mkPath a (l ++ [n]))) (Some t') = Ok f) /\
  (read fn0 (Some (mkPath a (l ++ [n]))) None = Ok f <-> exists stem ext, has_ext n stem ext /\ names_format (lower ext) f).
Proof.
  intros W fn0. assert (T : take f (mkPath a (l ++ [n])) = Ok f).
  { unfold write in W. destruct fn as [s|]; apply (f_equal snd) in W; cbn [snd] in W.
    - destruct (match suffix (name (parse (name (parse s)))) with [] => _ | _ => _ end) as [p|e]; [|discriminate W]. destruct (dget _ _ formats) as [g|]; [|discriminate W]. destruct g; cbn [put] in W; try (injection W as X <-; reflexivity); [discriminate W|]. destruct (is_zname _) eqn:Z; [|discriminate W]. injection W as X <-. unfold take. rewrite <- X, Z. reflexivity.
    - destruct (match base with Some b => _ | None => _ end) as [p|e]; [|discriminate W]. destruct (dget _ _ formats) as [g|]; [|discriminate W]. destruct g; cbn [put] in W; try (injection W as X <-; reflexivity); [discriminate W|]. destruct (is_zname _) eqn:Z; [|discriminate W]. injection W as X <-. unfold take. rewrite <- X, Z. reflexivity. }
  assert (TF : forall g, take g (mkPath a (l ++ [n])) = Ok f -> g = f).
  { intros g G. destruct g; cbn [take] in G; try (injection G as <-; reflexivity).
    - destruct (text_eqb _ _); [injection G as <-; reflexivity|discriminate G].
    - destruct (is_zname _); [injection G as <-; reflexivity|discriminate G]. }
  split.
  - intros t' F. unfold read. rewrite (proj2 (formats_spec _ _) F). exact T.
  - unfold read. destruct (suffix_cases n) as [(stem & ext & H & _)|(B & _)].
    + rewrite (type_ext _ n stem ext (name_last a l n) H). split.
      * intros R. exists stem, ext. split; [exact H|]. destruct (dget _ _ formats) as [g|] eqn:E; [|discriminate R]. apply formats_spec in E. rewrite <- (TF g R). exact E.
      * intros (s2 & e2 & H2 & F). assert (e2 = ext) by (pose proof (suffix_ext _ _ _ H) as A1; rewrite (suffix_ext _ _ _ H2) in A1; injection A1 as A1; exact A1). subst e2. rewrite (proj2 (formats_spec _ _) F). exact T.
    + rewrite (type_bare _ n (name_last a l n) B). split; [discriminate|]. intros (s2 & e2 & H2 & _). destruct (B _ _ H2).
Qed.
(** So a file written by its full path, in whatever directory, is always read back in its format. *)
Theorem C128_read_fn a l (n stem ext : text) f : Forall plain l -> ~ In "/"%char n -> has_ext n stem ext -> forall dir station base t sd d' d2 p, directory (mkPath a l) sd d' ->
  write dir station (Some (spelled a (l ++ [n]))) sd base t = (d2, Ok (p, f)) -> forall fn0, read fn0 (Some p) None = Ok f.
Proof.
  intros P N H dir station base t sd d' d2 p D W fn0. assert (W2 := W). rewrite (write_fn a l n stem ext _ _ sd _ _ d' P N H D) in W2.
  destruct (dget text_dec (lower ext) formats) as [g|] eqn:F; [|discriminate W2]. apply formats_spec in F. assert (X : p = from_dir d' false [n] /\ g = f).
  { injection W2 as _ W2. destruct g; cbn [put] in W2; try (injection W2 as <- <-; split; reflexivity); [discriminate W2|]. destruct (is_zname _); [|discriminate W2]. injection W2 as <- <-. split; reflexivity. }
  destruct X as (-> & ->). destruct (from_last d' false [] n) as (d3 & l3 & E). cbn [app] in E. rewrite E in W |- *. apply (proj2 (C128_read _ _ _ _ _ _ _ _ _ _ _ W fn0)). exists stem, ext. split; assumption.
Qed.
Example C128_read_hyp : read None (Some (mkPath false [txt "out"; txt "a.Zmm"])) None = Ok ZFILE /\ read None None None = Err AttributeError /\
  write (mkPath false []) [] (Some (txt "q/a.Zmm")) (Some (txt "out")) None None = (mkPath false [txt "out"], Ok (mkPath false [txt "out"; txt "a.Zmm"], ZFILE)).
Proof. vm_compute. repeat split; reflexivity. Qed.

(** Boundaries.  A base name whose extension names another format is written in the format of the type, by default EDI, and read as the other. *)
Theorem C128_other_extension_refuted : exists dir, write dir (txt "MT01") None None (Some (txt "MT01.xml")) (Some (txt "edi")) = (dir, Ok (mkPath false [txt "MT01.xml"], EDI)) /\
  read None (Some (mkPath false [txt "MT01.xml"])) None = Ok EMTF.
Proof. exists (mkPath false []). vm_compute. split; reflexivity. Qed.
(** What follows a dot in a base name is taken for an extension: no type is added and the file cannot be read back without naming it. *)
Theorem C128_dotted_base_refuted : exists dir, write dir (txt "MT01") None None (Some (txt "MT.01")) (Some (txt "edi")) = (dir, Ok (mkPath false [txt "MT.01"], EDI)) /\
  read None (Some (mkPath false [txt "MT.01"])) None = Err KeyError.
Proof. exists (mkPath false []). vm_compute. split; reflexivity. Qed.
(** A full path is not where the file goes if a directory is given besides. *)
Theorem C128_moved_refuted : exists dir, write dir (txt "MT01") (Some (txt "/a/b.edi")) (Some (txt "/c")) None None = (mkPath true [txt "c"], Ok (mkPath true [txt "c"; txt "b.edi"], EDI)).
Proof. exists (mkPath false []). vm_compute. reflexivity. Qed.
(** A call that fails has an effect: the next file goes elsewhere. *)
Theorem C128_failed_write_refuted : exists dir, let '(dir2, r) := write dir (txt "MT01") (Some (txt "/tmp/x.txt")) None None None in
  r = Err TFError /\ snd (write dir (txt "MT01") None None None (Some (txt "edi"))) = Ok (mkPath true [txt "home"; txt "MT01.edi"], EDI) /\
  snd (write dir2 (txt "MT01") None None None (Some (txt "edi"))) = Ok (mkPath true [txt "tmp"; txt "MT01.edi"], EDI).
Proof. exists (mkPath true [txt "home"]). vm_compute. repeat split; reflexivity. Qed.
(** A station without a name gives a file without an extension; the types of Z files even an error. *)
Theorem C128_unnamed_station_refuted : exists dir, write dir [] None None None (Some (txt "edi")) = (dir, Ok (mkPath false [txt ".edi"], EDI)) /\
  read None (Some (mkPath false [txt ".edi"])) None = Err KeyError /\ snd (write dir [] None None None (Some (txt "zmm"))) = Err ValueError.
Proof. exists (mkPath false []). vm_compute. repeat split; reflexivity. Qed.
(** The type, unlike the extension, is not read in any case; nor is the extension of a J file. *)
Theorem C128_case_refuted : exists dir, snd (write dir (txt "MT01") None None None (Some (txt "XML"))) = Err TFError /\
  read None (Some (mkPath false [txt "MT01.EDI"])) None = Ok EDI /\ read None (Some (mkPath false [txt "MT01.J"])) None = Err ValueError.
Proof. exists (mkPath false []). vm_compute. repeat split; reflexivity. Qed.
Print Assumptions C128_read.
