(** C106, C107: the field trees of metadata classes, whatever happens to their caches. *)
From Verif Require Import PyBase PyText PyFacts TextFacts PyJson PyJsonFacts CacheModel CacheSpec CacheProofs CacheFlat.
Local Open Scope nat_scope.

(** A small program: a person, and a station that has an author and a field no longer used. *)
Inductive ex := Person | Station.
Definition ex_dec (a b : ex) : {a = b} + {a <> b}. Proof. decide equality. Defined.
Definition summary (description : string) : json := JObj [(txt "__field__", JBool true); (txt "type", JStr (txt "<class 'str'>")); (txt "description", JStr (txt description)); (txt "enum", JNull)].
Definition str_field (name description : string) : field ex := mkField (txt name) None (txt "<class 'str'>") (txt "''") (txt "{}") (Simple (summary description)).
Definition program (of_person : list (field ex)) (c : ex) : class ex :=
  match c with
  | Person => mkClass (txt "mt.Person") of_person
  | Station => mkClass (txt "mt.Station")
      [str_field "id" "name of the station"; mkField (txt "author") None (txt "<class 'mt.Person'>") (txt "PydanticUndefined") (txt "{}") (Class Person);
       mkField (txt "old") (Some (txt "True")) (txt "<class 'str'>") (txt "''") (txt "{}") (Simple JNull)]
  end.
Definition table1 := program [str_field "name" "full name"].
Definition table2 := program [str_field "name" "full name"; str_field "email" "address"].
Definition table3 := program [str_field "name" "first and last name"].
Definition depth (c : ex) : nat := match c with Person => 0 | Station => 1 end.
Definition zeros (_ : list (text * list (option text))) : text := repeat "0"%char 64.
Definition quiet (_ : nat) : list (text * option text) := [].
Definition never (_ : nat) : option exn := None.
Definition whole (_ : nat) : written := Whole.
Definition empty : world ex := mkWorld ex [] [] false 0.
Lemma regular_program of_person : NoDup (map f_name of_person) -> (forall f s, In f of_person -> f_kind f = Simple s -> good s) -> (forall f d, In f of_person -> f_kind f <> Class d) ->
  regular ex (program of_person) 10 depth.
Proof.
  intros N G NC. split.
  - intros [|] f d I D K; [exfalso; exact (NC _ _ I K)|]. cbn in I. destruct I as [<- |[<- |[<- |[]]]]; try discriminate. injection K as <-. cbn. lia.
  - intros [|]; cbn; lia.
  - intros [|]; [exact N|]. repeat constructor; cbn; intuition discriminate.
  - intros [|] f s I K; [exact (G _ _ I K)|]. cbn in I. destruct I as [<- |[<- |[<- |[]]]]; try discriminate; injection K as <-; [|exact I].
    apply good_obj. split; [repeat constructor; cbn; intuition discriminate|]. repeat (apply Forall_cons; [exact I|]). constructor.
  - intros [|] [|] E; try reflexivity; discriminate.
Qed.
Lemma summary_good d : good (summary d).
Proof. apply good_obj. split; [repeat constructor; cbn; intuition discriminate|]. repeat (apply Forall_cons; [exact I|]). constructor. Qed.
Lemma regular1 : regular ex table1 10 depth.
Proof.
  apply regular_program; [repeat constructor; cbn; intuition discriminate|..].
  - intros f s [<- |[]] K. injection K as <-. apply summary_good.
  - intros f d [<- |[]]. discriminate.
Qed.
Definition person1 : json := JObj [(txt "name", summary "full name")].
Definition station1 : json := JObj [(txt "id", summary "name of the station"); (txt "author", person1)].
Lemma tree_person1 : tree ex table1 Person person1.
Proof. constructor. apply entries_simple; [reflexivity..|constructor]. Qed.
Lemma tree_station1 : tree ex table1 Station station1.
Proof. constructor. apply entries_simple; [reflexivity..|]. eapply entries_class; [reflexivity|reflexivity|exact tree_person1|]. eapply entries_deprecated; [reflexivity|constructor]. Qed.
Definition person2 : json := JObj [(txt "name", summary "full name"); (txt "email", summary "address")].
Definition station2 : json := JObj [(txt "id", summary "name of the station"); (txt "author", person2)].
Lemma tree_station2 : tree ex table2 Station station2.
Proof.
  constructor. apply entries_simple; [reflexivity..|]. eapply entries_class; [reflexivity|reflexivity| |].
  - constructor. apply entries_simple; [reflexivity..|]. apply entries_simple; [reflexivity..|]. constructor.
  - eapply entries_deprecated; [reflexivity|constructor].
Qed.
Definition person3 : json := JObj [(txt "name", summary "first and last name")].
Lemma tree_person3 : tree ex table3 Person person3.
Proof. constructor. apply entries_simple; [reflexivity..|constructor]. Qed.

(** ** C106 *)
(** Whatever the history of questions, clearings and new processes, with whatever other processes of the same program leave in the cache
    directory at any moment, whatever becomes of the writes and wherever exceptions strike: while the answers are to be trusted, each is the
    tree of the class asked for, or the exception that struck. *)
Theorem C106_answers : forall (cls : Type) cls_dec (table : cls -> class cls) version digest limit depth others fails writes off d h,
  regular cls table limit depth -> (forall x, List.length (digest x) = 64) ->
  (forall n c t, In (path cls table version digest c, Some t) (others n) -> copy_of cls table c t) ->
  (forall c t, dget text_dec (path cls table version digest c) d = Some t -> copy_of cls table c t) ->
  trusted cls table fails Fine (run cls cls_dec table version digest limit others fails writes (mkWorld cls [] d off 0) h).
Proof.
  intros cls cls_dec table version digest limit dp others fails writes off d h R L O F.
  apply (trusted_run cls cls_dec table version digest limit dp R L others fails writes O h). split; [intros c j G; discriminate|exact F].
Qed.
(** Without exceptions: every answer. *)
Theorem C106_every_answer : forall (cls : Type) cls_dec (table : cls -> class cls) version digest limit depth others writes off d h c a,
  regular cls table limit depth -> (forall x, List.length (digest x) = 64) ->
  (forall n c t, In (path cls table version digest c, Some t) (others n) -> copy_of cls table c t) ->
  (forall c t, dget text_dec (path cls table version digest c) d = Some t -> copy_of cls table c t) ->
  In (Ask cls c, a) (run cls cls_dec table version digest limit others never writes (mkWorld cls [] d off 0) h) ->
  exists j, a = Some (Ok j) /\ tree cls table c j.
Proof.
  intros cls cls_dec table version digest limit dp others writes off d h c a R L O F.
  pose proof (C106_answers cls cls_dec table version digest limit dp others never writes off d h R L O F) as T.
  revert T. generalize (run cls cls_dec table version digest limit others never writes (mkWorld cls [] d off 0) h). induction l as [|[e b] l IH]; intros T I; [destruct I|].
  destruct e as [c'| |off']; cbn [trusted] in T.
  - destruct T as [(j & E & TR & T)|(n & e & F' & _)]; [|discriminate]. destruct I as [I|I]; [|exact (IH T I)]. injection I as <- <-. eauto.
  - destruct I as [I|I]; [discriminate|exact (IH T I)].
  - destruct I as [I|I]; [discriminate|exact (IH T I)].
Qed.
(** A file caught in the middle of a write is taken for what it was to become, or for nothing. *)
Theorem C106_torn_file : forall (cls : Type) (table : cls -> class cls) limit depth c t v,
  regular cls table limit depth -> copy_of cls table c t -> loads t = Ok v -> tree cls table c v /\ t = dumps false (txt "  ") v.
Proof.
  intros cls table limit dp c t v R (j & T & Q) L. pose proof (tree_good cls table limit dp R c j T) as G. destruct (tree_inv cls table c j T) as (l & -> & _).
  destruct (torn_refused false (txt "  ") l t v blanks_ws G Q L) as [-> ->]. auto.
Qed.
(** A new release: files of the old one do no harm if a class that kept its name and its own fields (name, deprecation, annotation, default,
    extra) kept its tree. *)
Theorem C106_release : forall (cls cls0 : Type) cls_dec (table : cls -> class cls) (table0 : cls0 -> class cls0) version version0 digest limit depth others writes off d h c a,
  regular cls table limit depth -> (forall x, List.length (digest x) = 64) -> (forall x y, digest x = digest y -> x = y) ->
  (forall n c t, In (path cls table version digest c, Some t) (others n) -> copy_of cls table c t) ->
  (forall p t, In (p, t) d -> exists c0, p = path cls0 table0 version0 digest c0 /\ copy_of cls0 table0 c0 t) ->
  version = version0 ->
  (forall c0 c, c_fqname (table0 c0) = c_fqname (table c) ->
     fold_right insert_part [] (map (part cls0) (c_fields (table0 c0))) = fold_right insert_part [] (map (part cls) (c_fields (table c))) ->
     forall j, tree cls0 table0 c0 j -> tree cls table c j) ->
  In (Ask cls c, a) (run cls cls_dec table version digest limit others never writes (mkWorld cls [] d off 0) h) ->
  exists j, a = Some (Ok j) /\ tree cls table c j.
Proof.
  intros cls cls0 cls_dec table table0 version version0 digest limit dp others writes off d h c a R L INJ O F -> S.
  apply (C106_every_answer cls cls_dec table version0 digest limit dp others writes off d h c a R L O).
  intros c' t G. apply dget_In in G. destruct (F _ _ G) as (c0 & E & (j & T & Q)). unfold path in E. apply app_same_tail in E as [E E2].
  - apply app_inv_head, app_inv_head, app_inv_head in E2. apply app_inv_tail in E2. unfold fingerprint in E2. apply INJ in E2. exists j. split; [|exact Q]. apply (S c0 c'); auto.
  - unfold fingerprint. rewrite !app_length, !L. reflexivity.
Qed.
(** A file that loads is believed. *)
Lemma believed : forall (cls : Type) cls_dec (table : cls -> class cls) version digest limit writes d c l, good (JObj l) -> dget text_dec (path cls table version digest c) d = Some (dumps false (txt "  ") (JObj l)) ->
  run cls cls_dec table version digest (S limit) quiet never writes (mkWorld cls [] d false 0) [Ask cls c] = [(Ask cls c, Some (Ok (JObj l)))].
Proof.
  intros cls cls_dec table version digest limit writes d c l G E. cbn [run step get w_mem dget w_off]. unfold load. cbn [never w_clock]. unfold tick. cbn [w_disk w_clock quiet fold_left].
  rewrite E, (loads_dumps false (txt "  ") (JObj l) blanks_ws G). reflexivity.
Qed.
(** As a class's fingerprint does not cover the classes of its fields, a field added to a person is missed in every station, after a release,
    as long as the old file is there: whatever the digest. *)
Theorem C106_nested_change_refuted : forall digest, exists w a, 
  step ex ex_dec table1 (txt "2.7") digest 10 quiet never whole empty (Ask ex Station) = (w, a) /\
  run ex ex_dec table2 (txt "2.7") digest 10 quiet never whole (mkWorld ex [] (w_disk ex w) false 0) [Ask ex Station] = [(Ask ex Station, Some (Ok station1))] /\
  tree ex table2 Station station2 /\ station1 <> station2.
Proof.
  intro digest. destruct (step ex ex_dec table1 (txt "2.7") digest 10 quiet never whole empty (Ask ex Station)) as [w a] eqn:E. exists w, a. split; [reflexivity|].
  split; [|split; [exact tree_station2|discriminate]].
  assert (D : w_disk ex w = [(path ex table1 (txt "2.7") digest Person, dumps false (txt "  ") person1); (path ex table1 (txt "2.7") digest Station, dumps false (txt "  ") station1)]).
  { apply (f_equal fst) in E. cbn [fst] in E. rewrite <- E. vm_compute. reflexivity. }
  rewrite D. apply believed.
  - apply (tree_good ex table1 10 depth regular1 Station station1 tree_station1).
  - cbn [dget]. destruct (text_dec _ _) as [X|X]; [exfalso; vm_compute in X; discriminate|].
    destruct (text_dec _ _) as [Y|Y]; [reflexivity|]. exfalso. apply Y. reflexivity.
Qed.
(** Nor does it cover the descriptions. *)
Theorem C106_description_change_refuted : forall digest, exists w a, 
  step ex ex_dec table1 (txt "2.7") digest 10 quiet never whole empty (Ask ex Person) = (w, a) /\
  run ex ex_dec table3 (txt "2.7") digest 10 quiet never whole (mkWorld ex [] (w_disk ex w) false 0) [Ask ex Person] = [(Ask ex Person, Some (Ok person1))] /\
  tree ex table3 Person person3 /\ person1 <> person3.
Proof.
  intro digest. destruct (step ex ex_dec table1 (txt "2.7") digest 10 quiet never whole empty (Ask ex Person)) as [w a] eqn:E. exists w, a. split; [reflexivity|].
  split; [|split; [exact tree_person3|discriminate]].
  assert (D : w_disk ex w = [(path ex table1 (txt "2.7") digest Person, dumps false (txt "  ") person1)]).
  { apply (f_equal fst) in E. cbn [fst] in E. rewrite <- E. vm_compute. reflexivity. }
  rewrite D. apply believed.
  - apply (tree_good ex table1 10 depth regular1 Person person1 tree_person1).
  - cbn [dget]. destruct (text_dec _ _) as [Y|Y]; [reflexivity|]. exfalso. apply Y. reflexivity.
Qed.
(** An exception while a person is computed (here at step 1): from then on a person has no fields, and a station asked for meanwhile is written to
    disk without those of its author, for later processes to believe. *)
Definition once (n : nat) : option exn := if Nat.eqb n 1 then Some TypeError else None.
Definition hollow_station : json := JObj [(txt "id", summary "name of the station"); (txt "author", JObj [])].
Theorem C106_interrupted_refuted :
  run ex ex_dec table1 (txt "2.7") zeros 10 quiet once whole empty [Ask ex Person; Ask ex Person; Ask ex Station; Start ex false; Ask ex Person; Ask ex Station] =
  [(Ask ex Person, Some (Err TypeError)); (Ask ex Person, Some (Ok (JObj []))); (Ask ex Station, Some (Ok hollow_station)); (Start ex false, None);
   (Ask ex Person, Some (Ok person1)); (Ask ex Station, Some (Ok hollow_station))] /\ ~ tree ex table1 Station hollow_station.
Proof.
  split; [vm_compute; reflexivity|]. intro T. pose proof (tree_unique ex table1 Station _ T _ tree_station1) as E. discriminate.
Qed.
(** Classes that contain each other: the answer depends on which was asked for first. *)
Definition ring (c : ex) : class ex :=
  match c with
  | Person => mkClass (txt "mt.Person") [mkField (txt "home") None (txt "mt.Station") (txt "None") (txt "{}") (Class Station)]
  | Station => mkClass (txt "mt.Station") [mkField (txt "author") None (txt "mt.Person") (txt "None") (txt "{}") (Class Person)]
  end.
Theorem C106_cyclic_refuted :
  run ex ex_dec ring (txt "2.7") zeros 10 quiet never whole (mkWorld ex [] [] true 0) [Ask ex Person; Clear ex; Ask ex Station; Ask ex Person] =
  [(Ask ex Person, Some (Ok (JObj [(txt "home", JObj [(txt "author", JObj [])])]))); (Clear ex, None); (Ask ex Station, Some (Ok (JObj [(txt "author", JObj [(txt "home", JObj [])])])));
   (Ask ex Person, Some (Ok (JObj [(txt "home", JObj [])])))].
Proof. vm_compute. reflexivity. Qed.

(** A history with a write cut short, a file another process is writing, a write that fails and a new process. *)
Definition ex_path := path ex table1 (txt "2.7") zeros.
Definition busy_disk (n : nat) : list (text * option text) :=
  if Nat.eqb n 5 then [(ex_path Person, Some (repeat nul 7 ++ skipn 7 (dumps false (txt "  ") person1)))] else if Nat.eqb n 9 then [(ex_path Station, None)] else [].
Definition some_writes (n : nat) : written := if Nat.eqb n 3 then Cut 20 else if Nat.eqb n 4 then Untouched else Whole.
Definition ex_history : list (event ex) := [Ask ex Station; Start ex false; Ask ex Person; Clear ex; Ask ex Station; Ask ex Person; Start ex true; Ask ex Station].
Example C106_answers_hyp : regular ex table1 10 depth /\ (forall x, List.length (zeros x) = 64) /\
  (forall n c t, In (path ex table1 (txt "2.7") zeros c, Some t) (busy_disk n) -> copy_of ex table1 c t) /\
  (forall c t, dget text_dec (path ex table1 (txt "2.7") zeros c) [(ex_path Person, firstn 9 (dumps false (txt "  ") person1))] = Some t -> copy_of ex table1 c t) /\
  map snd (run ex ex_dec table1 (txt "2.7") zeros 10 busy_disk never some_writes (mkWorld ex [] [(ex_path Person, firstn 9 (dumps false (txt "  ") person1))] false 0) ex_history) =
  [Some (Ok station1); None; Some (Ok person1); None; Some (Ok station1); Some (Ok person1); None; Some (Ok station1)].
Proof.
  assert (PI : forall a b, path ex table1 (txt "2.7") zeros a = path ex table1 (txt "2.7") zeros b -> a = b) by (intros a b; apply (path_inj ex table1 (txt "2.7") zeros 10 depth regular1); reflexivity).
  split; [exact regular1|]. split; [reflexivity|]. split; [|split].
  - intros n c t I. unfold busy_disk in I. destruct (Nat.eqb n 5).
    + destruct I as [I|[]]. injection I as E <-. assert (c = Person) by (apply PI; symmetry; exact E). subst c. exists person1. split; [exact tree_person1|]. split; [vm_compute; lia|].
      intros i ch. assert (Q : forall full k i ch, nth_error (repeat nul k ++ skipn k full) i = Some ch -> ch = nul \/ nth_error full i = Some ch).
      { clear. induction full as [|a full IH]; intros k i ch N.
        - rewrite skipn_nil, app_nil_r in N. left. apply nth_error_In in N. apply repeat_spec in N. exact N.
        - destruct k as [|k]; [right; exact N|]. cbn [repeat skipn app] in N. destruct i as [|i]; cbn [nth_error] in *; [left; congruence|]. apply IH with k. exact N. }
      exact (Q (dumps false (txt "  ") person1) 7 i ch).
    + destruct (Nat.eqb n 9); [|destruct I]. destruct I as [I|[]]. discriminate.
  - intros c t G. cbn [dget] in G. destruct (text_dec (path ex table1 (txt "2.7") zeros c) (ex_path Person)) as [E|E]; [|discriminate]. apply PI in E. subst c. injection G as <-. exists person1. split; [exact tree_person1|exact (torn_firstn 9 (dumps false (txt "  ") person1))].
  - vm_compute. reflexivity.
Qed.

(** ** C107 *)
(** The dictionary of all fields: a dotted name is in it, with its summary, exactly if it is the name of a simple field of the class, or of a class in
    it, and so on, none of the fields on the way deprecated; each once. *)
Theorem C107_all_fields : forall (cls : Type) (table : cls -> class cls) c j,
  (forall c, NoDup (map f_name (c_fields (table c)))) ->
  (forall c f, In f (c_fields (table c)) -> f_name f <> [] /\ ~ In "."%char (f_name f)) ->
  (forall c f s, In f (c_fields (table c)) -> f_kind f = Simple s -> exists l, s = JObj l /\ dget text_dec (txt "__field__") l = Some (JBool true)) ->
  tree cls table c j ->
  (forall q s, dget text_dec q (all_fields j) = Some s <-> exists names, field_at table c names s /\ q = join (txt ".") names) /\ NoDup (map fst (all_fields j)).
Proof.
  intros cls table c j N P S T. split; [|apply flatten_nodup]. apply (fields_spec cls table N P); [|exact T].
  intros c' f s I K. destruct (S _ _ _ I K) as (l & -> & E). cbn [is_leaf]. rewrite E. reflexivity.
Qed.
(** Different fields have different dotted names. *)
Theorem C107_names_differ : forall (cls : Type) (table : cls -> class cls) c a b s s',
  (forall c, NoDup (map f_name (c_fields (table c)))) ->
  (forall c f, In f (c_fields (table c)) -> f_name f <> [] /\ ~ In "."%char (f_name f)) ->
  field_at table c a s -> field_at table c b s' -> join (txt ".") a = join (txt ".") b -> a = b.
Proof.
  intros cls table c a b s s' N P A B E. apply (at_names_inj a b); [| |exact E].
  - clear -P A. induction A as [c f s I D K|c f d names s I D K F IH]; constructor; [exact (P _ _ I)|constructor|exact (P _ _ I)|exact IH].
  - clear -P B. induction B as [c f s I D K|c f d names s I D K F IH]; constructor; [exact (P _ _ I)|constructor|exact (P _ _ I)|exact IH].
Qed.
Example C107_all_fields_hyp : tree ex table1 Station station1 /\ all_fields station1 = [(txt "id", summary "name of the station"); (txt "author.name", summary "full name")] /\
  field_at table1 Station [txt "author"; txt "name"] (summary "full name").
Proof.
  split; [exact tree_station1|]. split; [vm_compute; reflexivity|]. change (txt "author") with (f_name (mkField (txt "author") None (txt "<class 'mt.Person'>") (txt "PydanticUndefined") (txt "{}") (@Class ex Person))).
  eapply field_nested; [right; left; reflexivity|reflexivity|reflexivity|]. change (txt "name") with (f_name (str_field "name" "full name")). apply field_simple; [left; reflexivity|reflexivity|reflexivity].
Qed.

Print Assumptions C106_answers.
Print Assumptions C107_all_fields.
