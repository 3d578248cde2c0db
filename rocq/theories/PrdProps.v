(** C148: reading and writing elements of EMTF XML, and what is left of what they are given. *)
From Coq Require Import ZArith QArith Lia.
From Verif Require Import PyBase PyFacts PyText TextFacts PrdModel PrdSpec.
Local Open Scope list_scope.

Lemma pop_get (p : contents) o key k : NoDup (dkeys p) -> dget text_dec k (fst (pop_one (p, o) key)) = if text_dec k key then None else dget text_dec k p.
Proof.
  intros N. unfold pop_one. destruct (dget text_dec key p) as [v|] eqn:E; cbn [fst]; destruct (text_dec k key) as [->|D].
  - apply (dget_ddel_eq text_dec). exact N.
  - apply (dget_ddel_neq text_dec). exact D.
  - exact E.
  - reflexivity.
Qed.
Lemma pop_nodup (p : contents) o key : NoDup (dkeys p) -> NoDup (dkeys (fst (pop_one (p, o) key))).
Proof. intros N. unfold pop_one. destruct (dget text_dec key p); [apply (NoDup_ddel text_dec); exact N|exact N]. Qed.
Lemma set_get (p : contents) : NoDup (dkeys p) -> forall (o : contents) k, dget text_dec k (fold_left (fun acc kv => dset text_dec (fst kv) (snd kv) acc) p o) = match dget text_dec k p with Some v => Some v | None => dget text_dec k o end.
Proof.
  unfold dkeys. induction p as [|[a v] p IH]; intros N o k; [reflexivity|]. cbn [map fst] in N. inversion N as [|x y NI ND]; subst. cbn [fold_left fst snd]. rewrite IH by exact ND. cbn [dget]. destruct (text_dec k a) as [->|D].
  - assert (E : dget text_dec a p = None) by (apply dget_None; exact NI). rewrite E. rewrite (dget_dset text_dec). destruct (text_dec a a); [reflexivity|congruence].
  - destruct (dget text_dec k p); [reflexivity|]. rewrite (dget_dset text_dec). destruct (text_dec k a); [congruence|reflexivity].
Qed.
Definition or_else (a b : option text) : option text := match a with Some v => Some v | None => b end.
Lemma fold_spec (p : contents) o : NoDup (dkeys p) -> let '(p', o') := fold_left pop_one section_keys (ddel text_dec (txt "field_notes") p, o) in
  NoDup (dkeys p') /\ (forall k, taken k -> dget text_dec k p' = None) /\ (forall k, ~ taken k -> dget text_dec k p' = dget text_dec k p)
  /\ remote_ref o' = or_else (dget text_dec (txt "remote_ref") p) (remote_ref o) /\ remote_info o' = or_else (dget text_dec (txt "remote_info") p) (remote_info o) /\ processing_software o' = or_else (dget text_dec (txt "processing_software") p) (processing_software o) /\ others o' = others o.
Proof.
  intros N. cbn [section_keys fold_left]. set (p0 := ddel text_dec (txt "field_notes") p). assert (N0 : NoDup (dkeys p0)) by (apply (NoDup_ddel text_dec); exact N).
  assert (G0 : forall k, dget text_dec k p0 = if text_dec k (txt "field_notes") then None else dget text_dec k p). { intros k. destruct (text_dec k (txt "field_notes")) as [->|D]; [apply (dget_ddel_eq text_dec); exact N|apply (dget_ddel_neq text_dec); exact D]. }
  destruct (pop_one (p0, o) (txt "remote_ref")) as [p1 o1] eqn:E1. destruct (pop_one (p1, o1) (txt "remote_info")) as [p2 o2] eqn:E2. destruct (pop_one (p2, o2) (txt "processing_software")) as [p3 o3] eqn:E3.
  assert (N1 : NoDup (dkeys p1)) by (change p1 with (fst (p1, o1)); rewrite <- E1; apply pop_nodup; exact N0).
  assert (N2 : NoDup (dkeys p2)) by (change p2 with (fst (p2, o2)); rewrite <- E2; apply pop_nodup; exact N1).
  assert (N3 : NoDup (dkeys p3)) by (change p3 with (fst (p3, o3)); rewrite <- E3; apply pop_nodup; exact N2).
  assert (G1 : forall k, dget text_dec k p1 = if text_dec k (txt "remote_ref") then None else dget text_dec k p0) by (intros k; change p1 with (fst (p1, o1)); rewrite <- E1; apply pop_get; exact N0).
  assert (G2 : forall k, dget text_dec k p2 = if text_dec k (txt "remote_info") then None else dget text_dec k p1) by (intros k; change p2 with (fst (p2, o2)); rewrite <- E2; apply pop_get; exact N1).
  assert (G3 : forall k, dget text_dec k p3 = if text_dec k (txt "processing_software") then None else dget text_dec k p2) by (intros k; change p3 with (fst (p3, o3)); rewrite <- E3; apply pop_get; exact N2).
  split; [exact N3|]. split; [|split; [|]].
  - intros k [[<-|[<-|[<-|[]]]]| ->]; rewrite G3, G2, G1, G0; reflexivity.
  - intros k K. rewrite G3, G2, G1, G0. destruct (text_dec k (txt "processing_software")) as [->|_]; [exfalso; apply K; left; cbn; auto|]. destruct (text_dec k (txt "remote_info")) as [->|_]; [exfalso; apply K; left; cbn; auto|]. destruct (text_dec k (txt "remote_ref")) as [->|_]; [exfalso; apply K; left; cbn; auto|]. destruct (text_dec k (txt "field_notes")) as [->|_]; [exfalso; apply K; right; reflexivity|reflexivity].
  - unfold pop_one in E1, E2, E3. rewrite G0 in E1. destruct (text_dec (txt "remote_ref") (txt "field_notes")) as [X|_]; [discriminate X|].
    rewrite G1, G0 in E2. destruct (text_dec (txt "remote_info") (txt "remote_ref")) as [X|_]; [discriminate X|]. destruct (text_dec (txt "remote_info") (txt "field_notes")) as [X|_]; [discriminate X|].
    rewrite G2, G1, G0 in E3. destruct (text_dec (txt "processing_software") (txt "remote_info")) as [X|_]; [discriminate X|]. destruct (text_dec (txt "processing_software") (txt "remote_ref")) as [X|_]; [discriminate X|]. destruct (text_dec (txt "processing_software") (txt "field_notes")) as [X|_]; [discriminate X|].
    destruct (dget text_dec (txt "remote_ref") p); injection E1 as _ <-; destruct (dget text_dec (txt "remote_info") p); injection E2 as _ <-; destruct (dget text_dec (txt "processing_software") p); injection E3 as _ <-; repeat split.
Qed.

(** Sections go to their readers, what is left to the other attributes, field notes nowhere; what the dictionary does not have stays as it was. *)
Theorem C148_read (d : root) o (p : contents) : dget text_dec (txt "processing_info") d = Some p -> NoDup (dkeys p) -> let o' := snd (read_dict d o) in
  remote_ref o' = (match dget text_dec (txt "remote_ref") p with Some v => Some v | None => remote_ref o end) /\ remote_info o' = (match dget text_dec (txt "remote_info") p with Some v => Some v | None => remote_info o end)
  /\ processing_software o' = (match dget text_dec (txt "processing_software") p with Some v => Some v | None => processing_software o end)
  /\ (forall k, ~ taken k -> dget text_dec k (others o') = match dget text_dec k p with Some v => Some v | None => dget text_dec k (others o) end) /\ (forall k, taken k -> dget text_dec k (others o') = dget text_dec k (others o)).
Proof.
  intros D N. cbn zeta. unfold read_dict. rewrite D. pose proof (fold_spec p o N) as F. destruct (fold_left pop_one section_keys _) as [p' o']. destruct F as (N' & T & U & A & B & C & O). cbn [snd read_rest remote_ref remote_info processing_software others].
  split; [exact A|]. split; [exact B|]. split; [exact C|]. split; intros k K; rewrite set_get by exact N'; rewrite O; [rewrite U by exact K|rewrite T by exact K]; reflexivity.
Qed.
(** Without the element nothing happens. *)
Theorem C148_missing (d : root) o : dget text_dec (txt "processing_info") d = None -> read_dict d o = (d, o).
Proof. intros D. unfold read_dict. rewrite D. reflexivity. Qed.
(** The dictionary loses its sections and field notes; everything else in it stays. *)
Theorem C148_dictionary (d : root) o (p : contents) : dget text_dec (txt "processing_info") d = Some p -> NoDup (dkeys p) -> let d' := fst (read_dict d o) in
  (forall e, e <> txt "processing_info" -> dget text_dec e d' = dget text_dec e d) /\ exists p', dget text_dec (txt "processing_info") d' = Some p' /\ NoDup (dkeys p') /\ forall k, (taken k -> dget text_dec k p' = None) /\ (~ taken k -> dget text_dec k p' = dget text_dec k p).
Proof.
  intros D N. cbn zeta. unfold read_dict. rewrite D. pose proof (fold_spec p o N) as F. destruct (fold_left pop_one section_keys _) as [p' o']. destruct F as (N' & T & U & _). cbn [fst]. split.
  - intros e E. rewrite (dget_dset text_dec). destruct (text_dec e (txt "processing_info")); [congruence|reflexivity].
  - exists p'. split; [rewrite (dget_dset text_dec); destruct (text_dec (txt "processing_info") (txt "processing_info")); [reflexivity|congruence]|]. split; [exact N'|]. intros k. split; [apply T|apply U].
Qed.
(** So a second object read from the same dictionary has none of the sections, whatever was in them. *)
Theorem C148_second_object_refuted (d : root) (p : contents) v o : dget text_dec (txt "processing_info") d = Some p -> NoDup (dkeys p) -> dget text_dec (txt "remote_ref") p = Some v ->
  remote_ref (snd (read_dict d new_info)) = Some v /\ let second := snd (read_dict (fst (read_dict d o)) new_info) in remote_ref second = None /\ remote_info second = None /\ processing_software second = None.
Proof.
  intros D N R. split.
  - destruct (C148_read d new_info p D N) as (A & _). rewrite A, R. reflexivity.
  - destruct (C148_dictionary d o p D N) as (_ & p' & D' & N' & K). cbn zeta. destruct (C148_read _ new_info p' D' N') as (A & B & C & _). rewrite A, B, C.
    destruct (K (txt "remote_ref")) as [K1 _]. destruct (K (txt "remote_info")) as [K2 _]. destruct (K (txt "processing_software")) as [K3 _]. rewrite K1 by (left; cbn; auto). rewrite K2 by (left; cbn; auto). rewrite K3 by (left; cbn; auto). repeat split.
Qed.
(** Read again into the same object nothing is lost. *)
Theorem C148_same_object (d : root) o (p : contents) : dget text_dec (txt "processing_info") d = Some p -> NoDup (dkeys p) -> let first := read_dict d o in let again := snd (read_dict (fst first) (snd first)) in
  remote_ref again = remote_ref (snd first) /\ remote_info again = remote_info (snd first) /\ processing_software again = processing_software (snd first) /\ forall k, dget text_dec k (others again) = dget text_dec k (others (snd first)).
Proof.
  intros D N. cbn zeta. destruct (C148_dictionary d o p D N) as (_ & p' & D' & N' & K). destruct (C148_read _ (snd (read_dict d o)) p' D' N') as (A & B & C & O1 & O2). destruct (C148_read d o p D N) as (_ & _ & _ & P1 & _). cbn zeta in *.
  destruct (K (txt "remote_ref")) as [K1 _]. destruct (K (txt "remote_info")) as [K2 _]. destruct (K (txt "processing_software")) as [K3 _]. rewrite K1 in A by (left; cbn; auto). rewrite K2 in B by (left; cbn; auto). rewrite K3 in C by (left; cbn; auto).
  split; [exact A|]. split; [exact B|]. split; [exact C|]. intros k.
  assert (X : {taken k} + {~ taken k}). { unfold taken, section. destruct (in_dec text_dec k [txt "remote_ref"; txt "remote_info"; txt "processing_software"]) as [I|I]; [left; left; exact I|]. destruct (text_dec k (txt "field_notes")) as [->|F]; [left; right; reflexivity|right; intros [T|T]; [exact (I T)|exact (F T)]]. }
  destruct X as [T|T]; [apply O2; exact T|]. rewrite O1 by exact T. destruct (K k) as [_ K4]. rewrite K4 by exact T. rewrite (P1 k T). destruct (dget text_dec k p); reflexivity.
Qed.
(** A written site never ends before it starts, and writing it again gives the same. *)
Theorem C148_site s : let '(s', (a, b)) := site_to_xml s in a = start s /\ b = Z.max (start s) (end_ s) /\ start s' = a /\ end_ s' = b /\ site_to_xml s' = (s', (a, b)).
Proof. unfold site_to_xml. destruct (Z.ltb_spec (end_ s) (start s)); cbn [start end_]; [rewrite Z.ltb_irrefl|destruct (Z.ltb_spec (end_ s) (start s)); [lia|]]; repeat split; cbn [start end_]; lia. Qed.
(** Writing changes the site exactly if it ends before it starts. *)
Theorem C148_site_changed_refuted s : fst (site_to_xml s) <> s <-> (end_ s < start s)%Z.
Proof. unfold site_to_xml. destruct s as [a b]. cbn [start end_]. destruct (Z.ltb_spec b a); cbn [fst]; split; intros H0; try lia; try congruence. intros E. injection E as E. lia. Qed.
(** An orthogonal layout is written with its angle, 0 if there is none; others without. *)
Theorem C148_orientation o : fst (snd (orientation_to_xml o)) = layout o /\ (layout o = txt "orthogonal" -> snd (snd (orientation_to_xml o)) = Some (match angle o with Some a => a | None => 0%Q end)) /\ (layout o <> txt "orthogonal" -> snd (snd (orientation_to_xml o)) = None)
  /\ snd (orientation_to_xml (fst (orientation_to_xml o))) = snd (orientation_to_xml o).
Proof.
  unfold orientation_to_xml. destruct o as [l a]. cbn [layout angle]. destruct (text_dec l (txt "orthogonal")) as [->|N].
  - destruct a as [a|]; cbn [fst snd layout angle]; (split; [reflexivity|]; split; [reflexivity|]; split; [congruence|]; destruct (text_dec (txt "orthogonal") (txt "orthogonal")); [reflexivity|congruence]).
  - cbn [fst snd layout]. split; [reflexivity|]. split; [congruence|]. split; [reflexivity|]. destruct (text_dec l (txt "orthogonal")); [congruence|reflexivity].
Qed.
(** Writing gives an orthogonal layout without an angle the angle 0. *)
Theorem C148_orientation_changed_refuted o : fst (orientation_to_xml o) <> o <-> layout o = txt "orthogonal" /\ angle o = None.
Proof.
  unfold orientation_to_xml. destruct o as [l a]. cbn [layout angle]. destruct (text_dec l (txt "orthogonal")) as [->|N].
  - destruct a as [a|]; cbn [fst]; split; intros H; try congruence; [destruct H; discriminate|split; reflexivity].
  - cbn [fst]. split; [congruence|intros [X _]; congruence].
Qed.

Example C148_hyp : let p := [(txt "processed_by", txt "me"); (txt "remote_ref", txt "robust"); (txt "field_notes", txt "n"); (txt "processing_software", txt "EMTF")] in let d := [(txt "site", []); (txt "processing_info", p)] in
  dget text_dec (txt "processing_info") d = Some p /\ NoDup (dkeys p) /\ read_dict d new_info = ([(txt "site", []); (txt "processing_info", [(txt "processed_by", txt "me")])], mkInfo (Some (txt "robust")) None (Some (txt "EMTF")) [(txt "processed_by", txt "me")]).
Proof. cbn zeta. split; [vm_compute; reflexivity|]. split; [|vm_compute; reflexivity]. repeat (constructor; [cbn; intros H; decompose [or] H; try discriminate; contradiction|]). constructor. Qed.

Print Assumptions C148_read.
Print Assumptions C148_same_object.
