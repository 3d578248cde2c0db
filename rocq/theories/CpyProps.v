(** C146: copies of metadata objects. *)
From Verif Require Import PyBase PyFacts PyText TextFacts CpyModel CpySpec.
From Coq Require Import Lia.
Local Open Scope list_scope.
Local Open Scope nat_scope.

Definition like (n0 : nat) (h h' : memory) (a b : text * value) : Prop :=
  fst a = fst b /\ match snd a with Obj l => exists l', snd b = Obj l' /\ n0 <= l' < length h' /\ nth l' h' [] = nth l h [] | v => snd b = v end.
Definition good_memo (n0 : nat) (h : memory) (memo : list (nat * nat)) : Prop := forall l l', In (l, l') memo -> n0 <= l' < length h /\ nth l' h [] = nth l h [].
Lemma deep_copy_like o : forall n0 h memo h' c, n0 <= length h -> (forall k l, In (k, Obj l) o -> l < n0) -> (forall l l', In (l, l') memo -> l < n0) -> good_memo n0 h memo -> deep_copy h memo o = inl (h', c) ->
  (exists e, h' = h ++ e) /\ Forall2 (like n0 h h') o c.
Proof.
  induction o as [|[k v] o IH]; intros n0 h memo h' c N W ML G E; cbn [deep_copy] in E.
  - injection E as <- <-. split; [exists []; rewrite app_nil_r; reflexivity|constructor].
  - assert (W' : forall k l, In (k, Obj l) o -> l < n0) by (intros k0 l I; apply (W k0); right; exact I).
    destruct v as [|p|l|p b]; [| |destruct (List.find (fun m => Nat.eqb (fst m) l) memo) as [[l0 l']|] eqn:F|discriminate E].
    + destruct (deep_copy h memo o) as [[h1 c1]|] eqn:D; [|discriminate E]. injection E as <- <-. destruct (IH n0 h memo h1 c1 N W' ML G D) as [X Y]. split; [exact X|]. constructor; [split; reflexivity|exact Y].
    + destruct (deep_copy h memo o) as [[h1 c1]|] eqn:D; [|discriminate E]. injection E as <- <-. destruct (IH n0 h memo h1 c1 N W' ML G D) as [X Y]. split; [exact X|]. constructor; [split; reflexivity|exact Y].
    + destruct (deep_copy h memo o) as [[h1 c1]|] eqn:D; [|discriminate E]. injection E as <- <-. destruct (IH n0 h memo h1 c1 N W' ML G D) as [[e X] Y]. split; [exists e; exact X|]. constructor; [|exact Y].
      apply List.find_some in F as [F1 F2]. cbn [fst] in F2. apply Nat.eqb_eq in F2. subst l0. destruct (G l l' F1) as [G1 G2]. split; [reflexivity|]. cbn [snd]. exists l'. split; [reflexivity|]. rewrite X, app_length, app_nth1 by lia. split; [lia|exact G2].
    + destruct (deep_copy (h ++ [nth l h []]) ((l, length h) :: memo) o) as [[h1 c1]|] eqn:D; [|discriminate E]. injection E as <- <-.
      assert (Ll : l < n0) by (apply (W k); left; reflexivity).
      assert (G' : good_memo n0 (h ++ [nth l h []]) ((l, length h) :: memo)).
      { intros a b [I|I].
        - injection I as <- <-. split; [rewrite app_length; cbn [length]; lia|]. rewrite (app_nth1 h _ [] (n:=l)) by lia. rewrite app_nth2 by lia. rewrite Nat.sub_diag. reflexivity.
        - destruct (G a b I) as [G1 G2]. pose proof (ML a b I). rewrite app_length. cbn [length]. rewrite !app_nth1 by lia. split; [lia|exact G2]. }
      destruct (IH n0 (h ++ [nth l h []]) ((l, length h) :: memo) h1 c1 ltac:(rewrite app_length; lia) W' ltac:(intros a b [I|I]; [injection I as <- <-; exact Ll|exact (ML a b I)]) G' D) as [[e X] Y].
      split; [exists ([nth l h []] ++ e); rewrite app_assoc; exact X|]. constructor.
      * split; [reflexivity|]. cbn [snd]. exists (length h). split; [reflexivity|]. rewrite X, !app_length. cbn [length]. rewrite <- app_assoc, app_nth2, Nat.sub_diag by lia. cbn [app nth]. split; [lia|reflexivity].
      * clear - Y W' N. induction Y as [|[ka va] [kb vb] o c1 [K V] Y IH']; [constructor|]. constructor; [|apply IH'; intros k0 l0 I; apply (W' k0); right; exact I]. split; [exact K|]. cbn [snd] in *. destruct va as [|p|la|p b]; try exact V.
        destruct V as (l' & V1 & V2 & V3). exists l'. split; [exact V1|]. split; [exact V2|]. rewrite V3. apply app_nth1. assert (la < n0) by (apply (W' ka); left; reflexivity). lia.
Qed.
Lemma deep_copy_ok o : copyable o -> forall h memo, exists r, deep_copy h memo o = inl r.
Proof.
  induction o as [|[k v] o IH]; intros C h memo; [exists (h, []); reflexivity|]. assert (C' : copyable o) by (intros k0 p b I; apply (C k0 p b); right; exact I). cbn [deep_copy].
  destruct v as [|p|l|p b].
  - destruct (IH C' h memo) as [[h' r] E]. rewrite E. eexists. reflexivity.
  - destruct (IH C' h memo) as [[h' r] E]. rewrite E. eexists. reflexivity.
  - destruct (List.find _ memo) as [[a l']|]; [destruct (IH C' h memo) as [[h' r] E]|destruct (IH C' (h ++ [nth l h []]) ((l, length h) :: memo)) as [[h' r] E]]; rewrite E; eexists; reflexivity.
  - exfalso. exact (C k p b (or_introl eq_refl)).
Qed.
Lemma deep_copy_fails o : (exists k p b, In (k, Uncopyable p b) o) -> forall h memo, exists b, deep_copy h memo o = inr b /\ exists k p, In (k, Uncopyable p b) o.
Proof.
  induction o as [|[k v] o IH]; intros (k0 & p0 & b0 & I) h memo; [destruct I|]. cbn [deep_copy]. destruct v as [|p|l|p b].
  - destruct I as [I|I]; [discriminate I|]. destruct (IH (ex_intro _ k0 (ex_intro _ p0 (ex_intro _ b0 I))) h memo) as (b & E & k1 & p1 & J). rewrite E. exists b. split; [reflexivity|]. exists k1, p1. right. exact J.
  - destruct I as [I|I]; [discriminate I|]. destruct (IH (ex_intro _ k0 (ex_intro _ p0 (ex_intro _ b0 I))) h memo) as (b & E & k1 & p1 & J). rewrite E. exists b. split; [reflexivity|]. exists k1, p1. right. exact J.
  - destruct I as [I|I]; [discriminate I|]. pose proof (IH (ex_intro _ k0 (ex_intro _ p0 (ex_intro _ b0 I)))) as H. destruct (List.find _ memo) as [[a l']|]; [destruct (H h memo) as (b & E & k1 & p1 & J)|destruct (H (h ++ [nth l h []]) ((l, length h) :: memo)) as (b & E & k1 & p1 & J)]; rewrite E; (exists b; split; [reflexivity|]; exists k1, p1; right; exact J).
  - exists b. split; [reflexivity|]. exists k, p. left. reflexivity.
Qed.
Lemma like_dget n0 h h' o c : Forall2 (like n0 h h') o c -> forall k, match dget text_dec k o with Some (Obj l) => exists l', dget text_dec k c = Some (Obj l') /\ n0 <= l' < length h' /\ nth l' h' [] = nth l h [] | x => dget text_dec k c = x end.
Proof.
  intros F k. induction F as [|[ka va] [kb vb] o c [K V] F IH]; [reflexivity|]. cbn [fst snd] in *. subst kb. cbn [dget]. destruct (text_dec k ka) as [->|N]; [|exact IH]. destruct va as [|p|l|p b]; try (subst vb; reflexivity). destruct V as (l' & -> & V). exists l'. split; [reflexivity|exact V].
Qed.
Lemma set_all_dget u : NoDup (map fst u) -> forall o k, dget text_dec k (set_all u o) = match dget text_dec k u with Some v => Some v | None => dget text_dec k o end.
Proof.
  unfold set_all. induction u as [|[a v] u IH]; intros N o k; [reflexivity|]. cbn [map fst] in N. inversion N as [|x y NI ND]; subst. cbn [fold_left fst snd]. rewrite IH by exact ND. cbn [dget]. destruct (text_dec k a) as [->|D].
  - assert (E : dget text_dec a u = None) by (apply dget_None; exact NI). rewrite E. rewrite (dget_dset text_dec). destruct (text_dec a a); [reflexivity|congruence].
  - destruct (dget text_dec k u); [reflexivity|]. rewrite (dget_dset text_dec). destruct (text_dec k a); [congruence|reflexivity].
Qed.
Lemma full_nodup o u deep : NoDup (map fst u) -> NoDup (map fst (full_update o u deep)).
Proof.
  intros N. assert (S : forall k (v : value) u, NoDup (map fst u) -> NoDup (map fst (dset text_dec k v u))).
  { clear. intros k v u. induction u as [|[a w] u IH]; intros N; cbn [dset]; [repeat constructor; intros []|]. cbn [map fst] in N. inversion N as [|x y NI ND]; subst. destruct (text_dec k a) as [->|D]; [exact N|]. cbn [map fst]. constructor; [|apply IH; exact ND].
    intros I. apply NI. apply in_map_iff in I as ([b w'] & <- & I). cbn [fst] in *. clear - I D. induction u as [|[c z] u IH]; cbn [dset] in I; [destruct I as [I|[]]; injection I as <- <-; congruence|]. destruct (text_dec k c) as [->|D'].
    - destruct I as [I|I]; [injection I as <- <-; congruence|right; apply in_map_iff; exists (b, w'); split; [reflexivity|exact I]].
    - destruct I as [I|I]; [injection I as <- <-; left; reflexivity|right; exact (IH I)]. }
  unfold full_update. destruct deep, (held o (txt "hdf5_reference")), (held o (txt "mth5_type")); try apply S; try apply S; exact N.
Qed.
Lemma full_dget o u deep k : dget text_dec k (full_update o u deep) =
  match (if text_dec k (txt "mth5_type") then held o k else None) with Some v => Some v | None => match (if text_dec k (txt "hdf5_reference") then (if deep then held o k else None) else None) with Some _ => Some VNone | None => dget text_dec k u end end.
Proof.
  unfold full_update. destruct (text_dec k (txt "mth5_type")) as [->|D].
  - destruct (text_dec (txt "mth5_type") (txt "hdf5_reference")) as [X|_]; [discriminate X|]. destruct (held o (txt "mth5_type")) as [v|].
    + rewrite (dget_dset text_dec). destruct (text_dec (txt "mth5_type") (txt "mth5_type")); [reflexivity|congruence].
    + destruct deep; [|reflexivity]. destruct (held o (txt "hdf5_reference")); [|reflexivity]. rewrite (dget_dset text_dec). destruct (text_dec (txt "mth5_type") (txt "hdf5_reference")) as [X|_]; [discriminate X|reflexivity].
  - assert (E : dget text_dec k (if deep then match held o (txt "hdf5_reference") with Some _ => dset text_dec (txt "hdf5_reference") VNone u | None => u end else u) = match (if text_dec k (txt "hdf5_reference") then (if deep then held o k else None) else None) with Some _ => Some VNone | None => dget text_dec k u end).
    { destruct (text_dec k (txt "hdf5_reference")) as [->|D']; destruct deep; try reflexivity.
      - destruct (held o (txt "hdf5_reference")); [|reflexivity]. rewrite (dget_dset text_dec). destruct (text_dec (txt "hdf5_reference") (txt "hdf5_reference")); [reflexivity|congruence].
      - destruct (held o (txt "hdf5_reference")); [|reflexivity]. rewrite (dget_dset text_dec). destruct (text_dec k (txt "hdf5_reference")); [congruence|reflexivity]. }
    destruct (held o (txt "mth5_type")); [|exact E]. rewrite (dget_dset text_dec). destruct (text_dec k (txt "mth5_type")); [congruence|exact E].
Qed.
Lemma full_other o u deep k : ~ of_storage k -> dget text_dec k (full_update o u deep) = dget text_dec k u.
Proof. intros N. rewrite full_dget. destruct (text_dec k (txt "mth5_type")) as [->|_]; [exfalso; apply N; right; reflexivity|]. destruct (text_dec k (txt "hdf5_reference")) as [->|_]; [exfalso; apply N; left; reflexivity|reflexivity]. Qed.

Lemma copy_deep rebuild h o u h' c : copyable o -> in_memory h o -> NoDup (map fst u) -> copy rebuild h o u true = Ok (h', c) ->
  exists e d, h' = h ++ e /\ Forall2 (like (length h) h h') o d /\ c = set_all (full_update o u true) d.
Proof.
  intros C M N E. unfold copy, model_copy in E. destruct (deep_copy_ok o C h []) as [[h1 d] D]. rewrite D in E. injection E as <- <-.
  destruct (deep_copy_like o (length h) h [] h1 d (le_n _) M ltac:(intros l l' []) ltac:(intros l l' []) D) as [[e X] Y]. exists e, d. split; [exact X|]. split; [exact Y|reflexivity].
Qed.

(** A deep copy has the updates and for the rest what the original has; the original is as it was. *)
Theorem C146_copy rebuild h o u : copyable o -> in_memory h o -> NoDup (map fst u) -> no_objects u ->
  exists h' c, copy rebuild h o u true = Ok (h', c) /\ (forall k, ~ of_storage k -> read h' c k = match dget text_dec k u with Some v => Some (look h' v) | None => read h o k end) /\ (forall k, read h' o k = read h o k).
Proof.
  intros C M N U. destruct (deep_copy_ok o C h []) as [[h1 d] D]. exists h1, (set_all (full_update o u true) d).
  assert (E : copy rebuild h o u true = Ok (h1, set_all (full_update o u true) d)) by (unfold copy, model_copy; rewrite D; reflexivity). split; [exact E|].
  destruct (deep_copy_like o (length h) h [] h1 d (le_n _) M ltac:(intros l l' []) ltac:(intros l l' []) D) as [[e X] Y]. split.
  - intros k K. unfold read. rewrite set_all_dget by (apply full_nodup; exact N). rewrite full_other by exact K. destruct (dget text_dec k u) as [v|]; [reflexivity|]. pose proof (like_dget _ _ _ _ _ Y k) as L. destruct (dget text_dec k o) as [[|p|l|p b]|]; try (rewrite L; reflexivity).
    destruct L as (l' & L1 & _ & L3). rewrite L1. cbn [option_map look]. rewrite L3. reflexivity.
  - intros k. unfold read. destruct (dget text_dec k o) as [[|p|l|p b]|] eqn:G; try reflexivity. cbn [option_map look]. rewrite X, app_nth1; [reflexivity|]. apply (M k). apply dget_In in G. exact G.
Qed.
Lemma set_nested_nth h o k a p l : nth l (set_nested h o k a p) [] = match dget text_dec k o with Some (Obj m) => if Nat.eqb l m then (if Nat.ltb l (length h) then dset text_dec a p (nth l h []) else []) else nth l h [] | _ => nth l h [] end.
Proof.
  unfold set_nested. destruct (dget text_dec k o) as [[|q|m|q b]|]; try reflexivity.
  set (f := fun ic : nat * cell => if Nat.eqb (fst ic) m then dset text_dec a p (snd ic) else snd ic).
  assert (G : forall h s l, nth l (map f (combine (seq s (length h)) h)) [] = if Nat.ltb l (length h) then f (s + l, nth l h []) else []).
  { clear. intros h. induction h as [|c h IH]; intros s l; [destruct l; reflexivity|]. cbn [length seq combine map]. destruct l as [|l]; [cbn [nth Nat.ltb Nat.leb]; rewrite Nat.add_0_r; reflexivity|]. cbn [nth]. rewrite IH. change (S l <? S (length h)) with (l <? length h). replace (S s + l) with (s + S l) by lia. reflexivity. }
  rewrite G. unfold f. cbn [fst snd Nat.add]. destruct (Nat.ltb_spec l (length h)) as [L|L]; [reflexivity|]. destruct (Nat.eqb l m); [reflexivity|]. rewrite nth_overflow by exact L. reflexivity.
Qed.
Lemma copy_places rebuild h o u h' c k l : copyable o -> in_memory h o -> NoDup (map fst u) -> no_objects u -> (forall m, dget text_dec (txt "mth5_type") o <> Some (Obj m)) -> copy rebuild h o u true = Ok (h', c) -> dget text_dec k c = Some (Obj l) -> length h <= l < length h'.
Proof.
  intros C M N U T E G. destruct (copy_deep _ _ _ _ _ _ C M N E) as (e & d & X & Y & ->). rewrite set_all_dget in G by (apply full_nodup; exact N). rewrite full_dget in G.
  assert (H : dget text_dec k u <> Some (Obj l)) by (intros H; apply dget_In in H; exact (U _ _ H)).
  assert (L : dget text_dec k d = Some (Obj l) -> length h <= l < length h').
  { intros F. pose proof (like_dget _ _ _ _ _ Y k) as L. destruct (dget text_dec k o) as [[|q|m|q b]|]; rewrite F in L; try discriminate L. destruct L as (l' & L1 & L2 & _). injection L1 as <-. exact L2. }
  destruct (text_dec k (txt "mth5_type")) as [->|D].
  - destruct (held o (txt "mth5_type")) as [v|] eqn:Hv.
    + injection G as ->. exfalso. unfold held in Hv. destruct (dget text_dec (txt "mth5_type") o) as [[|q|m|q b]|] eqn:O; try discriminate Hv. exact (T m eq_refl).
    + destruct (text_dec (txt "mth5_type") (txt "hdf5_reference")) as [Z|_]; [discriminate Z|]. destruct (dget text_dec (txt "mth5_type") u) as [v|]; [exfalso; apply H; exact G|exact (L G)].
  - destruct (text_dec k (txt "hdf5_reference")) as [->|D']; [destruct (held o (txt "hdf5_reference")); [discriminate G|]|]; (destruct (dget text_dec _ u) as [v|]; [exfalso; apply H; exact G|exact (L G)]).
Qed.
(** What is set in nested objects of the copy is not seen in the original, and the other way round. *)
Theorem C146_separate rebuild h o u h' c k a p : copyable o -> in_memory h o -> NoDup (map fst u) -> no_objects u -> (forall m, dget text_dec (txt "mth5_type") o <> Some (Obj m)) -> copy rebuild h o u true = Ok (h', c) ->
  (forall k', read (set_nested h' c k a p) o k' = read h o k') /\ (forall k', read (set_nested h' o k a p) c k' = read h' c k').
Proof.
  intros C M N U T E. pose proof (copy_places rebuild h o u h' c) as P. destruct (copy_deep _ _ _ _ _ _ C M N E) as (e & d & X & Y & _). split; intros k'; unfold read.
  - destruct (dget text_dec k' o) as [[|q|m|q b]|] eqn:O; try reflexivity. cbn [option_map look]. assert (L : m < length h) by (apply (M k'); apply dget_In in O; exact O). rewrite set_nested_nth.
    assert (B : nth m h' [] = nth m h []) by (rewrite X; apply app_nth1; exact L). destruct (dget text_dec k c) as [[|q|l|q b]|] eqn:G; try (rewrite B; reflexivity).
    destruct (P k l C M N U T E G) as [P1 _]. destruct (Nat.eqb_spec m l); [lia|]. rewrite B. reflexivity.
  - destruct (dget text_dec k' c) as [[|q|l|q b]|] eqn:G; try reflexivity. cbn [option_map look]. destruct (P k' l C M N U T E G) as [P1 _]. rewrite set_nested_nth. destruct (dget text_dec k o) as [[|q|m|q b]|] eqn:O; try reflexivity.
    assert (L : m < length h) by (apply (M k); apply dget_In in O; exact O). destruct (Nat.eqb_spec l m); [lia|reflexivity].
Qed.
(** A reference to storage is not copied: it is None in a deep copy, whatever it was and whatever the update says; the kind of storage is that of the original. *)
Theorem C146_storage rebuild h o u h' c : copyable o -> in_memory h o -> NoDup (map fst u) -> copy rebuild h o u true = Ok (h', c) ->
  (forall v, dget text_dec (txt "hdf5_reference") o = Some v -> v <> VNone -> dget text_dec (txt "hdf5_reference") c = Some VNone) /\ (forall p, dget text_dec (txt "mth5_type") o = Some (Plain p) -> read h' c (txt "mth5_type") = Some (APlain p)).
Proof.
  intros C M N E. destruct (copy_deep _ _ _ _ _ _ C M N E) as (e & d & X & Y & ->). split.
  - intros v O NV. rewrite set_all_dget by (apply full_nodup; exact N). rewrite full_dget. destruct (text_dec (txt "hdf5_reference") (txt "mth5_type")) as [Z|_]; [discriminate Z|]. destruct (text_dec (txt "hdf5_reference") (txt "hdf5_reference")); [|congruence]. unfold held. rewrite O. destruct v; [congruence|reflexivity|reflexivity|reflexivity].
  - intros p O. unfold read. rewrite set_all_dget by (apply full_nodup; exact N). rewrite full_dget. destruct (text_dec (txt "mth5_type") (txt "mth5_type")); [|congruence]. unfold held. rewrite O. reflexivity.
Qed.
(** Where the original has none of these, or None, an update of them is as any other. *)
Theorem C146_unset rebuild h o u h' c k : copyable o -> in_memory h o -> NoDup (map fst u) -> of_storage k -> dget text_dec k o = None \/ dget text_dec k o = Some VNone -> copy rebuild h o u true = Ok (h', c) ->
  dget text_dec k c = match dget text_dec k u with Some v => Some v | None => dget text_dec k o end.
Proof.
  intros C M N K O E. destruct (copy_deep _ _ _ _ _ _ C M N E) as (e & d & X & Y & ->). rewrite set_all_dget by (apply full_nodup; exact N). rewrite full_dget. assert (H : held o k = None) by (unfold held; destruct O as [-> | ->]; reflexivity). rewrite H.
  assert (D : dget text_dec k d = dget text_dec k o) by (pose proof (like_dget _ _ _ _ _ Y k) as L; destruct O as [O|O]; rewrite O in *; exact L).
  rewrite D. destruct (text_dec k (txt "mth5_type")), (text_dec k (txt "hdf5_reference")); reflexivity.
Qed.
(** So an update of the kind of storage is lost. *)
Theorem C146_kind_refuted rebuild h o u h' c p q : copyable o -> in_memory h o -> NoDup (map fst u) -> dget text_dec (txt "mth5_type") o = Some (Plain p) -> dget text_dec (txt "mth5_type") u = Some (Plain q) -> p <> q -> copy rebuild h o u true = Ok (h', c) -> read h' c (txt "mth5_type") <> Some (APlain q).
Proof. intros C M N O _ D E. destruct (C146_storage rebuild h o u h' c C M N E) as [_ S]. rewrite (S p O). intros X. injection X as X. exact (D X). Qed.
Lemma deep_copy_map o : forall h memo h' c, deep_copy h memo o = inl (h', c) -> exists f : nat -> nat, (forall l m, List.find (fun m => Nat.eqb (fst m) l) memo = Some m -> f l = snd m) /\ Forall2 (fun a b => fst a = fst b /\ forall l, snd a = Obj l -> snd b = Obj (f l)) o c.
Proof.
  induction o as [|[k v] o IH]; intros h memo h' c E; cbn [deep_copy] in E.
  - injection E as <- <-. exists (fun l => match List.find (fun m => Nat.eqb (fst m) l) memo with Some m => snd m | None => 0 end). split; [intros l m F; rewrite F; reflexivity|constructor].
  - destruct v as [|p|l|p b]; [| |destruct (List.find (fun m => Nat.eqb (fst m) l) memo) as [[l0 l']|] eqn:F|discriminate E].
    + destruct (deep_copy h memo o) as [[h1 c1]|] eqn:D; [|discriminate E]. injection E as <- <-. destruct (IH _ _ _ _ D) as (f & X & Y). exists f. split; [exact X|]. constructor; [split; [reflexivity|discriminate]|exact Y].
    + destruct (deep_copy h memo o) as [[h1 c1]|] eqn:D; [|discriminate E]. injection E as <- <-. destruct (IH _ _ _ _ D) as (f & X & Y). exists f. split; [exact X|]. constructor; [split; [reflexivity|discriminate]|exact Y].
    + destruct (deep_copy h memo o) as [[h1 c1]|] eqn:D; [|discriminate E]. injection E as <- <-. destruct (IH _ _ _ _ D) as (f & X & Y). exists f. split; [exact X|]. constructor; [|exact Y]. split; [reflexivity|]. cbn [snd]. intros l1 L. injection L as <-. rewrite (X l _ F). reflexivity.
    + destruct (deep_copy (h ++ [nth l h []]) ((l, length h) :: memo) o) as [[h1 c1]|] eqn:D; [|discriminate E]. injection E as <- <-. destruct (IH _ _ _ _ D) as (f & X & Y). exists f. split.
      * intros l1 m G. apply X. cbn [List.find fst]. destruct (Nat.eqb_spec l l1) as [<-|_]; [congruence|exact G].
      * constructor; [|exact Y]. split; [reflexivity|]. cbn [snd]. intros l1 L. injection L as <-. rewrite (X l (l, length h)); [reflexivity|]. cbn [List.find fst]. rewrite Nat.eqb_refl. reflexivity.
Qed.
(** An object that two attributes share is shared in the copy too. *)
Theorem C146_shared rebuild h o u h' c j k l : copyable o -> NoDup (map fst u) -> copy rebuild h o u true = Ok (h', c) -> ~ of_storage j -> ~ of_storage k -> dget text_dec j u = None -> dget text_dec k u = None -> dget text_dec j o = Some (Obj l) -> dget text_dec k o = Some (Obj l) ->
  exists l', dget text_dec j c = Some (Obj l') /\ dget text_dec k c = Some (Obj l').
Proof.
  intros C N E SJ SK UJ UK J K. unfold copy, model_copy in E. destruct (deep_copy_ok o C h []) as [[h1 d] D]. rewrite D in E. injection E as <- <-. destruct (deep_copy_map o h [] h1 d D) as (f & _ & Y). exists (f l).
  assert (G : forall x, dget text_dec x o = Some (Obj l) -> dget text_dec x d = Some (Obj (f l))).
  { clear - Y. intros x. induction Y as [|[ka va] [kb vb] o d [X V] Y IH]; [discriminate|]. cbn [fst snd] in *. subst kb. cbn [dget]. destruct (text_dec x ka); [|exact IH]. intros H. injection H as ->. rewrite (V l eq_refl). reflexivity. }
  split; rewrite set_all_dget by (apply full_nodup; exact N); rewrite full_other by assumption; [rewrite UJ|rewrite UK]; apply G; assumption.
Qed.
(** A copy that is not deep has the same nested objects: what is set in one is seen in the other. *)
Theorem C146_shallow rebuild h o u : NoDup (map fst u) -> exists c, copy rebuild h o u false = Ok (h, c) /\ (forall k, ~ of_storage k -> dget text_dec k c = match dget text_dec k u with Some v => Some v | None => dget text_dec k o end)
  /\ (forall k a p, ~ of_storage k -> dget text_dec k u = None -> set_nested h c k a p = set_nested h o k a p).
Proof.
  intros N. exists (set_all (full_update o u false) o). assert (G : forall k, ~ of_storage k -> dget text_dec k (set_all (full_update o u false) o) = match dget text_dec k u with Some v => Some v | None => dget text_dec k o end).
  { intros k K. rewrite set_all_dget by (apply full_nodup; exact N). rewrite full_other by exact K. reflexivity. }
  split; [reflexivity|]. split; [exact G|]. intros k a p K U. unfold set_nested. rewrite G by exact K. rewrite U. reflexivity.
Qed.
Lemma set_present_dget u : NoDup (map fst u) -> forall o k, dget text_dec k (set_present u o) = match dget text_dec k o with Some w => match dget text_dec k u with Some v => Some v | None => Some w end | None => None end.
Proof.
  unfold set_present. induction u as [|[a v] u IH]; intros N o k; [cbn; destruct (dget text_dec k o); reflexivity|]. cbn [map fst] in N. inversion N as [|x y NI ND]; subst. cbn [fold_left fst snd]. rewrite IH by exact ND. cbn [dget]. destruct (text_dec k a) as [->|D].
  - assert (E : dget text_dec a u = None) by (apply dget_None; exact NI). rewrite E. destruct (dget text_dec a o) as [w|] eqn:O; [|rewrite O; reflexivity]. rewrite (dget_dset text_dec). destruct (text_dec a a); [reflexivity|congruence].
  - destruct (dget text_dec a o) as [w|]; [|reflexivity]. rewrite (dget_dset text_dec). destruct (text_dec k a); [congruence|reflexivity].
Qed.
(** An object with something in it that cannot be copied: if the error is of the known kind the copy is what the dictionary of the object gives, with those updates that are attributes of it; otherwise the error is raised. *)
Theorem C146_cannot rebuild h o u : (exists k p b, In (k, Uncopyable p b) o) -> NoDup (map fst u) ->
  (exists k p, In (k, Uncopyable p true) o /\ exists c, copy rebuild h o u true = Ok (fst (rebuild h o), c) /\ forall k, ~ of_storage k -> dget text_dec k c = match dget text_dec k (snd (rebuild h o)) with None => None | Some w => match dget text_dec k u with Some v => Some v | None => Some w end end)
  \/ (exists k p, In (k, Uncopyable p false) o /\ copy rebuild h o u true = Err TypeError).
Proof.
  intros B N. destruct (deep_copy_fails o B h []) as (b & D & k & p & I). unfold copy, model_copy. rewrite D. destruct b; [left|right]; exists k, p; (split; [exact I|]); [|reflexivity].
  destruct (rebuild h o) as [h' n]. exists (set_present (full_update o u true) n). split; [reflexivity|]. intros k0 K. rewrite set_present_dget by (apply full_nodup; exact N). rewrite full_other by exact K. reflexivity.
Qed.
(** Setting the reference to storage to None in the updates does not help: the attributes are copied first, and a reference that cannot be copied makes the whole copy fail or be made from the dictionary. *)
Theorem C146_reference_refuted h o p b : dget text_dec (txt "hdf5_reference") o = Some (Uncopyable p b) -> forall u, exists e, model_copy h o (full_update o u true) true = inr e.
Proof.
  intros O u. apply dget_In in O. destruct (deep_copy_fails o (ex_intro _ _ (ex_intro _ p (ex_intro _ b O))) h []) as (e & D & _). exists e. unfold model_copy. rewrite D. reflexivity.
Qed.
(** Updates with names that the new object does not have are kept in an ordinary copy and lost in one made from the dictionary. *)
Theorem C146_new_names_refuted rebuild h o u k v p : NoDup (map fst u) -> dget text_dec k u = Some v -> ~ of_storage k -> dget text_dec k (snd (rebuild h o)) = None -> o = [(txt "hdf5_reference", Uncopyable p true)] ->
  (exists c, copy rebuild h o u true = Ok (fst (rebuild h o), c) /\ dget text_dec k c = None) /\ (exists c, copy rebuild h [] u true = Ok (h, c) /\ dget text_dec k c = Some v).
Proof.
  intros N U K R ->. split.
  - unfold copy, model_copy. cbn [deep_copy]. destruct (rebuild h _) as [h' n] eqn:E. cbn [snd] in R. eexists. split; [reflexivity|]. rewrite set_present_dget by (apply full_nodup; exact N). rewrite R. reflexivity.
  - unfold copy, model_copy. cbn [deep_copy]. eexists. split; [reflexivity|]. rewrite set_all_dget by (apply full_nodup; exact N). rewrite full_other by exact K. rewrite U. reflexivity.
Qed.

(** A station with a location in two attributes, a kind of storage, and an update of its name. *)
Example C146_hyp : let h := [[(txt "latitude", txt "45")]] in let o := [(txt "id", Plain (txt "MT01")); (txt "location", Obj 0); (txt "place", Obj 0); (txt "mth5_type", Plain (txt "Station"))] in let u := [(txt "id", Plain (txt "MT02"))] in
  copyable o /\ in_memory h o /\ NoDup (map fst u) /\ no_objects u /\ (forall m, dget text_dec (txt "mth5_type") o <> Some (Obj m))
  /\ copy (fun h o => (h, [])) h o u true = Ok (h ++ h, [(txt "id", Plain (txt "MT02")); (txt "location", Obj 1); (txt "place", Obj 1); (txt "mth5_type", Plain (txt "Station"))]).
Proof.
  cbn zeta. split; [intros k p b I; cbn in I; decompose [or] I; try discriminate; contradiction|]. split; [intros k l I; cbn in I; decompose [or] I; try discriminate; try contradiction; match goal with E : (_, Obj _) = _ |- _ => injection E as _ <-; cbn; lia end|]. split; [repeat constructor; intros []|].
  split; [intros k l I; cbn in I; decompose [or] I; [discriminate|contradiction]|]. split; [intros m; vm_compute; discriminate|vm_compute; reflexivity].
Qed.

Print Assumptions C146_copy.
Print Assumptions C146_separate.
Print Assumptions C146_cannot.
