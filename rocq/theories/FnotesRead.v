(** Proofs about FnotesModel.v: the field notes of a run, and what is read from them *)
From Coq Require Import QArith.
From Verif Require Import PyBase PyFacts PyText TextFacts ContainerModel CommentModel LayModel FnotesModel FnotesSpec FnotesProofs.
Local Open Scope nat_scope.
Local Open Scope list_scope.

Section Read.
Variables (read : text -> option Z) (show : Z -> text) (other : text -> text -> frun -> result frun)
          (merge_chan : channel -> channel -> channel) (merge_run : run -> run -> run).

(** ** Remarks *)
Lemma parts_plain l f : (forall p, In p l -> ~ In ":"%char p) -> take_parts read other l f = Ok f.
Proof.
  induction l as [|p l IH]; intros H; [reflexivity|]. cbn [take_parts]. rewrite (split1_no _ _ (H p (or_introl eq_refl))).
  apply IH. intros q Q. exact (H q (or_intror Q)).
Qed.
Lemma part_in_split c s p x : In p (split_on c s) -> In x p -> In x s.
Proof.
  intros P X. rewrite <- (join_split c s). revert P. generalize (split_on c s). induction l as [|q l IH]; intros [].
  - subst q. destruct l; cbn; [exact X|]. apply in_or_app. left. exact X.
  - destruct l as [|r l]; [destruct H|]. change (In x (q ++ [c] ++ join [c] (r :: l))). apply in_or_app. right. apply in_or_app. right. exact (IH H).
Qed.

Definition put_comment (f : frun) (a v e : option text) : frun :=
  mkFrun (f_run f) (f_instr f) (f_rate f) (f_period f) (mkComment a default_time v) e (f_mags f) (f_dips f).

Lemma space_strip k : strip k = k -> strip (" "%char :: k) = k.
Proof. intros H. rewrite <- H at 2. reflexivity. Qed.

Lemma labelled_parts (a v e : option text) : part_ok a -> part_ok v -> part_ok e ->
  let l := labelled (txt "comments.author:") a ++ labelled (txt "comments.value:") v ++ labelled (txt "errors:") e in
  split_on ";" (join (txt "; ") l) = match l with [] => [[]] | x :: r => x :: map (cons " "%char) r end.
Proof.
  intros A V E l.
  assert (N : forall x, In x l -> ~ In ";"%char x).
  { intros x X. unfold l in X. apply in_app_or in X. destruct X as [X|X]; [|apply in_app_or in X; destruct X as [X|X]];
      [destruct a|destruct v|destruct e]; try destruct X as [<- |[]]; try destruct X; intros I; apply in_app_or in I; destruct I as [I|I];
      try (cbn in I; repeat (destruct I as [I|I]; [discriminate I|]); exact I);
      [destruct A as (_ & _ & A & _); exact (A I)|destruct V as (_ & _ & V & _); exact (V I)|destruct E as (_ & _ & E & _); exact (E I)]. }
  clearbody l. destruct l as [|x l]; [reflexivity|]. revert x N. induction l as [|y l IH]; intros x N.
  - cbn [join map]. apply split_on_no. apply N. left. reflexivity.
  - change (join (txt "; ") (x :: y :: l)) with (x ++ ";"%char :: " "%char :: join (txt "; ") (y :: l)).
    rewrite split_on_app by (apply N; left; reflexivity). f_equal.
    replace (split_on ";" (" "%char :: join (txt "; ") (y :: l))) with (map (cons " "%char) [y] ++ map (cons " "%char) l); [reflexivity|].
    specialize (IH y (fun z Z => N z (or_intror Z))). cbn [split_on]. rewrite IH. reflexivity.
Qed.

Definition near (p x : text) : Prop := p = x \/ p = " "%char :: x.
Lemma near_list (l : list text) : Forall2 near (match l with [] => [] | x :: r => x :: map (cons " "%char) r end) l.
Proof. destruct l as [|x l]; constructor; [left; reflexivity|]. induction l; constructor; [right; reflexivity|assumption]. Qed.

Lemma take_labelled k v q rest f : ~ In ":"%char k -> strip k = k -> strip v = v -> near q (k ++ ":"%char :: v) ->
  take_parts read other (q :: rest) f =
  match set_attr read other k v f with Ok f' => take_parts read other rest f' | Err _ => Err AttributeError end.
Proof.
  intros NK SK SV SP. cbn [take_parts]. destruct SP as [-> | ->].
  - rewrite split1_app, SK, SV by exact NK. reflexivity.
  - change (" "%char :: k ++ ":"%char :: v) with ((" "%char :: k) ++ ":"%char :: v).
    rewrite split1_app, (space_strip k SK), SV by (intros [I|I]; [discriminate I|exact (NK I)]). reflexivity.
Qed.

Lemma take_author p q rest f : part_ok (Some p) -> f_comment f = mkComment None default_time None -> near q (txt "comments.author:" ++ p) ->
  take_parts read other (q :: rest) f = take_parts read other rest (put_comment f (Some p) None (f_errors f)).
Proof.
  intros (_ & ST & _ & NB) G S.
  rewrite (take_labelled (txt "comments.author") p q rest f); [|cbn; intros I; repeat (destruct I as [I|I]; [discriminate I|]); exact I|reflexivity|exact ST|exact S].
  unfold set_attr. change (text_eqb (txt "comments.author") (txt "comments.author")) with true. cbn iota. rewrite G. reflexivity.
Qed.
Lemma take_value p q rest f au : part_ok (Some p) -> f_comment f = mkComment au default_time None -> near q (txt "comments.value:" ++ p) ->
  take_parts read other (q :: rest) f = take_parts read other rest (put_comment f au (Some p) (f_errors f)).
Proof.
  intros (_ & ST & _ & NB) G S.
  rewrite (take_labelled (txt "comments.value") p q rest f); [|cbn; intros I; repeat (destruct I as [I|I]; [discriminate I|]); exact I|reflexivity|exact ST|exact S].
  unfold set_attr. change (text_eqb (txt "comments.value") (txt "comments.author")) with false.
  change (text_eqb (txt "comments.value") (txt "comments.value")) with true. cbn iota. rewrite G. unfold set_value. cbn [author stamp].
  rewrite (comment_no_bar _ _ _ _ NB). reflexivity.
Qed.
Lemma take_errors p q rest f au va : part_ok (Some p) -> f_comment f = mkComment au default_time va -> near q (txt "errors:" ++ p) ->
  take_parts read other (q :: rest) f = take_parts read other rest (put_comment f au va (Some p)).
Proof.
  intros (_ & ST & _ & NB) G S.
  rewrite (take_labelled (txt "errors") p q rest f); [|cbn; intros I; repeat (destruct I as [I|I]; [discriminate I|]); exact I|reflexivity|exact ST|exact S].
  unfold set_attr. change (text_eqb (txt "errors") (txt "comments.author")) with false.
  change (text_eqb (txt "errors") (txt "comments.value")) with false. change (text_eqb (txt "errors") (txt "errors")) with true. cbn iota.
  unfold put_comment. rewrite <- G. reflexivity.
Qed.

Lemma take_near a v e f ps : part_ok a -> part_ok v -> part_ok e -> f_comment f = mkComment None default_time None -> f_errors f = None ->
  Forall2 near ps (labelled (txt "comments.author:") a ++ labelled (txt "comments.value:") v ++ labelled (txt "errors:") e) ->
  take_parts read other ps f = Ok (put_comment f a v e).
Proof.
  intros A V E FC FE F.
  assert (exists f1 ps1, take_parts read other ps f = take_parts read other ps1 f1 /\ f1 = put_comment f a None None /\ Forall2 near ps1 (labelled (txt "comments.value:") v ++ labelled (txt "errors:") e)) as (f1 & ps1 & T1 & F1 & P1).
  { destruct a as [a|]; cbn [labelled app] in F.
    - inversion F as [|q x ps' l' Q R]; subst. exists (put_comment f (Some a) None None), ps'. rewrite (take_author a q ps' f A FC Q), FE. auto.
    - exists f, ps. split; [reflexivity|]. split; [|exact F]. unfold put_comment. destruct f; cbn in *; subst; reflexivity. }
  assert (exists f2 ps2, take_parts read other ps1 f1 = take_parts read other ps2 f2 /\ f2 = put_comment f a v None /\ Forall2 near ps2 (labelled (txt "errors:") e)) as (f2 & ps2 & T2 & F2 & P2).
  { destruct v as [v|]; cbn [labelled app] in P1.
    - inversion P1 as [|q x ps' l' Q R]; subst. exists (put_comment f a (Some v) None), ps'. rewrite (take_value v q ps' (put_comment f a None None) a V eq_refl Q). auto.
    - exists f1, ps1. auto. }
  rewrite T1, T2, F2. destruct e as [e|]; cbn [labelled] in P2.
  - inversion P2 as [|q x ps' l' Q R]; subst. inversion R; subst. rewrite (take_errors e q [] (put_comment f a v None) a v E eq_refl Q). reflexivity.
  - inversion P2; subst. reflexivity.
Qed.

Lemma remark_taken m f : remark_ok m -> f_comment f = mkComment None default_time None -> f_errors f = None ->
  exists a v e, part_ok a /\ part_ok v /\ part_ok e /\ take_comment read other m f = Ok (put_comment f a v e) /\
    remark_back m = join (txt "; ") (labelled (txt "comments.author:") a ++ labelled (txt "comments.value:") v ++ labelled (txt "errors:") e).
Proof.
  intros [N|(a & v & e & A & V & E & H)] FC FE.
  - exists None, None, None. split; [exact I|]. split; [exact I|]. split; [exact I|].
    unfold take_comment, remark_back. cbn [labelled app join].
    assert (PN : put_comment f None None None = f) by (unfold put_comment; destruct f; cbn in *; subst; reflexivity). rewrite PN.
    destruct (value m) as [s|]; [|split; reflexivity]. specialize (N s eq_refl). split.
    + destruct s as [|c s]; [reflexivity|]. apply parts_plain. intros p P I. apply N. exact (part_in_split _ _ _ _ P I).
    + apply has_char_notIn in N. rewrite N. reflexivity.
  - exists a, v, e. split; [exact A|]. split; [exact V|]. split; [exact E|]. unfold take_comment, remark_back. rewrite H.
    pose proof (labelled_parts a v e A V E) as SP. cbn zeta in SP. pose proof (take_near a v e f) as TN.
    set (l := labelled (txt "comments.author:") a ++ labelled (txt "comments.value:") v ++ labelled (txt "errors:") e) in *.
    split.
    + destruct (join (txt "; ") l) as [|c0 s0] eqn:J.
      * assert (l = []) as L. { unfold l in *. clear -J. destruct a; [destruct v, e; discriminate J|]. destruct v; [destruct e; discriminate J|]. destruct e; [discriminate J|reflexivity]. }
        rewrite L in TN. rewrite <- (TN [] A V E FC FE (Forall2_nil _)). reflexivity.
      * rewrite SP. destruct l as [|x r]; [discriminate J|]. apply (TN _ A V E FC FE). exact (near_list (x :: r)).
    + destruct (has_char ":" (join (txt "; ") l)) eqn:HC; [reflexivity|]. apply has_char_notIn in HC. symmetry.
      destruct l as [|x r] eqn:L; [reflexivity|]. exfalso. apply HC.
      assert (In ":"%char x). { assert (In x (x :: r)) as X by (left; reflexivity). rewrite <- L in X. unfold l in X.
        apply in_app_or in X. destruct X as [X|X]; [|apply in_app_or in X; destruct X as [X|X]];
          [destruct a|destruct v|destruct e]; try destruct X as [<- |[]]; try destruct X; cbn; tauto. }
      destruct r; [exact H0|]. cbn [join]. apply in_or_app. left. exact H0.
Qed.

(** ** Field notes *)
Lemma write_mags_sensors comps r : incl comps three -> typed r -> write_mags comps r = map snd (sensors comps r).
Proof.
  intros I [TM _]. induction comps as [|c comps IH]; [reflexivity|]. cbn [write_mags sensors]. change (get_channel r c) with (channel_of r c).
  specialize (TM c). destruct (channel_of r c) as [x|]; [|apply IH; intros y Y; exact (I y (or_intror Y))].
  destruct (TM x (I c (or_introl eq_refl)) eq_refl) as (i & a & K). destruct x as [k az tr pe]. cbn in K. subst k. cbn [c_kind map snd]. f_equal.
  rewrite long_period_same. destruct (is_long_period i); [reflexivity|]. apply IH. intros y Y. exact (I y (or_intror Y)).
Qed.

Definition dip_note (r : run) (c : text) : dipole :=
  match channel_of r c with
  | Some (mkChannel (KEle len p m) _ tr _) =>
      let n o := match o with Some s => s | None => [] end in
      let q l i := mkFpot (txt l) (n i) (mkComment None default_time (p_type p)) in
      mkDipole (Some (capitalize c)) tr (Some len) (p_manu p) (Some (txt "wire"))
        [q (if text_eqb c (txt "ex") then "N" else "E")%string (p_id p); q (if text_eqb c (txt "ex") then "S" else "W")%string (p_id m)]
  | _ => mkDipole None None None None None []
  end.

Lemma write_dips_notes comps r : incl comps two -> run_ok r ->
  write_dips read comps r = Ok (map (dip_note r) (filter (fun c => match channel_of r c with Some _ => true | None => false end) comps)).
Proof.
  intros I (_ & TE & _). induction comps as [|c comps IH]; [reflexivity|]. cbn [write_dips filter]. change (get_channel r c) with (channel_of r c).
  pose proof (TE c) as T. specialize (IH (fun y Y => I y (or_intror Y))).
  destruct (channel_of r c) as [x|] eqn:C; [|exact IH].
  destruct (T x (I c (or_introl eq_refl)) eq_refl) as [(len & p & m & K) PO]. destruct (PO len p m K) as ((n1 & N1) & (n2 & N2) & t & T1 & T2).
  destruct x as [k az tr pe]. cbn in K. subst k. cbn [map]. rewrite N1, N2, T1. unfold write_pot, from_text.
  rewrite (comment_no_bar _ _ _ _ T2). cbn [bindR]. rewrite IH. cbn [bindR]. f_equal. f_equal. unfold dip_note. rewrite C, N1, N2, T1. reflexivity.
Qed.

Definition note (r : run) (a v e : option text) : frun :=
  mkFrun (r_id r) (mkInstr (i_id (r_logger r)) (i_type (r_logger r)) (i_manu (r_logger r)) (Some [])) (Some (r_rate r)) (r_period r)
    (mkComment a default_time v) e (map snd (sensors three r)) (map (dip_note r) (dipoles r)).
Lemma typed_ok r : run_ok r -> typed r.
Proof. intros (A & B & _). split; [exact A|]. intros c x C X. exact (proj1 (B c x C X)). Qed.

Lemma write_run_note r : run_ok r -> exists a v e, part_ok a /\ part_ok v /\ part_ok e /\ write_run read other r = Ok (note r a v e) /\
  remark_back (r_comment r) = join (txt "; ") (labelled (txt "comments.author:") a ++ labelled (txt "comments.value:") v ++ labelled (txt "errors:") e).
Proof.
  intros O. pose proof O as (_ & _ & R).
  destruct (remark_taken _ (mkFrun (r_id r) (mkInstr (i_id (r_logger r)) (i_type (r_logger r)) (i_manu (r_logger r)) (Some [])) (Some (r_rate r)) (r_period r)
              (mkComment None default_time None) None [] []) R eq_refl eq_refl) as (a & v & e & A & V & E & T & B).
  exists a, v, e. repeat (split; [assumption|]). split; [|exact B]. unfold write_run. rewrite T. cbn [bindR].
  rewrite (write_dips_notes electrics r (fun y Y => Y) O). cbn [bindR]. rewrite (write_mags_sensors magnetics r (fun y Y => Y) (typed_ok r O)). reflexivity.
Qed.
End Read.
