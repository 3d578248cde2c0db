(** The file of an EDI object with or without an impedance. *)
From Coq Require Import Qabs Qpower Lqa.
From Verif Require Import PyBase PyFacts PyText TextFacts PyNum IsoModel PyFloat PyFloatFacts PySci PySciFacts EdiModel EdiSpec EdiProofs EdiFile EdiNumbers EdiOrder EdiProps.
From Verif Require TfEdiModel.
Local Open Scope Z_scope.
Open Scope list_scope.
Notation eobj := TfEdiModel.eobj.
Notation numbers := TfEdiModel.numbers.
Notation x_z := TfEdiModel.x_z.

Lemma sections_some x a : x_z x = Some a -> TfEdiModel.sections x = sections (numbers x).
Proof.
  intros E. unfold TfEdiModel.sections. rewrite E. transitivity (map (fun s => s) (sections (numbers x))); [|apply map_id]. apply map_ext. intros [t bs]. cbn [fst snd]. destruct (text_eqb t (txt "IMPEDANCES")); reflexivity.
Qed.
Definition tip (e : edi Q) : list (text * list Q) := if no_tipper e then [] else (txt "trot", e_rot e) :: flat_map (t_blocks e) tcs.
Lemma sections_none x : x_z x = None -> concat (map snd (TfEdiModel.sections x)) = (txt "freq", e_freq (numbers x)) :: (txt "zrot", e_rot (numbers x)) :: tip (numbers x).
Proof. intros E. unfold TfEdiModel.sections. rewrite E. unfold sections, tip. destruct (no_tipper (numbers x)); reflexivity. Qed.
Lemma none_part x b : In b (concat (map snd (TfEdiModel.sections x))) -> x_z x = None -> In b (all_blocks (numbers x)).
Proof.
  intros I E. rewrite sections_none in I by exact E. unfold all_blocks, sections. unfold tip in I. destruct I as [<-|[<-|I]].
  - cbn [app map concat snd]. left. reflexivity.
  - cbn [app map concat snd]. right. left. reflexivity.
  - rewrite map_app, concat_app. apply in_or_app. right. destruct (no_tipper (numbers x)); [destruct I|]. cbn [map concat snd app]. rewrite app_nil_r. exact I.
Qed.
Definition dict_none (vf vr : list pynum) (tr ti tv : tc -> list pynum) (b : bool) : blocks := (txt "freq", vf) :: (txt "zrot", vr) :: if b then [] else dict_t vr tr ti tv.
Section None.
  Variables (vf vr : list pynum) (tr ti tv : tc -> list pynum).
  Notation dict := (dict_none vf vr tr ti tv).
  Lemma none_fill_z b c n : fill_z n (dict b) c = Ok (zeros (Fin 0%Q, Fin 0%Q) n, zeros (Fin 0%Q) n).
  Proof. destruct b, c; reflexivity. Qed.
  Lemma none_no_t c n : fill_t n (dict true) c = Ok (zeros (Fin 0%Q, Fin 0%Q) n, zeros (Fin 0%Q) n).
  Proof. destruct c; reflexivity. Qed.
  Lemma none_fill_t c n : List.length (tr c) = n -> List.length (ti c) = n -> List.length (tv c) = n -> fill_t n (dict false) c = Ok (combine (tr c) (ti c), tv c).
  Proof.
    intros H1 H2 H3. unfold fill_t, fill, fill_complex.
    assert (E1 : dget text_dec (tkey c ++ txt "r.exp") (dict false) = Some (tr c)) by (destruct c; reflexivity).
    assert (E2 : dget text_dec (tkey c ++ txt "i.exp") (dict false) = Some (ti c)) by (destruct c; reflexivity).
    rewrite E1, E2, H1, H2, Nat.eqb_refl. cbn [andb bindR]. unfold fill_error.
    assert (E3 : filter (fun kv : text * list pynum => (contains (tkey c) (fst kv) && contains (txt "var") (fst kv))%bool) (dict false) = [(tkey c ++ txt "var.exp", tv c)]) by (destruct c; reflexivity).
    rewrite E3. cbn [snd]. rewrite H3, Nat.eqb_refl. reflexivity.
  Qed.
End None.
Section Whole.
  Variable empty : Q.
  Local Notation g := (got empty (txt "freq")).
  Local Notation r := (got empty (txt "zrot")).
  Lemma dict_none_of e : map (fun b => (fst b, map (got empty (fst b)) (snd b))) ((txt "freq", e_freq e) :: (txt "zrot", e_rot e) :: tip e) =
    dict_none (map g (e_freq e)) (map r (e_rot e)) (fun c => map g (map fst (e_t e c))) (fun c => map g (map snd (e_t e c))) (fun c => map g (e_tvar e c)) (no_tipper e).
  Proof.
    assert (T1 : forall c s l, In s [txt "r.exp"; txt "i.exp"; txt "var.exp"] -> map (got empty (tkey c ++ s)) l = map g l).
    { intros c s l I. apply map_ext. intros x. apply got_nonrot. destruct I as [<-|[<-|[<-|[]]]]; destruct c; reflexivity. }
    assert (R1 : forall l, map (got empty (txt "trot")) l = map r l) by reflexivity.
    unfold tip, dict_none, dict_t, t_blocks. destruct (no_tipper e); cbn [app map concat snd flat_map tcs fst]; rewrite ?T1 by (cbn [In]; tauto); rewrite ?R1; reflexivity.
  Qed.
  Lemma write_read_none x n : x_z x = None -> sizes n (numbers x) -> double_range empty -> all_numbers double_range (numbers x) ->
    exists s e0, TfEdiModel.write_object empty x = Ok s /\ read_mt empty (file_lines s) = descend e0 /\
      e_freq e0 = map g (e_freq (numbers x)) /\ e_rot e0 = map r (e_rot (numbers x)) /\ (forall c, e_z e0 c = zeros (Fin 0%Q, Fin 0%Q) n) /\ (forall c, e_zvar e0 c = zeros (Fin 0%Q) n) /\
      (forall c, e_t e0 c = e_t (seen empty (numbers x)) c) /\ (forall c, e_tvar e0 c = e_tvar (seen empty (numbers x)) c).
  Proof.
    intros NZ (S1 & S2 & S3 & S4 & S5 & S6) DE D. set (e := numbers x) in *.
    assert (KB : forall t bs k l, In (t, bs) (TfEdiModel.sections x) -> In (k, l) bs -> In (k, l) (all_blocks e)).
    { intros t bs k l I J. apply none_part; [|exact NZ]. apply in_concat. exists bs. split; [apply in_map_iff; exists (t, bs); split; [reflexivity|exact I]|exact J]. }
    assert (KW : forall t bs, In (t, bs) (TfEdiModel.sections x) -> forall k l, In (k, l) bs -> In k written_keys).
    { intros t bs I k l J. apply (keys_written e k l). exact (KB t bs k l I J). }
    destruct (write_ok empty (TfEdiModel.sections x) KW) as [ts M].
    assert (ND : NoDup (map fst (concat (map snd (TfEdiModel.sections x))))).
    { rewrite sections_none by exact NZ. unfold tip. fold e. cbn [map fst].
      destruct (no_tipper e); [repeat constructor; [intros [X|[]]; discriminate X|intros []]|].
      apply (NoDup_count_occ' text_dec). intros y I. cbn [flat_map app tcs tkey t_blocks map fst] in I |- *. repeat (destruct I as [<-|I]; [reflexivity|]). destruct I. }
    unfold TfEdiModel.write_object. change (TfEdiModel.x_rot x) with (e_rot e). change (TfEdiModel.x_freq x) with (e_freq e). rewrite S2, S1, Nat.eqb_refl, M. cbn [bindR].
    destruct (read_sections empty (TfEdiModel.sections x) (txt ">END") (mkRs false [] []) ts) as (st' & E & R).
    { intros t bs I. split.
      - unfold TfEdiModel.sections in I. apply in_map_iff in I as ([t' bs'] & E & I). apply (titles_plain e t bs'). cbn [fst snd] in E. destruct (text_eqb t' (txt "IMPEDANCES")); injection E as <- _; exact I.
      - intros k l J. split; [exact (KW t bs I k l J)|]. apply Forall_forall. intros y X. apply in_map_iff in X as (y' & <- & Y). apply shown_range; [exact DE|].
        pose proof (blocks_numbers double_range e k l D (KB t bs k l I J)) as F. rewrite Forall_forall in F. exact (F y' Y). }
    { exact ND. }
    { intros k _. reflexivity. }
    { exact M. }
    cbn [rs_dict app] in E.
    assert (B : read_blocks empty (file_lines (concat ts ++ txt ">END")) =
      dict_none (map g (e_freq e)) (map r (e_rot e)) (fun c => map g (map fst (e_t e c))) (fun c => map g (map snd (e_t e c))) (fun c => map g (e_tvar e c)) (no_tipper e)).
    { unfold read_blocks. unfold read_text in R. rewrite R. transitivity (rs_dict st'); [exact (read_end empty st')|]. rewrite E. rewrite sections_none by exact NZ. apply dict_none_of. }
    exists (concat ts ++ txt ">END").
    exists (let t c := match c with TX => (e_t (seen empty e) TX, e_tvar (seen empty e) TX) | TY => (e_t (seen empty e) TY, e_tvar (seen empty e) TY) end in
       let z c := match c with ZXX => (zeros (Fin 0%Q, Fin 0%Q) n, zeros (Fin 0%Q) n) | ZXY => (zeros (Fin 0%Q, Fin 0%Q) n, zeros (Fin 0%Q) n) | ZYX => (zeros (Fin 0%Q, Fin 0%Q) n, zeros (Fin 0%Q) n) | ZYY => (zeros (Fin 0%Q, Fin 0%Q) n, zeros (Fin 0%Q) n) end in
       mkEdi (map g (e_freq e)) (map r (e_rot e)) (fun c => fst (z c)) (fun c => snd (z c)) (fun c => fst (t c)) (fun c => snd (t c))).
    split; [reflexivity|]. split; [|split; [reflexivity|split; [reflexivity|split; [intros c; destruct c; reflexivity|split; [intros c; destruct c; reflexivity|split; intros c; destruct c; reflexivity]]]]].
    unfold read_mt. rewrite B. cbv zeta. change (dget text_dec (txt "freq") (dict_none (map g (e_freq e)) (map r (e_rot e)) (fun c => map g (map fst (e_t e c))) (fun c => map g (map snd (e_t e c))) (fun c => map g (e_tvar e c)) (no_tipper e))) with (Some (map g (e_freq e))).
    change (dget text_dec (txt "zrot") (dict_none (map g (e_freq e)) (map r (e_rot e)) (fun c => map g (map fst (e_t e c))) (fun c => map g (map snd (e_t e c))) (fun c => map g (e_tvar e c)) (no_tipper e))) with (Some (map r (e_rot e))). cbv iota beta.
    assert (L : forall (l : list Q) (h : Q -> pynum), List.length l = n -> List.length (map h l) = List.length (map g (e_freq e))) by (intros l h H; rewrite !map_length; congruence).
    assert (FT : forall c, fill_t (List.length (map g (e_freq e)))
      (dict_none (map g (e_freq e)) (map r (e_rot e)) (fun c => map g (map fst (e_t e c))) (fun c => map g (map snd (e_t e c))) (fun c => map g (e_tvar e c)) (no_tipper e)) c = Ok (e_t (seen empty e) c, e_tvar (seen empty e) c)).
    { intros c. unfold seen. cbn [e_t e_tvar]. destruct (no_tipper e).
      - rewrite none_no_t, map_length. reflexivity.
      - rewrite none_fill_t by (apply L; rewrite ?map_length; first [apply S5|apply S6]). rewrite combine_maps. reflexivity. }
    rewrite !none_fill_z, !FT. cbn [bindR]. assert (LL : List.length (map g (e_freq e)) = n) by (rewrite map_length; exact S1). rewrite LL. unfold descend. cbn [e_freq e_rot e_z e_zvar e_t e_tvar fst snd].
    destruct (map g (e_freq e)) as [|a [|b l]]; [reflexivity|reflexivity|]. destruct (pylt a b); reflexivity.
  Qed.
  (** Everything together. *)
  Lemma object_file x n f0 f1 fs : good_marker empty -> sizes n (numbers x) -> all_numbers (writable empty) (numbers x) -> tipper_errors_kept (numbers x) -> e_freq (numbers x) = f0 :: f1 :: fs ->
    exists s e0, TfEdiModel.write_object empty x = Ok s /\ read_mt empty (file_lines s) = descend e0 /\ same_data close (numbers x) e0 /\ e_freq e0 = map g (e_freq (numbers x)).
  Proof.
    intros G HS W K F. pose proof (writable_ranges empty _ W) as D. pose proof (writable_close empty _ n G HS W K) as SC.
    destruct (x_z x) as [a|] eqn:EZ.
    - destruct (write_read empty (numbers x) n HS (proj1 G) D) as (s & e0 & E1 & E2 & E3). exists s, e0.
      split; [unfold TfEdiModel.write_object; rewrite (sections_some x a EZ); exact E1|]. split; [exact E3|]. split; [exact (same_data_eqv close _ _ e0 SC E2)|]. symmetry. exact (proj1 E2).
    - destruct (write_read_none x n EZ HS (proj1 G) D) as (s & e0 & E1 & E2 & Q1 & Q2 & Q3 & Q4 & Q5 & Q6). exists s, e0. split; [exact E1|]. split; [exact E2|]. split; [|exact Q1].
      destruct SC as (C1 & C2 & _ & _ & C5 & C6). destruct HS as (S1 & S2 & S3 & S4 & S5 & S6). unfold same_data. rewrite Q1, Q2.
      assert (ZZ : forall A B (P : A -> B -> Prop) a b (l : list A), (forall y, In y l -> P y b) -> List.length l = n -> a = zeros b n -> Forall2 P l a).
      { intros A B P a b l H L ->. unfold zeros. rewrite <- L. clear - H. induction l as [|y l IH]; [constructor|]. cbn [List.length repeat]. constructor; [apply H; left; reflexivity|apply IH; intros z I; apply H; right; exact I]. }
      split; [exact C1|]. split; [exact C2|]. split; [|split; [|split; [intros c; rewrite Q5; apply C5|intros c; rewrite Q6; apply C6]]].
      + intros c. apply (ZZ _ _ _ _ (Fin 0%Q, Fin 0%Q)); [|apply S3|apply Q3]. intros y I. unfold numbers in I. cbn [e_z] in I. unfold TfEdiModel.column in I. rewrite EZ in I. cbn [option_map] in I. apply in_map_iff in I as (p & <- & _). split; apply close_zero; reflexivity.
      + intros c. apply (ZZ _ _ _ _ (Fin 0%Q)); [|apply S4|apply Q4]. intros y I. unfold numbers in I. cbn [e_zvar] in I. unfold TfEdiModel.column in I. rewrite EZ in I. cbn [option_map] in I. apply in_map_iff in I as (p & <- & _). apply close_zero; reflexivity.
  Qed.
  Lemma object_falling x n f0 f1 fs : good_marker empty -> sizes n (numbers x) -> all_numbers (writable empty) (numbers x) -> tipper_errors_kept (numbers x) -> e_freq (numbers x) = f0 :: f1 :: fs -> (0 < f1)%Q -> (f1 <= f0)%Q ->
    exists s e', TfEdiModel.write_object empty x = Ok s /\ read_mt empty (file_lines s) = Ok e' /\ same_data close (numbers x) e'.
  Proof.
    intros G HS W K F P L. destruct (object_file x n f0 f1 fs G HS W K F) as (s & e0 & E1 & E2 & E3 & E4). exists s, e0. split; [exact E1|]. split; [|exact E3]. rewrite F in E4. cbn [map] in E4.
    rewrite E2, (descend_case e0 _ _ _ E4). destruct W as (W1 & _). rewrite F in W1. inversion W1 as [|? ? X1 W1']; subst. inversion W1' as [|? ? X2 _]; subst.
    rewrite (proj1 (seen_order empty f0 f1 G X1 X2 ltac:(lra) P) L). reflexivity.
  Qed.
  Lemma object_rising x n f0 f1 fs : good_marker empty -> sizes n (numbers x) -> all_numbers (writable empty) (numbers x) -> tipper_errors_kept (numbers x) -> e_freq (numbers x) = f0 :: f1 :: fs -> (0 < f0)%Q -> ((5 # 10000000) * (f0 + f1) < f1 - f0)%Q ->
    exists s e', TfEdiModel.write_object empty x = Ok s /\ read_mt empty (file_lines s) = Ok e' /\ same_data close (flip_but_rotation (numbers x)) e'.
  Proof.
    intros G HS W K F P L. destruct (object_file x n f0 f1 fs G HS W K F) as (s & e0 & E1 & E2 & E3 & E4). exists s, (flip_but_rotation e0). split; [exact E1|]. split; [|apply same_data_flip; exact E3]. rewrite F in E4. cbn [map] in E4.
    rewrite E2, (descend_case e0 _ _ _ E4). destruct W as (W1 & _). rewrite F in W1. inversion W1 as [|? ? X1 W1']; subst. inversion W1' as [|? ? X2 _]; subst.
    rewrite (proj2 (seen_order empty f0 f1 G X1 X2 P ltac:(lra)) L). reflexivity.
  Qed.
End Whole.
