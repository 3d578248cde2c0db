From Coq Require Import Qabs Qpower.
From Verif Require Import PyBase PyFacts PyText TextFacts PyNum IsoModel IsoProofs PyFloat PyFloatFacts PySci PySciFacts EdiModel EdiSpec EdiProofs.
Local Open Scope Z_scope.
Open Scope list_scope.

(** ** The dictionary of a written file *)
Section Dict.
  Variables (vf vr : list pynum) (zr zi zv : zc -> list pynum) (tr ti tv : tc -> list pynum).
  Definition dict_z : blocks := (txt "freq", vf) :: (txt "zrot", vr) ::
    flat_map (fun c => [(zkey c ++ txt "r", zr c); (zkey c ++ txt "i", zi c); (zkey c ++ txt ".var", zv c)]) zcs.
  Definition dict_t : blocks := (txt "trot", vr) ::
    flat_map (fun c => [(tkey c ++ txt "r.exp", tr c); (tkey c ++ txt "i.exp", ti c); (tkey c ++ txt "var.exp", tv c)]) tcs.
  Definition dict (b : bool) : blocks := dict_z ++ if b then [] else dict_t.
  Lemma dict_freq b : dget text_dec (txt "freq") (dict b) = Some vf. Proof. reflexivity. Qed.
  Lemma dict_rot b : dget text_dec (txt "zrot") (dict b) = Some vr. Proof. reflexivity. Qed.
  Lemma dict_fill_z b c n : List.length (zr c) = n -> List.length (zi c) = n -> List.length (zv c) = n ->
    fill_z n (dict b) c = Ok (combine (zr c) (zi c), zv c).
  Proof.
    intros H1 H2 H3. unfold fill_z, fill, fill_complex.
    assert (E1 : dget text_dec (zkey c ++ txt "r") (dict b) = Some (zr c)) by (destruct b, c; reflexivity).
    assert (E2 : dget text_dec (zkey c ++ txt "i") (dict b) = Some (zi c)) by (destruct b, c; reflexivity).
    rewrite E1, E2, H1, H2, Nat.eqb_refl. cbn [andb bindR]. unfold fill_error.
    assert (E3 : filter (fun kv : text * list pynum => (contains (zkey c) (fst kv) && contains (txt "var") (fst kv))%bool) (dict b)
                 = [(zkey c ++ txt ".var", zv c)]) by (destruct b, c; reflexivity).
    rewrite E3. cbn [snd]. rewrite H3, Nat.eqb_refl. reflexivity.
  Qed.
  Lemma dict_fill_t c n : List.length (tr c) = n -> List.length (ti c) = n -> List.length (tv c) = n ->
    fill_t n (dict false) c = Ok (combine (tr c) (ti c), tv c).
  Proof.
    intros H1 H2 H3. unfold fill_t, fill, fill_complex.
    assert (E1 : dget text_dec (tkey c ++ txt "r.exp") (dict false) = Some (tr c)) by (destruct c; reflexivity).
    assert (E2 : dget text_dec (tkey c ++ txt "i.exp") (dict false) = Some (ti c)) by (destruct c; reflexivity).
    rewrite E1, E2, H1, H2, Nat.eqb_refl. cbn [andb bindR]. unfold fill_error.
    assert (E3 : filter (fun kv : text * list pynum => (contains (tkey c) (fst kv) && contains (txt "var") (fst kv))%bool) (dict false)
                 = [(tkey c ++ txt "var.exp", tv c)]) by (destruct c; reflexivity).
    rewrite E3. cbn [snd]. rewrite H3, Nat.eqb_refl. reflexivity.
  Qed.
  Lemma dict_no_t c n : fill_t n (dict true) c = Ok (zeros (Fin 0%Q, Fin 0%Q) n, zeros (Fin 0%Q) n).
  Proof. destruct c; reflexivity. Qed.
End Dict.

(** ** The whole file *)
Section Whole.
  Variable empty : Q.
  Local Notation g := (got empty (txt "freq")).
  Local Notation r := (got empty (txt "zrot")).
  Definition seen (e : edi Q) : edi pynum :=
    mkEdi (map g (e_freq e)) (map r (e_rot e))
      (fun c => map (fun p => (g (fst p), g (snd p))) (e_z e c)) (fun c => map g (e_zvar e c))
      (fun c => if no_tipper e then zeros (Fin 0%Q, Fin 0%Q) (List.length (e_freq e)) else map (fun p => (g (fst p), g (snd p))) (e_t e c))
      (fun c => if no_tipper e then zeros (Fin 0%Q) (List.length (e_freq e)) else map g (e_tvar e c)).
  Definition eqv {A : Type} (a b : edi A) : Prop :=
    e_freq a = e_freq b /\ e_rot a = e_rot b /\ (forall c, e_z a c = e_z b c) /\ (forall c, e_zvar a c = e_zvar b c) /\
    (forall c, e_t a c = e_t b c) /\ (forall c, e_tvar a c = e_tvar b c).

  Lemma write_ok : forall ss, (forall t bs, In (t, bs) ss -> forall k l, In (k, l) bs -> In k written_keys) ->
    exists ts, mapR (write_section empty) ss = Ok ts.
  Proof.
    induction ss as [|[t bs] ss IH]; intros G; [exists []; reflexivity|].
    destruct IH as [ts E]; [intros t' bs' I; apply G with (t := t'); right; exact I|].
    assert (B : exists us, mapR (fun b => write_data_block empty (snd b) (fst b)) bs = Ok us).
    { specialize (G t bs (or_introl eq_refl)). clear - G. induction bs as [|[k l] bs IH]; [exists []; reflexivity|].
      destruct IH as [us E]; [intros k' l' I; apply (G k' l'); right; exact I|].
      destruct (header_of k (G k l (or_introl eq_refl))) as (mid & _ & _ & H). cbn [mapR fst snd]. unfold write_data_block at 1. rewrite H.
      cbn [bindR]. rewrite E. eexists. reflexivity. }
    destruct B as [us B]. cbn [mapR]. unfold write_section at 1. cbn [fst snd]. rewrite B. cbn [bindR]. rewrite E. eexists. reflexivity.
  Qed.
  Definition all_blocks (e : edi Q) : list (text * list Q) := concat (map snd (sections e)).
  Lemma all_blocks_keys e : map fst (all_blocks e) =
    (txt "freq" :: txt "zrot" :: flat_map (fun c => [zkey c ++ txt "r"; zkey c ++ txt "i"; zkey c ++ txt ".var"]) zcs) ++
    (if no_tipper e then [] else txt "trot" :: flat_map (fun c => [tkey c ++ txt "r.exp"; tkey c ++ txt "i.exp"; tkey c ++ txt "var.exp"]) tcs).
  Proof. unfold all_blocks, sections. destruct (no_tipper e); reflexivity. Qed.
  Lemma keys_nodup e : NoDup (map fst (all_blocks e)).
  Proof.
    rewrite all_blocks_keys. destruct (no_tipper e).
    - apply (NoDup_count_occ' text_dec). intros x I. cbn [flat_map app zcs zkey] in I |- *. repeat (destruct I as [<-|I]; [reflexivity|]). destruct I.
    - apply (NoDup_count_occ' text_dec). intros x I. cbn [flat_map app zcs zkey tcs tkey] in I |- *. repeat (destruct I as [<-|I]; [reflexivity|]). destruct I.
  Qed.
  Lemma keys_written e k l : In (k, l) (all_blocks e) -> In k written_keys.
  Proof.
    intros I. apply (in_map fst) in I. cbn [fst] in I. rewrite all_blocks_keys in I. unfold written_keys.
    apply in_app_or in I as [I|I].
    - destruct I as [<-|[<-|I]]; [left; reflexivity|right; left; reflexivity|]. do 3 right. apply in_or_app. left. exact I.
    - destruct (no_tipper e); [destruct I|]. destruct I as [<-|I]; [do 2 right; left; reflexivity|]. do 3 right. apply in_or_app. right. exact I.
  Qed.
  Lemma section_blocks e t bs k l : In (t, bs) (sections e) -> In (k, l) bs -> In (k, l) (all_blocks e).
  Proof. intros I J. unfold all_blocks. apply in_concat. exists bs. split; [apply in_map_iff; exists (t, bs); split; [reflexivity|exact I]|exact J]. Qed.
  Lemma titles_plain e t bs : In (t, bs) (sections e) -> forallb plain_char t = true.
  Proof.
    unfold sections. intros I. apply in_app_or in I as [I|I].
    - destruct I as [I|[I|[I|[]]]]; apply pair_equal_spec in I as [<- _]; reflexivity.
    - destruct (no_tipper e); [destruct I|]. destruct I as [I|[I|[]]]; apply pair_equal_spec in I as [<- _]; reflexivity.
  Qed.
  Lemma blocks_numbers (P : Q -> Prop) e k l : all_numbers P e -> In (k, l) (all_blocks e) -> Forall P l.
  Proof.
    intros (F & Ro & Z0 & V & T & W) I.
    assert (FST : forall m : list (Q * Q), Forall (fun p => P (fst p) /\ P (snd p)) m -> Forall P (map fst m) /\ Forall P (map snd m)).
    { intros m H. split; apply Forall_forall; intros x X; apply in_map_iff in X as (p & <- & Ip); rewrite Forall_forall in H; apply (H p Ip). }
    unfold all_blocks, sections in I. apply in_concat in I as (bs & B & I). apply in_map_iff in B as ([t bs'] & E & B). cbn [snd] in E. subst bs'.
    assert (ZB : In (k, l) (flat_map (z_blocks e) zcs) -> Forall P l).
    { intros J. apply in_flat_map in J as (c & _ & J). destruct J as [J|[J|[J|[]]]]; apply pair_equal_spec in J as [_ <-]; [apply FST, Z0|apply FST, Z0|apply V]. }
    assert (TB : In (k, l) (flat_map (t_blocks e) tcs) -> Forall P l).
    { intros J. apply in_flat_map in J as (c & _ & J). destruct J as [J|[J|[J|[]]]]; apply pair_equal_spec in J as [_ <-]; [apply FST, T|apply FST, T|apply W]. }
    assert (S1 : forall k' l', In (k, l) [(k', l')] -> Forall P l' -> Forall P l).
    { intros k' l' [J|[]] H. apply pair_equal_spec in J as [_ <-]. exact H. }
    apply in_app_or in B as [B|B].
    - destruct B as [B|[B|[B|[]]]]; apply pair_equal_spec in B as [_ <-]; [exact (S1 _ _ I F)|exact (S1 _ _ I Ro)|exact (ZB I)].
    - destruct (no_tipper e); [destruct B|]. destruct B as [B|[B|[]]]; apply pair_equal_spec in B as [_ <-]; [exact (S1 _ _ I Ro)|exact (TB I)].
  Qed.
  Lemma read_end st : rs_dict (read_text empty st (txt ">END")) = rs_dict st.
  Proof. reflexivity. Qed.

  Lemma got_nonrot key x : is_rot key = false -> got empty key x = g x.
  Proof. intros H. unfold got, shown. rewrite H. reflexivity. Qed.
  Lemma dict_of e : map (fun b => (fst b, map (got empty (fst b)) (snd b))) (all_blocks e) =
    dict (map g (e_freq e)) (map r (e_rot e)) (fun c => map g (map fst (e_z e c))) (fun c => map g (map snd (e_z e c))) (fun c => map g (e_zvar e c))
         (fun c => map g (map fst (e_t e c))) (fun c => map g (map snd (e_t e c))) (fun c => map g (e_tvar e c)) (no_tipper e).
  Proof.
    assert (Z1 : forall c s l, In s [txt "r"; txt "i"; txt ".var"] -> map (got empty (zkey c ++ s)) l = map g l).
    { intros c s l I. apply map_ext. intros x. apply got_nonrot. destruct I as [<-|[<-|[<-|[]]]]; destruct c; reflexivity. }
    assert (T1 : forall c s l, In s [txt "r.exp"; txt "i.exp"; txt "var.exp"] -> map (got empty (tkey c ++ s)) l = map g l).
    { intros c s l I. apply map_ext. intros x. apply got_nonrot. destruct I as [<-|[<-|[<-|[]]]]; destruct c; reflexivity. }
    assert (R1 : forall l, map (got empty (txt "trot")) l = map r l) by reflexivity.
    unfold all_blocks, sections, dict, dict_z, dict_t, z_blocks, t_blocks.
    destruct (no_tipper e); cbn [app map concat snd flat_map zcs tcs fst]; rewrite !Z1 by (cbn [In]; tauto); rewrite ?T1 by (cbn [In]; tauto); rewrite ?R1; reflexivity.
  Qed.
  Lemma combine_maps (l : list (Q * Q)) : combine (map g (map fst l)) (map g (map snd l)) = map (fun p => (g (fst p), g (snd p))) l.
  Proof. induction l as [|p l IH]; [reflexivity|]. cbn [map combine]. rewrite IH. reflexivity. Qed.
  Lemma shown_range key q : double_range empty -> double_range q -> double_range (shown empty key q).
  Proof. intros E D. unfold shown. destruct (_ && _)%bool; assumption. Qed.
  Lemma write_read e n : sizes n e -> double_range empty -> all_numbers double_range e ->
    exists s e0, write_data empty e = Ok s /\ eqv (seen e) e0 /\ read_mt empty (file_lines s) = descend e0.
  Proof.
    intros (S1 & S2 & S3 & S4 & S5 & S6) DE D.
    assert (KW : forall t bs, In (t, bs) (sections e) -> forall k l, In (k, l) bs -> In k written_keys).
    { intros t bs I k l J. apply (keys_written e k l). exact (section_blocks e t bs k l I J). }
    destruct (write_ok (sections e) KW) as [ts M].
    unfold write_data. rewrite S2, S1, Nat.eqb_refl, M. cbn [bindR].
    destruct (read_sections empty (sections e) (txt ">END") (mkRs false [] []) ts) as (st' & E & R).
    { intros t bs I. split; [exact (titles_plain e t bs I)|]. intros k l J. split; [exact (KW t bs I k l J)|].
      apply Forall_forall. intros x X. apply in_map_iff in X as (y & <- & Y). apply shown_range; [exact DE|].
      pose proof (blocks_numbers double_range e k l D (section_blocks e t bs k l I J)) as F. rewrite Forall_forall in F. exact (F y Y). }
    { exact (keys_nodup e). }
    { intros k _. reflexivity. }
    { exact M. }
    cbn [rs_dict app] in E.
    assert (B : read_blocks empty (file_lines (concat ts ++ txt ">END")) =
      dict (map g (e_freq e)) (map r (e_rot e)) (fun c => map g (map fst (e_z e c))) (fun c => map g (map snd (e_z e c))) (fun c => map g (e_zvar e c))
         (fun c => map g (map fst (e_t e c))) (fun c => map g (map snd (e_t e c))) (fun c => map g (e_tvar e c)) (no_tipper e)).
    { unfold read_blocks. unfold read_text in R. rewrite R. transitivity (rs_dict st'); [exact (read_end st')|]. rewrite E. apply dict_of. }
    exists (concat ts ++ txt ">END").
    exists
      (let z c := match c with
                  | ZXX => (e_z (seen e) ZXX, e_zvar (seen e) ZXX) | ZXY => (e_z (seen e) ZXY, e_zvar (seen e) ZXY)
                  | ZYX => (e_z (seen e) ZYX, e_zvar (seen e) ZYX) | ZYY => (e_z (seen e) ZYY, e_zvar (seen e) ZYY) end in
       let t c := match c with
                  | TX => (e_t (seen e) TX, e_tvar (seen e) TX) | TY => (e_t (seen e) TY, e_tvar (seen e) TY) end in
       mkEdi (map g (e_freq e)) (map r (e_rot e)) (fun c => fst (z c)) (fun c => snd (z c)) (fun c => fst (t c)) (fun c => snd (t c))).
    split; [reflexivity|]. split; [repeat split; intros c; destruct c; reflexivity|].
    unfold read_mt. rewrite B. cbv zeta. rewrite dict_freq, dict_rot.
    assert (L : forall (l : list Q) (h : Q -> pynum), List.length l = n -> List.length (map h l) = List.length (map g (e_freq e))).
    { intros l h H. rewrite !map_length. congruence. }
    assert (FZ : forall c, fill_z (List.length (map g (e_freq e)))
      (dict (map g (e_freq e)) (map r (e_rot e)) (fun c => map g (map fst (e_z e c))) (fun c => map g (map snd (e_z e c))) (fun c => map g (e_zvar e c))
         (fun c => map g (map fst (e_t e c))) (fun c => map g (map snd (e_t e c))) (fun c => map g (e_tvar e c)) (no_tipper e)) c = Ok (e_z (seen e) c, e_zvar (seen e) c)).
    { intros c. rewrite dict_fill_z by (apply L; rewrite ?map_length; first [apply S3|apply S4]). rewrite combine_maps. reflexivity. }
    assert (FT : forall c, fill_t (List.length (map g (e_freq e)))
      (dict (map g (e_freq e)) (map r (e_rot e)) (fun c => map g (map fst (e_z e c))) (fun c => map g (map snd (e_z e c))) (fun c => map g (e_zvar e c))
         (fun c => map g (map fst (e_t e c))) (fun c => map g (map snd (e_t e c))) (fun c => map g (e_tvar e c)) (no_tipper e)) c = Ok (e_t (seen e) c, e_tvar (seen e) c)).
    { intros c. unfold seen. cbn [e_t e_tvar]. destruct (no_tipper e).
      - rewrite dict_no_t, map_length. reflexivity.
      - rewrite dict_fill_t by (apply L; rewrite ?map_length; first [apply S5|apply S6]). rewrite combine_maps. reflexivity. }
    rewrite !FZ, !FT. cbn [bindR]. unfold descend. cbn [e_freq e_rot e_z e_zvar e_t e_tvar].
    destruct (map g (e_freq e)) as [|a [|b l]]; [reflexivity|reflexivity|]. destruct (pylt a b); reflexivity.
  Qed.
End Whole.
