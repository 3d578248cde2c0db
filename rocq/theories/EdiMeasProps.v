(** C86: the DEFINEMEAS section of EDI files. *)
From Coq Require Import Permutation Qabs.
From Verif Require Import PyBase PyFacts PyText TextFacts PyNum PyFloat PyRepr ZmmModel XmlProofs EdiMetaModel EdiMetaSpec EdiMetaProofs EdiMetaProps EdiMeasProofs EdiMeasFile.
Local Open Scope list_scope.

Section Azimuth.
Variable azimuth : Q -> Q -> Q -> Q -> Q.
Lemma items_attrs keys l : attrs_of keys l -> forall r acc v d, exists v', read_items azimuth (key_items keys ++ r) acc (v, d) = read_items azimuth r (acc ++ l) (v', d).
Proof.
  induction 1 as [|k ks l A IH|k x a ks l A G AS IH]; intros r acc v d; [exists v; rewrite app_nil_r; reflexivity|exact (IH r acc v d)|].
  change (key_items ((k, Some x) :: ks)) with (ILine (upper k ++ "="%char :: rstrip x) :: key_items ks). cbn [app read_items]. rewrite (attr_value k x a A G). cbn [bindR snd].
  destruct (IH r (acc ++ [a]) VOther d) as (v' & E). exists v'. rewrite E, <- app_assoc. reflexivity.
Qed.
Definition read_as (m : meas) (kv : text * pyval) : Prop := fst kv = lower (meas_chtype m) /\ exists m', snd kv = VMeas m' /\ same_meas azimuth m m'.
Lemma items_meas ms : Forall good_meas ms -> NoDup (map (fun m => lower (meas_chtype m)) ms) -> forall attrs v d, (forall m, In m ms -> ~ In (lower (meas_chtype m)) (dkeys d)) ->
  exists out, read_items azimuth (map (fun m => IDict (map lower_key (meas_fields m))) ms) attrs (v, d) = Ok (attrs, d ++ out) /\ Forall2 read_as ms out.
Proof.
  induction 1 as [|m ms G F IH]; intros ND attrs v d FR; [exists []; split; [cbn; rewrite app_nil_r; reflexivity|constructor]|].
  cbn [map read_items]. destruct (read_dict_new azimuth m v d G (FR m (or_introl eq_refl))) as (m' & E & S0). rewrite E. cbn [bindR]. cbn [map] in ND. inversion ND as [|? ? NI ND']; subst.
  destruct (IH ND' attrs (VMeas m') (d ++ [(lower (meas_chtype m), VMeas m')])) as (out & E2 & F2).
  - intros x I J. unfold dkeys in J. rewrite map_app in J. apply in_app_or in J as [J|[J|[]]]; [exact (FR x (or_intror I) J)|]. cbn [fst] in J. apply NI. rewrite J. apply in_map_iff. exists x. split; [reflexivity|exact I].
  - exists ((lower (meas_chtype m), VMeas m') :: out). split; [rewrite E2, <- app_assoc; reflexivity|]. constructor; [split; [reflexivity|exists m'; split; [reflexivity|exact S0]]|exact F2].
Qed.
(** The section is read back: the attributes in the order of the lines, and under the name of every channel its measurement, numbered if it
    had no id, with the coordinates rounded to two decimals. *)
Theorem C86_section pre post keys attrs l : Forall (fun s => ~ starts_section s) pre -> after_section post -> attrs_of keys attrs ->
  NoDup (map fst l) -> (forall k m, In (k, m) l -> k = lower (meas_chtype m) /\ good_meas m) ->
  exists ms, read_measurement azimuth (pre ++ map edi_line (readlines (concat (write_measurement keys l))) ++ post) = Ok (attrs, ms) /\
    Permutation (map fst l) (map fst ms) /\
    (forall k m, In (k, m) l -> exists m1 m', may_number m m1 /\ same_meas azimuth m1 m' /\ dget text_dec k ms = Some (VMeas m')).
Proof.
  intros P Q A ND H. assert (K : forall k m, In (k, m) l -> k = lower (meas_chtype m)) by (intros k m I; apply H; exact I).
  pose proof (numbered_good l ND (fun k m I => proj2 (H k m I))) as GN. destruct (numbered_eq l ND K) as (ns & <- & EK).
  assert (NN : NoDup (map (fun m => lower (meas_chtype m)) (numbered l))) by (rewrite EK; apply (Permutation_NoDup (sorted_keys l)); exact ND).
  unfold read_measurement. rewrite (section_items pre post keys attrs l P Q A GN). cbn [bindR].
  destruct (items_attrs keys attrs A (map (fun m => IDict (map lower_key (meas_fields m))) (numbered l)) [] VUnset []) as (v' & E). cbn [app] in E.
  destruct (items_meas (numbered l) GN NN attrs v' [] (fun m _ X => X)) as (out & E2 & F2). exists out. split; [exact (eq_trans E E2)|].
  assert (KO : map fst out = map (fun m => lower (meas_chtype m)) (numbered l)) by (clear - F2; induction F2 as [|m kv ms out [E _] F IH]; [reflexivity|cbn [map]; rewrite E, IH; reflexivity]).
  split; [rewrite KO, EK; apply sorted_keys|].
  intros k m I. destruct (numbered_In l k m ND I) as (q & J & NF). exists (number_meas q m).
  assert (X : exists kv, In kv out /\ read_as (number_meas q m) kv).
  { clear - F2 J. induction F2 as [|m0 kv ms out R F IH]; [contradiction J|]. destruct J as [->|J]; [exists kv; split; [left; reflexivity|exact R]|]. destruct (IH J) as (kv' & I & R'). exists kv'. split; [right; exact I|exact R']. }
  destruct X as ([k' v0] & IO & E3 & m' & E4 & S0). cbn [snd] in E4. subst v0. exists m'. split; [apply number_meas_may; exact NF|]. split; [exact S0|].
  apply In_dget; [unfold dkeys; rewrite KO; exact NN|]. cbn [fst] in E3. rewrite number_meas_chtype in E3. rewrite (K k m I), <- E3. exact IO.
Qed.
End Azimuth.
Definition hx : hmeas := mkH (1001 # 1000) (txt "hx") 0 (5 # 3) (-1 # 1) 0 (1 # 2) (txt "1").
Definition ex : emeas := mkE 0 (txt "ex") (-50 # 1) 0 0 (50 # 1) 0 0 0 (txt "ch4").
Lemma eword_b s : (negb (match s with [] => true | _ => false end) && forallb (fun c => negb (is_space c) && negb (Ascii.eqb c "=")) s)%bool = true -> eword s.
Proof.
  intros F. apply andb_prop in F as [N F]. split; [intros ->; discriminate N|]. intros c I. rewrite forallb_forall in F. specialize (F c I). apply andb_prop in F as [F1 F2]. apply negb_true_iff in F1, F2. split; [exact F1|]. intros ->. discriminate F2.
Qed.
Lemma good_b s : (negb (match s with [] => true | _ => false end) && forallb id_char s)%bool = true -> good_acqchan s.
Proof. intros F. apply andb_prop in F as [N F]. apply good_chars; [intros ->; discriminate N|]. intros c I. apply id_plain. rewrite forallb_forall in F. exact (F c I). Qed.
Example C86_section_hyp : let l := [(txt "ex", ME ex); (txt "hx", MH hx)] in let keys := [(txt "maxchan", Some (txt "7")); (txt "refloc", None); (txt "reflat", Some (txt "45:30:00.00")); (txt "reftype", Some (txt "cartesian"))] in
  attrs_of keys [AInt (txt "maxchan") 7; AText (txt "reflat") (txt "45:30:00.00"); AText (txt "reftype") (txt "cartesian")] /\ NoDup (map fst l) /\
  (forall k m, In (k, m) l -> k = lower (meas_chtype m) /\ good_meas m) /\ after_section [[nl]; txt ">=MTSECT"; txt ">FREQ"] /\
  map edi_line (readlines (concat (write_measurement keys l))) = [[nl]; txt ">=DEFINEMEAS" ++ [nl]; txt "    MAXCHAN=7" ++ [nl]; txt "    REFLAT=45:30:00.00" ++ [nl]; txt "    REFTYPE=cartesian" ++ [nl]; [nl];
    txt ">EMEAS ID=1.0 CHTYPE=ex X=-50.00 Y=0.00 Z=0.00 X2=50.00 Y2=0.00 Z2=0.00 AZM=0.00 ACQCHAN=ch4" ++ [nl]; txt ">HMEAS ID=1.001 CHTYPE=hx X=0.00 Y=1.67 Z=-1.00 AZM=0.00 DIP=0.50 ACQCHAN=1" ++ [nl]].
Proof.
  cbv zeta. assert (GV : forall v, forallb (fun c => is_alpha c || is_digit c || existsb (Ascii.eqb c) [":"; "."]%char)%bool v = true -> good_value v).
  { intros v F c I. rewrite forallb_forall in F. specialize (F c I). assert (G : implb (is_alpha c || is_digit c || existsb (Ascii.eqb c) [":"; "."]%char) (negb (Ascii.eqb c "=") && negb (Ascii.eqb c nl) && negb (existsb (Ascii.eqb c) [">"; "!"; "'"; "034"; "["; "]"]%char)) = true) by (clear; revert c; apply ascii_forall; vm_compute; reflexivity).
    rewrite F in G. cbn [implb] in G. apply andb_prop in G as [G G3]. apply andb_prop in G as [G1 G2]. apply negb_true_iff in G1, G2, G3. split; [intros ->; discriminate G1|split; [intros ->; discriminate G2|]]. intros M.
    assert (X : existsb (Ascii.eqb c) [">"; "!"; "'"; "034"; "["; "]"]%char = true) by (apply existsb_exists; exists c; split; [exact M|apply Ascii.eqb_refl]). rewrite X in G3. discriminate G3. }
  split; [|split; [|split; [|split; [|vm_compute; reflexivity]]]].
  - apply attrs_some; [exact (attr_chan 7)|apply GV; reflexivity|]. apply attrs_none. apply attrs_some; [apply (attr_text (txt "reflat") (txt "45:30:00.00")); right; left; reflexivity|apply GV; reflexivity|].
    apply attrs_some; [apply (attr_text (txt "reftype") (txt "cartesian")); right; right; right; right; left; reflexivity|apply GV; reflexivity|]. constructor.
  - constructor; [intros [X|[]]; discriminate X|constructor; [intros []|constructor]].
  - intros k m [E|[E|[]]]; injection E as <- <-; (split; [reflexivity|]).
    + split; [exists 0%Z, 0%Z; reflexivity|]. split; [exists (txt "e"), (txt "x"); split; [reflexivity|split; [left; reflexivity|split; [discriminate|intros c [<-|[]]; reflexivity]]]|].
      split; [intros [X|[X|[]]]; discriminate X|]. split; [intros [X|[X|[]]]; discriminate X|]. split; [left; left; reflexivity|]. apply good_b. reflexivity.
    + split; [exists 1001%Z, (-3)%Z; reflexivity|]. split; [exists (txt "h"), (txt "x"); split; [reflexivity|split; [left; reflexivity|split; [discriminate|intros c [<-|[]]; reflexivity]]]|].
      split; [left; left; reflexivity|]. apply good_b. reflexivity.
  - apply after_blank; [intros c [<-|[]]; reflexivity|]. apply after_other; [reflexivity|]. intros [_ X]. discriminate X.
Qed.

(** ** Refuted *)
(** A measurement whose acquisition channel is empty, which is the default, cannot be read back at all. *)
Definition clear_acqchan (m : meas) : meas :=
  match m with
  | MH h => MH (mkH (h_id h) (h_chtype h) (h_x h) (h_y h) (h_z h) (h_azm h) (h_dip h) [])
  | ME e => ME (mkE (e_id e) (e_chtype e) (e_x e) (e_y e) (e_z e) (e_x2 e) (e_y2 e) (e_z2 e) (e_azm e) [])
  end.
Lemma join_snoc sep (l : list text) x : l <> [] -> join sep (l ++ [x]) = join sep l ++ sep ++ x.
Proof.
  induction l as [|a l IH]; intros N; [contradiction|]. destruct l as [|b l]; [reflexivity|]. cbn [app] in *. rewrite !ValidatorsProofs.join_cons2. rewrite IH by discriminate. repeat rewrite <- app_assoc. reflexivity.
Qed.
Lemma words_snoc_blank ws s b : words_of ws s -> blank b -> words_of ws (s ++ b).
Proof.
  intros W B. induction W as [s G|g w rest ws G W WS IH R].
  - constructor. intros c I. apply in_app_or in I as [I|I]; [exact (G c I)|left; exact (B c I)].
  - repeat rewrite <- app_assoc. constructor; try assumption. destruct R as [->|(c & r & -> & GC)]; [|right; exists c, (r ++ b); split; [reflexivity|exact GC]]. cbn [app]. destruct b as [|c b]; [left; reflexivity|right; exists c, b; split; [reflexivity|left; apply B; left; reflexivity]].
Qed.
(** The fields before the last one, and the last key. *)
Definition first_fields (m : meas) : list (text * text) := removelast (meas_fields m).
Lemma clear_line m : write_meas_line (clear_acqchan m) = meas_tag m ++ " "%char :: (join (txt " ") (map (fun kv => field (fst kv) (snd kv)) (first_fields m)) ++ " "%char :: txt "ACQCHAN" ++ ["="%char]) ++ [nl].
Proof.
  rewrite meas_line_fields, tag_line by apply meas_fields_ne. assert (E : meas_fields (clear_acqchan m) = first_fields m ++ [(txt "ACQCHAN", [])]) by (destruct m; reflexivity). rewrite E, map_app.
  cbn [map fst snd]. rewrite join_snoc by (destruct m; discriminate). destruct m; reflexivity.
Qed.
Lemma clear_words m : good_meas m -> equal_lines (write_meas_line (clear_acqchan m)) = flat (first_fields m) ++ [txt "ACQCHAN"].
Proof.
  intros G. rewrite clear_line. assert (F : Forall good_field (first_fields m)).
  { pose proof (good_fields m G) as F. assert (E : meas_fields m = first_fields m ++ [last (meas_fields m) ([], [])]) by (apply app_removelast_last; apply meas_fields_ne). rewrite E in F. apply Forall_app in F as [F _]. exact F. }
  set (j := join (txt " ") _). assert (L : line_of (first_fields m) (j ++ [])).
  { apply fields_line_tail; [intros c []|destruct m; discriminate|]. eapply Forall_impl; [|exact F]. intros kv [(K & _) (V & _)]. split; assumption. }
  rewrite app_nil_r in L. assert (KA : eword (txt "ACQCHAN")) by (apply eword_b; reflexivity).
  pose proof (words_snoc_blank _ _ [nl] (line_of_snoc _ _ _ L KA) ltac:(intros c [<-|[]]; reflexivity)) as W.
  unfold equal_lines. assert (E : equal_words (drop_comment (drop_tag (strip ([] ++ meas_tag m ++ " "%char :: (j ++ " "%char :: txt "ACQCHAN" ++ ["="%char]) ++ [nl])))) = flat (first_fields m) ++ [txt "ACQCHAN"]).
  { apply (tagged_words [] (meas_tag m) ((j ++ " "%char :: txt "ACQCHAN" ++ ["="%char]) ++ [nl])).
    - intros c [].
    - destruct m; left; reflexivity.
    - intros c I. destruct m; cbn in I; repeat (destruct I as [<-|I]; [reflexivity|]); contradiction I.
    - apply no_comment. pose proof (fields_no_comment (first_fields m ++ [(txt "ACQCHAN", [])])) as NC. rewrite map_app in NC. cbn [map fst snd] in NC. rewrite join_snoc in NC by (destruct m; discriminate). fold j in NC. unfold field in NC. apply NC.
      apply Forall_app. split; [eapply Forall_impl; [|exact F]; intros kv [(_ & K & _) (_ & _ & V)]; split; assumption|]. constructor; [|constructor]. split; [intros X; repeat (destruct X as [X|X]; [discriminate X|]); contradiction X|]. intros a b X. destruct a; discriminate X.
    - intros X. apply app_eq_nil in X as [_ X]. discriminate X.
    - exact (words_split _ _ W). }
  cbn [app] in E. rewrite E. rewrite app_length, Nat.add_comm. cbn [List.length Nat.add]. rewrite Nat.odd_succ, <- Nat.negb_odd, flat_even. reflexivity.
Qed.
Theorem C86_empty_refuted m : good_meas m -> add_words (equal_lines (write_meas_line (clear_acqchan m))) [] = Err IndexError.
Proof.
  intros G. rewrite (clear_words m G). destruct m as [h|e]; reflexivity.
Qed.
(** In a whole section too: reading stops with the exception. *)
Theorem C86_empty_section_refuted azimuth pre ms m post : Forall (fun s => ~ starts_section s) pre -> Forall good_meas ms -> good_meas m ->
  read_measurement azimuth (pre ++ [txt ">=DEFINEMEAS" ++ [nl]] ++ map write_meas_line ms ++ write_meas_line (clear_acqchan m) :: post) = Err IndexError.
Proof.
  intros P F G. unfold read_measurement, get_measurement_lists. rewrite (before_steps pre P). cbn [app measurement_items]. change (contains (txt ">=") (txt ">=DEFINEMEAS" ++ [nl])) with true. change (contains (txt "definemeas") (lower (txt ">=DEFINEMEAS" ++ [nl]))) with true. cbn [andb].
  rewrite (meas_steps ms F). set (line := write_meas_line (clear_acqchan m)). cbn [measurement_items].
  destruct (meas_line_shape m G) as (k & t & E & K & C & M).
  assert (SH : exists k' r, line = ">"%char :: k' :: r ++ [nl] /\ k' <> "="%char /\ (forall c, In c (k' :: r) -> ~ mark c)).
  { unfold line. rewrite clear_line. pose proof (good_fields m G) as FG. assert (EF : meas_fields m = first_fields m ++ [last (meas_fields m) ([], [])]) by (apply app_removelast_last; apply meas_fields_ne). rewrite EF in FG. apply Forall_app in FG as [FG _].
    assert (J : forall c, In c (join (txt " ") (map (fun kv => field (fst kv) (snd kv)) (first_fields m))) -> ~ mark c).
    { intros c I. apply ValidatorsProofs.join_In in I as [[<-|[]]|(w & I & IC)]; [intros X; repeat (destruct X as [X|X]; [discriminate X|]); contradiction X|]. apply in_map_iff in I as (kv & <- & I). rewrite Forall_forall in FG. exact (proj1 (field_chars kv c (FG kv I) IC)). }
    set (j := join (txt " ") _) in *. clearbody j.
    exists (if m then "H" else "E")%char, (txt "MEAS " ++ j ++ txt " ACQCHAN="). split; [|split; [destruct m; discriminate|]].
    - repeat (rewrite <- app_assoc; cbn [app]). destruct m; reflexivity.
    - intros c [<-|I]; [destruct m; intros X; repeat (destruct X as [X|X]; [discriminate X|]); contradiction X|]. apply in_app_or in I as [I|I]; [|apply in_app_or in I as [I|I]; [exact (J c I)|]]; cbn in I; repeat (destruct I as [<-|I]; [intros X; repeat (destruct X as [X|X]; [discriminate X|]); contradiction X|]); contradiction I. }
  destruct SH as (k' & r & EL & K' & C').
  assert (GT : ~ In ">"%char (k' :: r ++ [nl])). { intros I. change (k' :: r ++ [nl]) with ((k' :: r) ++ [nl]) in I. apply in_app_or in I as [I|[X|[]]]; [|discriminate X]. apply (C' _ I). left. reflexivity. }
  assert (NE : contains (txt ">=") line = false).
  { rewrite EL, ZmmProofs.contains_cons. apply orb_false_intro; [|apply (no_char_contains ">"%char); [left; reflexivity|exact GT]]. destruct (prefix_of _ _) eqn:PX; [|reflexivity]. apply prefix_of_spec in PX as [x PX]. cbn [app txt list_ascii_of_string] in PX. injection PX as PX _. contradiction. }
  assert (HG : has_char gt line = true) by (apply has_char_In; rewrite EL; left; reflexivity).
  assert (NB : find (txt "!") line = None).
  { apply find_none. intros a b X. assert (I : In "!"%char line) by (rewrite X; apply in_or_app; right; left; reflexivity). rewrite EL in I. destruct I as [I|I]; [discriminate I|]. change (k' :: r ++ [nl]) with ((k' :: r) ++ [nl]) in I. apply in_app_or in I as [I|[I|[]]]; [|discriminate I]. apply (C' _ I). right. left. reflexivity. }
  assert (ML : contains (txt "meas") (lower line) = true).
  { apply contains_spec. unfold line. rewrite clear_line. exists (lower (firstn 2 (meas_tag m))). eexists. rewrite lower_app. destruct m; reflexivity. }
  rewrite NE, HG, NB, ML. cbn [andb negb]. unfold line. rewrite (C86_empty_refuted m G). reflexivity.
Qed.
Example C86_empty_hyp : good_meas (MH hx) /\ write_meas_line (clear_acqchan (MH hx)) = txt ">HMEAS ID=1.001 CHTYPE=hx X=0.00 Y=1.67 Z=-1.00 AZM=0.00 DIP=0.50 ACQCHAN=" ++ [nl].
Proof.
  split; [|vm_compute; reflexivity]. split; [exists 1001%Z, (-3)%Z; reflexivity|]. split; [exists (txt "h"), (txt "x"); split; [reflexivity|split; [left; reflexivity|split; [discriminate|intros c [<-|[]]; reflexivity]]]|].
  split; [left; left; reflexivity|]. apply good_b. reflexivity.
Qed.
(** A magnetic channel called bx, which HMeasurement accepts, is read as whatever was read before it. *)
Theorem C86_b_refuted azimuth d c old ms : dget text_dec (txt "chtype") d = Some c -> ~ In "h"%char (lower c) -> ~ In "e"%char (lower c) ->
  ~ In (lower c) (dkeys ms) -> read_dict azimuth d (VMeas old, ms) = Ok (VMeas old, ms ++ [(lower c, VMeas old)]).
Proof.
  intros D H E N. unfold read_dict, make_value. rewrite D. rewrite (proj2 (has_char_notIn "h" _) H), (proj2 (has_char_notIn "e" _) E). cbn [fst snd bindR]. rewrite (dget_fresh _ ms N), (dset_fresh _ _ ms N). reflexivity.
Qed.
Definition by_ : hmeas := mkH (2 # 1) (txt "by") 0 0 0 (90 # 1) 0 (txt "2").
Example C86_b_hyp azimuth : chtype_ok ["h"; "H"; "b"; "B"]%char (h_chtype by_) = true /\
  exists m', read_measurement azimuth (readlines (concat (write_measurement [] [(txt "hx", MH hx); (txt "by", MH by_)]))) = Ok ([], [(txt "hx", VMeas m'); (txt "by", VMeas m')]).
Proof. split; [reflexivity|]. eexists. vm_compute. reflexivity. Qed.
(** In a section where it is the first measurement, the value of the last line before is stored for it, which is not a measurement. *)
Theorem C86_b_first_refuted azimuth d c ms : dget text_dec (txt "chtype") d = Some c -> ~ In "h"%char (lower c) -> ~ In "e"%char (lower c) ->
  ~ In (lower c) (dkeys ms) -> read_dict azimuth d (VOther, ms) = Ok (VOther, ms ++ [(lower c, VOther)]).
Proof.
  intros D H E N. unfold read_dict, make_value. rewrite D. rewrite (proj2 (has_char_notIn "h" _) H), (proj2 (has_char_notIn "e" _) E). cbn [fst snd bindR]. rewrite (dget_fresh _ ms N), (dset_fresh _ _ ms N). reflexivity.
Qed.

Print Assumptions C86_section.
Print Assumptions C86_empty_refuted.
Print Assumptions C86_empty_section_refuted.
Print Assumptions C86_b_refuted.
Print Assumptions C86_b_first_refuted.
