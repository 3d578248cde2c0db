(** C95: the header of Z files. *)
From Coq Require Import Qabs Lqa Sorting.Sorted.
From Verif Require Import PyBase PyText TextFacts PyNum IsoModel PyFloat EdiModel ZmmModel ZmmSpec ZmmProofs ZmmBlock ZmmFile ZmmProps ZheadModel ZheadSpec ZheadProofs ZheadFile.
Local Open Scope list_scope.
Local Open Scope Z_scope.

Lemma turned_in h : west_east h -> turned (zh_longitude h) = zh_longitude h.
Proof. intros W. unfold turned. destruct (Qlt_le_dec 180 (zh_longitude h)) as [C|_]; [|reflexivity]. apply in_limits in W. change (inject_Z 180) with (180 # 1)%Q in W. lra. Qed.
Lemma written_header h n d l s : readable h -> write_zmm h n (d :: l) = Ok s -> exists lines, write_header h = Ok lines /\ s = write_file lines n (d :: l) /\ read_header s = Some (read_header_list (lines ++ [[]])).
Proof.
  intros R E. unfold write_zmm in E. destruct (write_header h) as [lines|] eqn:W; [|discriminate E]. cbn [bindR] in E. apply Ok_inj in E. subst s. exists lines. split; [reflexivity|]. split; [reflexivity|].
  unfold read_header. rewrite header_of_file; [reflexivity|exact (header_no_period h lines R W)|exact (header_clean h lines R W)].
Qed.

(** A header that is readable comes back from a file with at least one period: the ids, the type, the location to the
    digits of the file, the numbers, and every channel there is with its number, azimuth and tilt. *)
Theorem C95_header h n d l s : readable h -> west_east h -> write_zmm h n (d :: l) = Ok s ->
  exists g, read_header s = Some (Ok g) /\ kept h g /\ close (5 # 10000) (zh_longitude h) (zg_longitude g).
Proof.
  intros R W E. destruct (written_header h n d l s R E) as (lines & WH & _ & RH). destruct (read_written h lines R (or_introl W) WH) as (g & RG & K & C). exists g. rewrite RH, RG. split; [reflexivity|]. split; [exact K|]. rewrite (turned_in h W) in C. exact C.
Qed.
(** Such a header is always written. *)
Theorem C95_written h n l : readable h -> exists s, write_zmm h n l = Ok s.
Proof. intros (_ & _ & _ & _ & _ & _ & A & B). unfold write_zmm, write_header. destruct (zh_channels h); [|contradiction]. destruct (zh_frequencies h); [|contradiction]. eexists. reflexivity. Qed.
(** Longitudes counted to the east up to 360 degrees and beyond are turned back by 360. *)
Theorem C95_longitude h n d l s : readable h -> (180 + (5 # 10000) < zh_longitude h <= 540 # 1)%Q -> write_zmm h n (d :: l) = Ok s ->
  exists g, read_header s = Some (Ok g) /\ kept h g /\ close (5 # 10000) (zh_longitude h - 360) (zg_longitude g).
Proof.
  intros R W E. destruct (written_header h n d l s R E) as (lines & WH & _ & RH). destruct (read_written h lines R (or_intror W) WH) as (g & RG & K & C). exists g. rewrite RH, RG. split; [reflexivity|]. split; [exact K|].
  unfold turned in C. destruct (Qlt_le_dec 180 (zh_longitude h)) as [_|L]; [exact C|]. destruct W as [W _]. lra.
Qed.

(** The channels are listed by their numbers, and in the same order after the file has been read. *)
Lemma own_distinct {A} (f : comp -> option (zchannel A)) : own_numbers f -> distinct f /\ (forall c, f c <> None -> number_of f c <> None).
Proof.
  intros [O1 O2]. split.
  - intros c d m E1 E2. unfold number_of in *. destruct (f c) as [x|] eqn:FC; [|discriminate E1]. destruct (f d) as [y|] eqn:FD; [|discriminate E2]. apply (O2 c d x y FC FD). congruence.
  - intros c N. unfold number_of. destruct (f c) as [x|] eqn:FC; [|contradiction]. destruct (O1 c x FC) as (n & E & _). rewrite E. discriminate.
Qed.
Theorem C95_order {A} (f : comp -> option (zchannel A)) : own_numbers f -> by_number f (channels_recorded f).
Proof. intros O. destruct (own_distinct f O) as [D N]. exact (recorded_sorted f D N). Qed.
Lemma kept_own h g : kept h g -> own_numbers (zh_channel h) -> zh_channels h <> None ->
  own_numbers (zg_channel g) /\ (forall c, number_of (zh_channel h) c = number_of (zg_channel g) c) /\ (forall c, zh_channel h c <> None <-> zg_channel g c <> None).
Proof.
  intros (_ & _ & _ & _ & _ & _ & _ & _ & _ & K) [O1 O2] NC. destruct (zh_channels h) as [nc|]; [|contradiction].
  assert (NM : forall c, number_of (zh_channel h) c = number_of (zg_channel g) c).
  { intros c. specialize (K c nc eq_refl). unfold number_of, channel_kept in *. destruct (zh_channel h c) as [x|] eqn:FC, (zg_channel g c) as [y|]; try contradiction; [|reflexivity].
    destruct K as (E & _). destruct (O1 c x FC) as (n & N & Z0). rewrite E, N. unfold in_file, as_number. destruct (Z.eq_dec n 0); [contradiction|reflexivity]. }
  assert (EX : forall c, zh_channel h c <> None <-> zg_channel g c <> None).
  { intros c. specialize (K c nc eq_refl). unfold channel_kept in K. destruct (zh_channel h c), (zg_channel g c); try contradiction; split; intros; congruence. }
  split; [|split; [exact NM|exact EX]]. split.
  - intros c y FC. pose proof (NM c) as N. unfold number_of in N. rewrite FC in N. destruct (zh_channel h c) as [x|] eqn:HC; [|exfalso; exact (proj2 (EX c) ltac:(congruence) HC)]. destruct (O1 c x HC) as (n & N1 & N2). exists n. split; congruence.
  - intros c d x y FC FD E. pose proof (NM c) as N1. pose proof (NM d) as N2. unfold number_of in N1, N2. rewrite FC in N1. rewrite FD in N2.
    destruct (zh_channel h c) as [x'|] eqn:HC; [|exfalso; exact (proj2 (EX c) ltac:(congruence) HC)]. destruct (zh_channel h d) as [y'|] eqn:HD; [|exfalso; exact (proj2 (EX d) ltac:(congruence) HD)]. apply (O2 c d x' y' HC HD). congruence.
Qed.
Theorem C95_order_kept h n d l s : readable h -> west_east h -> own_numbers (zh_channel h) -> write_zmm h n (d :: l) = Ok s ->
  exists g, read_header s = Some (Ok g) /\ by_number (zh_channel h) (channels_recorded (zg_channel g)) /\
    channels_recorded (zg_channel g) = channels_recorded (zh_channel h) /\
    input_channels (zg_channel g) = input_channels (zh_channel h) /\ output_channels (zg_channel g) = output_channels (zh_channel h).
Proof.
  intros R W O E. destruct (C95_header h n d l s R W E) as (g & RG & K & _). exists g. split; [exact RG|]. destruct R as (_ & _ & _ & _ & _ & _ & NC & _).
  destruct (kept_own h g K O NC) as (O' & NM & EX). assert (Q : channels_recorded (zg_channel g) = channels_recorded (zh_channel h)).
  { symmetry. apply (by_number_unique _ _ NM EX); apply C95_order; assumption. }
  split; [rewrite Q; apply C95_order; exact O|]. split; [exact Q|]. unfold input_channels, output_channels. rewrite Q. split; reflexivity.
Qed.

Lemma Forall2_length {A B} (P : A -> B -> Prop) l l' : Forall2 P l l' -> List.length l = List.length l'.
Proof. induction 1; cbn; congruence. Qed.
(** The whole file: when the header counts the channels and the periods of the data, both come back. *)
Theorem C95_file h n d l s : readable h -> west_east h -> zh_channels h = Some (Z.of_nat n + 2) -> zh_frequencies h = Some (Z.of_nat (List.length (d :: l))) ->
  Forall (writable_block n) (d :: l) -> write_zmm h n (d :: l) = Ok s ->
  exists g rs, read_zmm s = Some (Ok (g, map Some rs)) /\ kept h g /\ close (5 # 10000) (zh_longitude h) (zg_longitude g) /\
    Forall2 (fun d r => stored n d r /\ hermitian_read 2 (zr_sig r) /\ hermitian_read n (zr_res r)) (d :: l) rs.
Proof.
  intros R W NC NF F E. destruct (C95_header h n d l s R W E) as (g & RG & K & LON). destruct (written_header h n d l s R E) as (lines & WH & -> & _).
  destruct (C51_file lines n (d :: l) (header_no_period h lines R WH) F) as (rs & RF & S0). exists g, rs. split; [|split; [exact K|split; [exact LON|exact S0]]].
  unfold read_zmm. rewrite RG. cbn [option_map bindR]. unfold fill_arrays. destruct K as (_ & _ & _ & _ & _ & _ & _ & KC & KF & _). rewrite KC, KF, NC, NF.
  rewrite (proj2 (Z.ltb_ge _ 2)) by lia. rewrite (proj2 (Z.ltb_ge _ 0)) by lia. cbn [orb]. replace (Z.to_nat (Z.of_nat n + 2 - 2)) with n by lia. rewrite RF. cbn [bindR]. rewrite Nat2Z.id.
  rewrite (Forall2_length _ _ _ S0). rewrite Nat.ltb_irrefl, Nat.sub_diag. cbn [repeat]. rewrite app_nil_r. reflexivity.
Qed.
(** A header that counts fewer periods than there are cannot be read, one that counts more leaves empty periods. *)
Theorem C95_count h n d l s nf : readable h -> west_east h -> zh_channels h = Some (Z.of_nat n + 2) -> zh_frequencies h = Some nf -> 0 <= nf ->
  Forall (writable_block n) (d :: l) -> write_zmm h n (d :: l) = Ok s ->
  (nf < Z.of_nat (List.length (d :: l)) -> read_zmm s = Some (Err IndexError)) /\
  (Z.of_nat (List.length (d :: l)) <= nf -> exists g rs, read_zmm s = Some (Ok (g, map Some rs ++ repeat None (Z.to_nat nf - List.length (d :: l)))) /\ List.length rs = List.length (d :: l)).
Proof.
  intros R W NC NF P F E. destruct (C95_header h n d l s R W E) as (g & RG & K & LON). destruct (written_header h n d l s R E) as (lines & WH & -> & _).
  destruct (C51_file lines n (d :: l) (header_no_period h lines R WH) F) as (rs & RF & S0). pose proof (Forall2_length _ _ _ S0) as LEN.
  assert (A : read_zmm (write_file lines n (d :: l)) = Some (bindR (if Nat.ltb (Z.to_nat nf) (List.length rs) then Err IndexError else Ok (map Some rs ++ repeat None (Z.to_nat nf - List.length rs))) (fun x => Ok (g, x)))).
  { unfold read_zmm. rewrite RG. cbn [option_map bindR]. unfold fill_arrays. destruct K as (_ & _ & _ & _ & _ & _ & _ & KC & KF & _). rewrite KC, KF, NC, NF.
    rewrite (proj2 (Z.ltb_ge _ 2)) by lia. rewrite (proj2 (Z.ltb_ge _ 0)) by lia. cbn [orb]. replace (Z.to_nat (Z.of_nat n + 2 - 2)) with n by lia. rewrite RF. reflexivity. }
  rewrite A. split; intros L.
  - rewrite (proj2 (Nat.ltb_lt _ _)) by lia. reflexivity.
  - rewrite (proj2 (Nat.ltb_ge _ _)) by lia. exists g, rs. split; [rewrite LEN; reflexivity|symmetry; exact LEN].
Qed.

(** ** Where the claim fails *)
(** A file without periods is written but can never be read: looking for the first period does not end. *)
Theorem C95_no_periods_refuted h n : readable h -> exists s, write_zmm h n [] = Ok s /\ read_header s = None /\ read_zmm s = None.
Proof.
  intros R. destruct (C95_written h n [] R) as (s & E). exists s. split; [exact E|]. unfold write_zmm in E. destruct (write_header h) as [lines|] eqn:W; [|discriminate E]. cbn [bindR] in E. apply Ok_inj in E. subst s.
  assert (Q : read_header (write_file lines n []) = None) by (unfold read_header; rewrite header_of_empty; [reflexivity|exact (header_no_period h lines R W)|exact (header_clean h lines R W)]).
  split; [exact Q|]. unfold read_zmm. rewrite Q. reflexivity.
Qed.
(** Channels without numbers: they are counted from zero in the file, and the zero is read as the number of channels.
    Hence hx is the last channel, and the input channels are hy and hz. *)
Lemma read_numbers h g nc c x : kept h g -> zh_channels h = Some nc -> zh_channel h c = Some x -> zn_number x = None ->
  exists y, zg_channel g c = Some y /\ zn_number y = Some (as_number nc (in_file c None)).
Proof.
  intros (_ & _ & _ & _ & _ & _ & _ & _ & _ & K) NC HC N. specialize (K c nc NC). rewrite HC in K. cbn [channel_kept] in K. destruct (zg_channel g c) as [y|]; [|destruct K]. exists y. split; [reflexivity|]. rewrite <- N. apply K.
Qed.
Theorem C95_unnumbered_refuted h n d l s : readable h -> west_east h -> zh_channels h = Some 5 -> (forall c, exists x, zh_channel h c = Some x /\ zn_number x = None) ->
  write_zmm h n (d :: l) = Ok s -> exists g, read_header s = Some (Ok g) /\ input_channels (zg_channel g) = [Hy; Hz] /\ output_channels (zg_channel g) = [Ex; Ey; Hx].
Proof.
  intros R W NC ALL E. destruct (C95_header h n d l s R W E) as (g & RG & K & _). exists g. split; [exact RG|].
  assert (A : forall c, exists y, zg_channel g c = Some y /\ zn_number y = Some (as_number 5 (in_file c None))) by (intros c; destruct (ALL c) as (x & HC & N); exact (read_numbers h g 5 c x K NC HC N)).
  destruct (A Ex) as (y1 & E1 & N1), (A Ey) as (y2 & E2 & N2), (A Hx) as (y3 & E3 & N3), (A Hy) as (y4 & E4 & N4), (A Hz) as (y5 & E5 & N5).
  unfold input_channels, output_channels, channels_recorded. cbn [comps fold_left]. rewrite E1, E2, E3, E4, E5, N1, N2, N3, N4, N5. split; reflexivity.
Qed.
(** Without hz it is worse: hx and ey get the same number, and ey is lost. *)
Theorem C95_unnumbered_lost_refuted h n d l s : readable h -> west_east h -> zh_channels h = Some 4 -> zh_channel h Hz = None -> (forall c, c <> Hz -> exists x, zh_channel h c = Some x /\ zn_number x = None) ->
  write_zmm h n (d :: l) = Ok s -> exists g, read_header s = Some (Ok g) /\ zg_channel g Ey <> None /\ channels_recorded (zg_channel g) = [Hy; Ex; Hx].
Proof.
  intros R W NC NZ ALL E. destruct (C95_header h n d l s R W E) as (g & RG & K & _). exists g. split; [exact RG|].
  assert (A : forall c, c <> Hz -> exists y, zg_channel g c = Some y /\ zn_number y = Some (as_number 4 (in_file c None))) by (intros c Z0; destruct (ALL c Z0) as (x & HC & N); exact (read_numbers h g 4 c x K NC HC N)).
  assert (Z0 : zg_channel g Hz = None) by (destruct K as (_ & _ & _ & _ & _ & _ & _ & _ & _ & K); specialize (K Hz 4 NC); rewrite NZ in K; destruct (zg_channel g Hz); [destruct K|reflexivity]).
  destruct (A Ex) as (y1 & E1 & N1); [discriminate|]. destruct (A Ey) as (y2 & E2 & N2); [discriminate|]. destruct (A Hx) as (y3 & E3 & N3); [discriminate|]. destruct (A Hy) as (y4 & E4 & N4); [discriminate|].
  split; [congruence|]. unfold channels_recorded. cbn [comps fold_left]. rewrite E1, E2, E3, E4, Z0, N1, N2, N3, N4. reflexivity.
Qed.
(** Writing gives the channels numbers in the object as well: before, none of them is listed, afterwards they are
    listed in the order hx, hy, hz, ex, ey. *)
Theorem C95_write_numbers f : (forall c x, f c = Some x -> zn_number x = None) ->
  channels_recorded f = [] /\ channels_recorded (numbered f) = filter (fun c => match f c with Some _ => true | None => false end) [Hx; Hy; Hz; Ex; Ey].
Proof.
  intros N. unfold channels_recorded, numbered. cbn [comps fold_left filter]. pose proof (N Ex) as N1. pose proof (N Ey) as N2. pose proof (N Hx) as N3. pose proof (N Hy) as N4. pose proof (N Hz) as N5.
  destruct (f Ex) as [x1|], (f Ey) as [x2|], (f Hx) as [x3|], (f Hy) as [x4|], (f Hz) as [x5|];
    try rewrite (N1 _ eq_refl); try rewrite (N2 _ eq_refl); try rewrite (N3 _ eq_refl); try rewrite (N4 _ eq_refl); try rewrite (N5 _ eq_refl); split; reflexivity.
Qed.

(** ** Examples *)
Definition chan (n : Z) (a : Q) : option (zchannel Q) := Some (mkChannel (Some n) a 0%Q).
Definition sample_head (station : string) : zhead :=
  mkHead (txt "Robust Remote Reference") (txt station) (40 # 1) (-(115234 # 1000)) (13 # 10) (Some 5) (Some 1)
    (fun c => match c with Hx => chan 1 0 | Hy => chan 2 90 | Hz => chan 3 0 | Ex => chan 4 (15 # 10) | Ey => chan 5 (915 # 10) end).
Definition sample_data : zdata :=
  mkZdata (4654 # 1000) 1 (25, 30) 1000 (txt "1.0") (fun i j => (inject_Z (Z.of_nat (i + j)), 1 # 3)) (fun i j => (2 # 1, 0%Q)) (fun i j => (3 # 1, 0%Q)).
Lemma id_like_dec s : forallb id_char s = true -> id_like s.
Proof. intros H c I. rewrite forallb_forall in H. apply id_char_spec, H, I. Qed.
Example C95_readable_hyp : readable (sample_head "Nv01").
Proof.
  split; [apply id_like_dec; reflexivity|]. split; [intros w I; repeat destruct I as [<-|I]; try reflexivity; destruct I|].
  split; [reflexivity|]. split; [reflexivity|]. split; [intros I; cbn in I; repeat destruct I as [I|I]; try discriminate I; exact I|]. split; [discriminate|]. split; discriminate.
Qed.
Example C95_west_east_hyp : west_east (sample_head "Nv01").
Proof. unfold west_east. discriminate. Qed.
Example C95_own_hyp : own_numbers (zh_channel (sample_head "Nv01")).
Proof.
  split.
  - intros c x E. destruct c; injection E as <-; eexists; (split; [reflexivity|discriminate]).
  - intros c d x y E1 E2 E. destruct c, d; injection E1 as <-; injection E2 as <-; try reflexivity; discriminate E.
Qed.
Lemma printable_small q : (q == 0 \/ (1 # 100 <= Qabs q /\ Qabs q <= 100 # 1))%Q -> printable q.
Proof.
  intros [Z0|[A B]]; [left; exact Z0|right]. split.
  - apply Qle_trans with (2 := A). apply Qle_bool_iff. vm_compute. reflexivity.
  - apply Qle_lt_trans with (1 := B). apply Qnot_le_lt. intros C. apply Qle_bool_iff in C. vm_compute in C. discriminate C.
Qed.
Example C95_block_hyp : Forall (writable_block 3) [sample_data].
Proof.
  constructor; [|constructor]. split; [cbn; lia|]. split; [discriminate|]. split; [reflexivity|]. split; [eexists; vm_compute; reflexivity|]. split; [|split].
  - intros i j I J. split; cbn [sample_data zd_tf fst snd]; apply printable_small; [|right; split; discriminate]. do 3 (destruct i as [|i]; [do 2 (destruct j as [|j]; [first [left; reflexivity|right; split; discriminate]|]); lia|]). lia.
  - intros i j I J. split; cbn [sample_data zd_sig fst snd]; apply printable_small; [right; split; discriminate|left; reflexivity].
  - intros i j I J. split; cbn [sample_data zd_res fst snd]; apply printable_small; [right; split; discriminate|left; reflexivity].
Qed.
Example C95_file_hyp : exists s, write_zmm (sample_head "Nv01") 3 [sample_data] = Ok s /\ exists g rs, read_zmm s = Some (Ok (g, rs)).
Proof.
  destruct (C95_written (sample_head "Nv01") 3 [sample_data] C95_readable_hyp) as (s & E). exists s. split; [exact E|].
  destruct (C95_file _ 3 sample_data [] s C95_readable_hyp C95_west_east_hyp eq_refl eq_refl C95_block_hyp E) as (g & rs & R & _). exists g, (map Some rs). exact R.
Qed.
(** Station ids with one of the words of the header in them: "station" stops the reading at the first channel; with
    "number" or "coordinate" the line of a channel is taken for another line; with "orientations" the channels are
    not read at all.  All four ids are valid. *)
Definition no_chan (r : option (result zgot)) : bool :=
  match r with Some (Ok g) => forallb (fun c => match zg_channel g c with None => true | Some _ => false end) comps | _ => false end.
Definition written (station : string) : text := match write_zmm (sample_head station) 3 [sample_data] with Ok s => s | Err _ => [] end.
Theorem C95_station_refuted :
  read_header (written "station1") = Some (Err IndexError) /\ read_header (written "number1") = Some (Err ValueError) /\
  read_header (written "coordinate1") = Some (Err ValueError) /\ no_chan (read_header (written "orientations1")) = true /\
  forallb valid_id [txt "station1"; txt "number1"; txt "coordinate1"; txt "orientations1"] = true.
Proof. vm_compute. repeat split. Qed.
(** The id of the run and of the transfer function are in lower case whatever the station is. *)
Theorem C95_case_refuted : exists g, read_header (written "Nv01") = Some (Ok g) /\ zg_station g = txt "Nv01" /\ zg_run g = txt "nv01a" /\ zg_tf g = txt "nv01".
Proof.
  destruct (C95_written (sample_head "Nv01") 3 [sample_data] C95_readable_hyp) as (s & E). destruct (C95_header _ 3 sample_data [] s C95_readable_hyp C95_west_east_hyp E) as (g & R & K & _).
  exists g. unfold written. rewrite E. split; [exact R|]. destruct K as (_ & A & B & C & _). rewrite A, B, C. repeat split.
Qed.
Definition no_numbers : zhead :=
  mkHead (txt "Robust") (txt "a") 0 (200 # 1) 0 (Some 5) (Some 1) (fun c => Some (mkChannel None 0%Q 0%Q)).
Example C95_unnumbered_hyp : (forall c, exists x, zh_channel no_numbers c = Some x /\ zn_number x = None) /\ (180 + (5 # 10000) < zh_longitude no_numbers <= 540 # 1)%Q.
Proof. split; [intros c; eexists; split; reflexivity|]. split; [reflexivity|discriminate]. Qed.

Print Assumptions C95_header.
Print Assumptions C95_written.
Print Assumptions C95_longitude.
Print Assumptions C95_order.
Print Assumptions C95_order_kept.
Print Assumptions C95_file.
Print Assumptions C95_count.
Print Assumptions C95_no_periods_refuted.
Print Assumptions C95_unnumbered_refuted.
Print Assumptions C95_unnumbered_lost_refuted.
Print Assumptions C95_write_numbers.
Print Assumptions C95_station_refuted.
Print Assumptions C95_case_refuted.
