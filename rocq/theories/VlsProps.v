(** C132: what the collections of an object hold after they were given. *)
From Verif Require Import PyBase PyFacts ListDictModel VlsModel VlsSpec VlsProofs.
From Coq Require Import Lia.
Local Open Scope list_scope.

(** Entries with different names: all are held, in their order, each under its name. *)
Theorem C132_distinct : forall A k (l : list (item A)) os ks, Forall2 (means A k) l os -> Forall2 (named A) os ks -> NoDup ks ->
  validate A k (GItems A l) = Ok (combine ks os).
Proof.
  intros A k l os ks M N D. cbn [validate]. replace (collect A k l false []) with (@Ok (home A) (fold_left (add A) os [])).
  - f_equal. now apply fold_distinct.
  - symmetry. now rewrite (collect_took A k l os [] false M).
Qed.
Definition o_of (s : string) (n : nat) : obj nat := mkObj (Some (KStr s)) None n.
Example C132_distinct_hyp :
  Forall2 (means nat Surveys) [Obj nat (o_of "a" 1) (Err TypeError); Dict nat (Ok (o_of "b" 2))] [o_of "a" 1; o_of "b" 2] /\
  Forall2 (named nat) [o_of "a" 1; o_of "b" 2] [KStr "a"; KStr "b"] /\ NoDup [KStr "a"; KStr "b"].
Proof.
  split; [|split].
  - repeat constructor.
  - repeat constructor.
  - repeat constructor; cbn; intuition discriminate.
Qed.

(** Whatever the names are: the names are held once each in the order in which they first occur, and under each the last object with it. *)
Theorem C132_taken : forall A k (l : list (item A)) os ks, Forall2 (means A k) l os -> Forall2 (named A) os ks ->
  exists d, validate A k (GItems A l) = Ok d /\ map fst d = firsts ks /\ NoDup (map fst d) /\ forall k o, In (k, o) d <-> last_named A k os o.
Proof.
  intros A k l os ks M N. exists (fold_left (add A) os []). split; [|now apply fold_spec].
  cbn [validate]. now rewrite (collect_took A k l os [] false M).
Qed.
Example C132_taken_hyp : Forall2 (named nat) [o_of "a" 1; o_of "b" 2; o_of "a" 3] [KStr "a"; KStr "b"; KStr "a"] /\
  validate nat Runs (GItems nat [Obj nat (o_of "a" 1) (Err TypeError); Dict nat (Ok (o_of "b" 2)); Obj nat (o_of "a" 3) (Err TypeError)]) =
  Ok [(KStr "a", o_of "a" 3); (KStr "b", o_of "b" 2)].
Proof. split; [repeat constructor|reflexivity]. Qed.

(** One entry that stands for no object, wherever it is, and nothing is taken. *)
Theorem C132_refused : forall A k (l : list (item A)), Exists (bad A k) l -> exists e, validate A k (GItems A l) = Err e.
Proof. intros A k l H. now apply collect_bad. Qed.
Example C132_refused_hyp : bad nat Stations (Else nat (Ok (o_of "a" 1))) /\ bad nat FcLevels (Dict nat (Err ValueError)).
Proof. split; intros o H; inversion H; subst; cbn in *; intuition discriminate. Qed.
(** So a collection is taken if and only if every entry stands for an object. *)
Theorem C132_accepts : forall A k (l : list (item A)), (exists d, validate A k (GItems A l) = Ok d) <-> Forall (fun i => exists o, means A k i o) l.
Proof.
  intros A k l. split.
  - intros (d & E). apply Forall_forall. intros i I. destruct (fate_of A k i) as [o| |e] eqn:F; [exists o; now apply means_fate| |].
    + exfalso. destruct (C132_refused A k l) as (e & E'); [|congruence]. apply Exists_exists. exists i. split; [assumption|].
      intros o M. apply means_fate in M. congruence.
    + exfalso. destruct (C132_refused A k l) as (e' & E'); [|congruence]. apply Exists_exists. exists i. split; [assumption|].
      intros o M. apply means_fate in M. congruence.
  - intros H. assert (X : exists os, Forall2 (means A k) l os).
    { induction H as [|i l (o & M) H (os & IH)]; [exists []; constructor|exists (o :: os); now constructor]. }
    destruct X as (os & M). exists (fold_left (add A) os []). cbn [validate]. now rewrite (collect_took A k l os [] false M).
Qed.

(** A collection given again is the same: for all but channels of a run and FC channels, of which copies are held. *)
Theorem C132_again : forall A k d made, In k [Surveys; Stations; Runs; FcLevels] -> NoDup (map fst d) -> Forall (fun ko => named A (snd ko) (fst ko)) d ->
  validate A k (GItems A (map (fun ko => Obj A (snd ko) (made (snd ko))) d)) = Ok d.
Proof.
  intros A k d made K D N. rewrite (C132_distinct A k _ (map snd d) (map fst d)); [|clear -K|clear -N|assumption].
  - f_equal. clear. induction d as [|[a x] d IH]; cbn; [reflexivity|now rewrite IH].
  - induction d as [|[a x] d IH]; cbn; constructor; [now apply means_obj|assumption].
  - induction N; cbn; constructor; assumption.
Qed.
Example C132_again_hyp : NoDup (map fst [(KStr "a", o_of "a" 3); (KStr "b", o_of "b" 2)]) /\
  Forall (fun ko => named nat (snd ko) (fst ko)) [(KStr "a", o_of "a" 3); (KStr "b", o_of "b" 2)].
Proof. split; [cbn; repeat constructor; cbn; intuition discriminate|repeat constructor]. Qed.

(** What is no collection is refused, but for Fourier coefficients: there nothing, and any text at all, is taken as an empty collection. *)
Theorem C132_other : forall A k, validate A k (GOther A) = Err TypeError /\
  (In k [Surveys; Stations; Runs; Channels] -> validate A k (GNone A) = Err TypeError /\ forall s, validate A k (GText A s) = Err TypeError).
Proof. intros A k. split; [destruct k; reflexivity|]. destruct k; cbn; intros H; try (split; reflexivity); intuition discriminate. Qed.
Theorem C132_text_refuted : forall A k s, In k [FcChannels; FcLevels] -> validate A k (GText A s) = Ok [].
Proof. intros A k s. destruct k; cbn; intros H; try reflexivity; intuition discriminate. Qed.
(** Of two entries with one name the first is lost without an error. *)
Theorem C132_lost_refuted : forall A k x y n, at_id x = Some n -> at_id y = Some n -> In k [Surveys; Stations; Runs; FcLevels] -> forall r r',
  validate A k (GItems A [Obj A x r; Obj A y r']) = Ok [(n, y)].
Proof.
  intros A k x y n X Y K r r'. destruct (C132_taken A k [Obj A x r; Obj A y r'] [x; y] [n; n]) as (d & E & F & _ & V).
  - constructor; [now apply means_obj|]. constructor; [now apply means_obj|constructor].
  - constructor; [now left|]. constructor; [now left|constructor].
  - rewrite E. f_equal. cbn in F. destruct (key_dec n n); [|contradiction]. destruct d as [|[a z] [|? ?]]; try discriminate F.
    cbn in F. injection F as ->. f_equal. f_equal. assert (L : last_named A n [x; y] z) by (apply V; now left).
    destruct L as (l1 & l2 & E' & _ & B). destruct l1 as [|? [|? l1]]; cbn in E'.
    + injection E' as <- <-. destruct (B y); [now left|now left].
    + now injection E' as _ <- _.
    + injection E' as _ _ E'. now destruct l1.
Qed.
(** A list of surveys with a wrong dictionary raises what the dictionary raises, but a list of FC levels a TypeError. *)
Theorem C132_errors : forall A e, validate A Surveys (GItems A [Dict A (Err e)]) = Err e /\ validate A FcLevels (GItems A [Dict A (Err e)]) = Err TypeError.
Proof. split; reflexivity. Qed.

Print Assumptions C132_distinct.
Print Assumptions C132_taken.
Print Assumptions C132_accepts.
