(** C147: the coefficients of a window. *)
From Coq Require Import Reals Lra Lia.
From Verif Require Import PyBase PyText TapModel TapSpec.
Local Open Scope list_scope.
Local Open Scope R_scope.

Lemma total_sum l : total l = sum l.
Proof. unfold total. assert (G : forall l a, fold_left Rplus l a = a + sum l) by (clear; induction l as [|x l IH]; intros a; cbn [fold_left sum]; [lra|rewrite IH; lra]). rewrite G. lra. Qed.
Lemma sum_scale c l : sum (map (fun x => c * x) l) = c * sum l.
Proof. induction l as [|x l IH]; cbn [map sum]; [lra|rewrite IH; lra]. Qed.
Lemma div_scale t : map (fun x => x / total t) t = map (fun x => / total t * x) t.
Proof. apply map_ext. intros x. unfold Rdiv. apply Rmult_comm. Qed.

(** A window whose coefficients have not been asked for: they are those of its type with the additional arguments in their order and its number of samples, adding up to one if they are to be normalized. *)
Theorem C147_fresh g w raw : kept w = None -> g (kind w :: map snd (additional_args w)) (num_samples w) = Ok raw -> (normalized w = true -> sum raw <> 0) ->
  exists w' t, taper g w = (w', Ok t) /\ coefficients (normalized w) raw t /\ length t = length raw.
Proof.
  intros K G S. unfold taper. rewrite K, G. do 2 eexists. split; [reflexivity|]. unfold coefficients. destruct (normalized w); [|split; reflexivity]. specialize (S eq_refl). rewrite div_scale. split; [|apply map_length]. split; [|exists (/ total raw); reflexivity].
  rewrite sum_scale, total_sum. field. exact S.
Qed.
(** Asking does not change the settings. *)
Theorem C147_settings g w : let w' := fst (taper g w) in kind w' = kind w /\ num_samples w' = num_samples w /\ normalized w' = normalized w /\ additional_args w' = additional_args w.
Proof. cbn zeta. unfold taper. destruct (kept w); [repeat split|]. destruct (g _ _); repeat split. Qed.
(** An error is that of scipy, and leaves the window as it was: after new settings it is asked again. *)
Theorem C147_error g w e : kept w = None -> g (kind w :: map snd (additional_args w)) (num_samples w) = Err e -> taper g w = (w, Err e).
Proof. intros K G. unfold taper. rewrite K, G. reflexivity. Qed.
Lemma run_kept g l : forall w t, kept w = Some t -> kept (run g w l) = Some t.
Proof.
  unfold run. induction l as [|s l IH]; intros w t K; [exact K|]. cbn [fold_left]. apply IH. destruct s as [[k|n|b|a]|]; cbn [one set kept]; try exact K. unfold taper. rewrite K. exact K.
Qed.
(** Settings before the first time count, whatever they are and in which order. *)
Fixpoint settings (l : list step) : bool := match l with [] => true | Setting _ :: r => settings r | Taper :: _ => false end.
Theorem C147_before g w l : kept w = None -> settings l = true -> kept (run g w l) = None.
Proof. revert w. unfold run. induction l as [|[s|] l IH]; intros w K S; [exact K| |discriminate S]. cbn [fold_left]. apply IH; [destruct s; exact K|exact S]. Qed.
(** Once they have been asked for they stay the same, whatever is set and asked afterwards. *)
Theorem C147_same g w w' t l : taper g w = (w', Ok t) -> taper g (run g w' l) = (run g w' l, Ok t).
Proof.
  intros E. assert (K : kept w' = Some t).
  { unfold taper in E. destruct (kept w) as [t0|] eqn:K; [injection E as <- <-; exact K|]. destruct (g _ _) as [raw|e]; [|discriminate E]. injection E as <- <-. reflexivity. }
  unfold taper. rewrite (run_kept g l w' t K). reflexivity.
Qed.
(** So after a new setting they are not those of the window: there are fewer or more of them than samples. *)
Theorem C147_after_setting_refuted g w w' t n : taper g w = (w', Ok t) -> n <> length t -> exists t', snd (taper g (set w' (SetSamples n))) = Ok t' /\ length t' <> num_samples (set w' (SetSamples n)).
Proof. intros E N. exists t. pose proof (C147_same g w w' t [Setting (SetSamples n)] E) as S. cbn [run fold_left one] in S. rewrite S. split; [reflexivity|]. cbn [set num_samples]. congruence. Qed.
(** And setting normalized afterwards leaves a sum other than one. *)
Theorem C147_normalized_refuted : exists g w w' t, taper g w = (w', Ok t) /\ exists t', snd (taper g (set w' (SetNormalized true))) = Ok t' /\ normalized (set w' (SetNormalized true)) = true /\ sum t' <> 1.
Proof.
  exists (fun _ n => Ok (repeat 1 n)), (set (set new_window (SetSamples 4)) (SetNormalized false)). eexists. eexists. split; [reflexivity|]. eexists. split; [reflexivity|]. split; [reflexivity|]. cbn. lra.
Qed.

(** Four samples of a window with an argument *)
Example C147_hyp : let g := fun (a : list text) (n : nat) => if (length a =? 2)%nat then Ok (repeat 2 n) else Err ValueError in let w := set (set (set new_window (SetSamples 4)) (SetKind (txt "kaiser"))) (SetArgs [(txt "beta", txt "14")]) in
  kept w = None /\ g (kind w :: map snd (additional_args w)) (num_samples w) = Ok [2; 2; 2; 2] /\ sum [2; 2; 2; 2] <> 0 /\ (exists w', taper g w = (w', Ok [2/8; 2/8; 2/8; 2/8])) /\ snd (taper g (set new_window (SetKind (txt "kaiser")))) = Err ValueError.
Proof.
  cbn zeta. split; [reflexivity|]. split; [reflexivity|]. split; [cbn; lra|]. split; [|reflexivity]. eexists. unfold taper. cbn -[Rdiv Rplus total]. assert (T : total [2; 2; 2; 2] = 8) by (rewrite total_sum; cbn; lra). rewrite T. reflexivity.
Qed.

Print Assumptions C147_fresh.
Print Assumptions C147_same.
