(** C111: the remote references, the runs and the parameters of a station through an EMTF XML object *)
From Verif Require Import PyBase PyFacts PyText TextFacts LayModel RrefModel RrefSpec RrefProofs.
Local Open Scope list_scope.

(** The runs come back.  One remote reference comes back: the id that the parameters give to the remote site, or the one the object had. *)
Theorem C111_runs_and_reference notes extra put_note note_pairs put_extra is_number t e :
  exists t' r, get_station notes extra note_pairs (set_station notes extra put_note put_extra is_number t e) = Ok t' /\
    t_runs t' = t_runs t /\ t_remotes t' = [r] /\ ends_with_id (t_params t) (s_id (i_site _ _ (e_info _ _ e))) r.
Proof.
  unfold get_station, set_station. cbn [e_runs e_info]. do 2 eexists. split; [reflexivity|]. split; [reflexivity|]. split; [reflexivity|].
  apply (site_after notes extra put_note put_extra is_number (t_params t) (mkInfo notes extra _ _ _ _)).
Qed.

(** The tag is made of the runs and the references; nothing is made of it. *)
Theorem C111_tag notes extra put_note put_extra is_number t e :
  i_tag _ _ (e_info _ _ (set_station notes extra put_note put_extra is_number t e)) = Some (join (txt "_") (t_runs t ++ t_remotes t)).
Proof.
  unfold set_station. cbn [e_info]. generalize (t_params t). intros ps. generalize (Some (join (txt "_") (t_runs t ++ t_remotes t))). intros tag.
  generalize (i_site _ _ (e_info _ _ e)) (i_notes _ _ (e_info _ _ e)) (i_extra _ _ (e_info _ _ e)). induction ps as [|p ps IH]; intros s n x; [reflexivity|].
  cbn [fold_left]. unfold take_param at 2. destruct (key_value p) as [[k v]|]; [|apply IH]. destruct (contains _ k); [apply IH|].
  cbn [i_site]. destruct (put_site is_number k v s); apply IH.
Qed.

(** What the parameters say of the remote site arrives at another object, whatever its field notes are: its texts, save the words for
    nothing.  Its coordinates do not arrive, and its runs arrive as the text of a list. *)
Theorem C111_remote_site notes extra put_note note_pairs put_extra is_number e0 e t : site_ok (i_site _ _ (e_info _ _ e0)) ->
  get_station notes extra note_pairs e0 = Ok t ->
  let o := i_site _ _ (e_info _ _ e0) in let s := i_site _ _ (e_info _ _ e) in
  let s' := i_site _ _ (e_info _ _ (set_station notes extra put_note put_extra is_number t e)) in
  s_id s' = carried (s_id o) (s_id s) /\ s_name s' = carried (s_name o) (s_name s) /\ s_survey s' = carried (s_survey o) (s_survey s) /\
  s_acquired_by s' = carried (s_acquired_by o) (s_acquired_by s) /\ s_country s' = carried (s_country o) (s_country s) /\
  s_project s' = carried (s_project o) (s_project s) /\ s_latitude s' = s_latitude s /\
  s_runs s' = match s_runs o with Some l => Some (read_runs (show_runs l)) | None => s_runs s end.
Proof.
  intros OK G o s s'. unfold get_station in G. destruct (e_runs _ _ e0) as [runs|]; [|discriminate G].
  assert (P : t_params t = map (render grp) (site_pairs o) ++ map (render ngrp) (note_pairs (i_notes _ _ (e_info _ _ e0)))) by (injection G as <-; reflexivity).
  assert (E : s' = read_site o s).
  { unfold s', set_station. cbn [e_info]. rewrite P, fold_left_app, notes_site, take_pairs by exact OK. reflexivity. }
  rewrite E. repeat split.
Qed.

(** The list of runs of a site, written in a file with blanks between the names, is read as it was. *)
Theorem C111_run_list l : Forall run_name l -> read_runs (join (txt " ") l) = l.
Proof. apply read_runs_join. Qed.

(** ** What does not come back *)
Definition blank_site : site := mkSite [] [] [] (txt "0.0") [] [] (Some []) [].
Definition blank : emtf unit unit := mkEmtf unit unit (mkInfo unit unit None blank_site tt tt) (Some []).
Definition no_put (k v : text) (u : unit) : unit := u.
Definition through (t : tf) : result tf := get_station unit unit (fun _ => []) (set_station unit unit no_put no_put (fun v => Some v) t blank).

(** No remote reference comes back unless a parameter names it; one with an empty name comes instead. *)
Theorem C111_references_refuted : forall runs remotes, exists t', through (mkTf runs remotes []) = Ok t' /\ t_remotes t' = [[]].
Proof. intros runs remotes. eexists. split; reflexivity. Qed.

(** Of several references at most one comes back, whatever the parameters. *)
Theorem C111_several_refuted : forall runs a b l params, exists t', through (mkTf runs (a :: b :: l) params) = Ok t' /\ t_remotes t' <> a :: b :: l.
Proof. intros runs a b l params. eexists. split; [reflexivity|]. discriminate. Qed.

(** A parameter of the processing does not come back, and one comes that was not there. *)
Theorem C111_parameters_refuted : exists t', through (mkTf [] [] [txt "nfft=4096"]) = Ok t' /\ t_params t' = [txt "remote_info.site.run_list = []"].
Proof. eexists. split; vm_compute; reflexivity. Qed.

(** The runs of the remote site gather quotes and blanks with every trip. *)
Definition with_runs (l : list text) : tf := mkTf [] [] [txt "remote_info.site.id = rr1"; txt "remote_info.site.run_list = " ++ join (txt " ") l].
Theorem C111_remote_runs_refuted : exists t1 t2, through (with_runs [txt "a"; txt "b"]) = Ok t1 /\ through t1 = Ok t2 /\ t_remotes t2 = [txt "rr1"] /\
  t_params t1 = [txt "remote_info.site.id = rr1"; txt "remote_info.site.run_list = ['a', 'b']"] /\
  t_params t2 = [txt "remote_info.site.id = rr1"; txt "remote_info.site.run_list = [''a'', ' 'b'']"].
Proof. do 2 eexists. split; [vm_compute; reflexivity|]. split; [vm_compute; reflexivity|]. repeat split. Qed.

(** The coordinates of the remote site are never written. *)
Theorem C111_coordinates_refuted : exists t', through (mkTf [] [] [txt "remote_info.site.location.latitude = 60.5"]) = Ok t' /\
  t_params t' = [txt "remote_info.site.run_list = []"].
Proof. eexists. split; vm_compute; reflexivity. Qed.

(** ** Concrete cases *)
Example C111_hyp_id : ends_with_id [txt "nfft=4096"; txt "remote_info.site.id = rr1"; txt "remote_info.site.id: rr 2"] [] (txt "rr1").
Proof.
  apply not_said; [intros v (a & b & A & _ & [[E N]|(E & _ & NE)]); [|apply NE; right; right; right; right; left; reflexivity]|].
  - assert (S : split1 "=" (txt "nfft=4096") = split1 "=" (a ++ "="%char :: b)) by (rewrite E; reflexivity).
    rewrite split1_app in S by exact N. cbn in S. injection S as <- _. discriminate A.
  - apply id_said with (v := txt "rr1"); [apply key_value_says; reflexivity|reflexivity|].
    apply id_refused with (v := txt "rr 2"); [apply key_value_says; reflexivity|reflexivity|]. constructor.
Qed.
Definition remote : site := mkSite (txt "A. N. Other") [] (txt "rr1") (txt "60.5") (txt "Lake = big: one") (txt "USMT-1") (Some []) (txt "None").
Example C111_hyp_site : site_ok remote.
Proof. repeat split; reflexivity. Qed.
Example C111_hyp_runs : Forall run_name [txt "mt01a"; txt "mt01b"].
Proof. repeat apply Forall_cons; try apply Forall_nil; (split; [discriminate|]); repeat split; apply has_char_notIn; reflexivity. Qed.

Print Assumptions C111_runs_and_reference.
Print Assumptions C111_remote_site.
