(** What comes back of a survey that is written as a StationXML network and read again. *)
From Verif Require Import PyBase PyText NetModel.
Local Open Scope list_scope.

(** A text that a comment carries *)
Definition carried (v : text) : Prop := ~ In ":"%char v.
Definition lead_ok (s : survey) : Prop := truthy (v_org s) <> None -> truthy (v_author s) <> None -> v_email s <> None.
Definition area (c : text) : Prop := strip c = c /\ ~ In ","%char c /\ carried c.
Definition survey_ok (s : survey) : Prop :=
  v_id s <> [] /\ forallb id_char (v_id s) = true /\
  (forall c, v_network s = Some c -> code_ok c = true) /\ lead_ok s /\
  (forall l, v_country s = Some l -> Forall area l) /\ carried (v_place s) /\ carried (v_project s) /\
  (forall a, v_acquirer s = Some a -> carried a) /\ (forall c, v_acq_comment s = Some c -> carried c /\ ~ In "|"%char c).
(** An identifier with room for [room] more characters *)
Definition doi_ok (room : N) (s : survey) : Prop :=
  forall d, v_doi s = Some d -> plain_url d = true /\ contains (txt "DOI:") d = false /\ (N.of_nat (List.length d) + room <= 2083)%N.

Definition doi_text (s : survey) : text := match v_doi s with Some d => d | None => txt "None" end.
(** The survey that comes back *)
Definition back (s : survey) : survey :=
  let '(a, m, o) := match truthy (v_org s) with
                    | None => (Some [], None, None)
                    | Some org => match truthy (v_author s) with Some a => (Some a, v_email s, Some org) | None => (Some [], None, Some org) end
                    end in
  mkSurvey (v_id s) (v_network s) (v_id s) (v_summary s) None (Some (txt "https://doi.org/" ++ doi_text s)) a m o
    (match v_country s with Some (c :: l) => Some (c :: l) | _ => None end) (v_place s) None (v_project s)
    (match truthy (v_acquirer s) with Some a => Some a | None => Some [] end) (truthy (v_acq_comment s)).
