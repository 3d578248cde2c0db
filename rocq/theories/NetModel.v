(** Model of the translation between a survey and a StationXML network
    (mt_metadata/timeseries/stationxml/xml_network_mt_survey.py 67-204, with utils.py 157-229), and of identifiers
    (utils/validators.py 41-77).

    The dates and the release licence (C80) are left out; [update_all] (147) does nothing for a survey without stations.  A comment
    of the network is a subject and a text, as it is in a file.  A value with a bar assigned to a [Comment] is taken apart by it
    (CommentModel.v): here that is [bar]. *)
From Verif Require Import PyBase PyText SxmlModel.
Local Open Scope nat_scope.
Local Open Scope list_scope.

(** timeseries/survey.py 36-330 *)
Record survey : Type := mkSurvey {
  v_id : text; v_network : option text; v_name : text; v_summary : text; v_comment : option text; v_doi : option text;
  v_author : option text; v_email : option text; v_org : option text;                       (* project_lead *)
  v_country : option (list text); v_place : text; v_journal : option text; v_project : text;
  v_acquirer : option text; v_acq_comment : option text }.
(** obspy's Network, Operator, Person and Comment *)
Record person : Type := mkPerson { h_names : list text; h_emails : list text }.
Record operator : Type := mkOperator { o_agency : text; o_contacts : list person }.
Record network : Type := mkNetwork { w_code : option text; w_alternate : option text; w_description : option text;
  w_identifiers : list text; w_operators : list operator; w_comments : list (option text * text) }.

Definition new_survey : survey := mkSurvey [] None [] [] None None (Some []) None None None [] None [] (Some []) None.

(** ** Identifiers *)
Definition doi_head : text := txt "https://doi.org/".
Definition dx_head : text := txt "https://dx.doi.org/".
Definition path_char (c : ascii) : bool := (is_alpha c || is_digit c || existsb (Ascii.eqb c) ["-"; "_"; "."; "/"; ":"; ";"; "("; ")"]%char)%bool.
(** The URLs below doi.org that pydantic's [HttpUrl] leaves as they are: at most 2083 characters, none of them escaped, no steps up *)
Definition plain_url (s : text) : bool :=
  (prefix_of doi_head s && forallb path_char (skipn (List.length doi_head) s) &&
   forallb (fun w => negb (existsb (text_eqb w) [txt "."; txt ".."])) (split_on "/" (skipn (List.length doi_head) s)) &&
   (N.of_nat (List.length s) <=? 2083)%N)%bool.

Section Net.
(** [url]: [HttpUrl(s).unicode_string()] for the other texts; [bar]: what a [Comment] keeps of a value with a bar; [other]: any other
    attribute of the survey; [show_dict]: [str] of a dictionary *)
Variables (url : text -> option text) (bar : text -> result text) (other : text -> cvalue -> survey -> result survey)
          (show_dict : cdict -> text).

Definition http_url (s : text) : result text :=
  if plain_url s then Ok s else match url s with Some u => Ok u | None => Err ValueError end.
(** utils/validators.py 41-77 [validate_doi] of a text *)
Definition validate_doi (s : text) : result (option text) :=
  match s with
  | [] => Ok None
  | _ =>
      let s1 := if prefix_of (txt "10.") s then doi_head ++ s
                else if prefix_of (txt "doi:") s then doi_head ++ replace (txt "doi:") [] s else s in
      bindR (http_url s1) (fun u => if (prefix_of doi_head u || prefix_of dx_head u)%bool then Ok (Some u) else Err ValueError)
  end.

(** ** Writing *)
Definition truthy (o : option text) : option text := match o with Some (c :: s) => Some (c :: s) | _ => None end.
(** 157-187: an operator only with an organization; obspy's Person takes the address apart with a pattern, which is a [TypeError] for
    [None] *)
Definition make_operators (s : survey) : result (list operator) :=
  match truthy (v_org s) with
  | None => Ok []
  | Some org =>
      match truthy (v_author s) with
      | None => Ok [mkOperator org []]
      | Some a => match v_email s with
                  | Some m => Ok [mkOperator org [mkPerson [a] [m]]]
                  | None => Err TypeError
                  end
      end
  end.
(** utils.py 195-229 [make_mt_comments] with the sorted names of 57-65 *)
Definition note (key : string) (o : option text) : list (option text * text) :=
  match truthy o with Some v => [(Some (txt "mt.survey." ++ txt key), v)] | None => [] end.
Definition make_comments (s : survey) : list (option text * text) :=
  note "acquired_by.author" (v_acquirer s) ++ note "acquired_by.comments.value" (v_acq_comment s) ++ note "citation_journal.doi" (v_journal s) ++
  match v_country s with Some (c :: l) => [(Some (txt "mt.survey.country"), join (txt ", ") (c :: l))] | _ => [] end ++
  note "geographic_name" (Some (v_place s)) ++ note "id" (Some (v_id s)) ++ note "project" (Some (v_project s)).
(** 149-204; the code given as an argument is overwritten (200), and so is the comment of the survey (183-185, 201-202) *)
Definition mt_to_xml (code : text) (s : survey) : result network :=
  bindR (make_operators s) (fun ops =>
    Ok (mkNetwork (v_network s) (Some (v_id s)) (Some (v_summary s))
          [txt "DOI:" ++ match v_doi s with Some d => d | None => txt "None" end] ops (make_comments s))).

(** ** Reading *)
(** utils.py 157-174 *)
Definition read_identifiers (l : list text) : text := join (txt ", ") (map (fun i => replace (txt "DOI:") doi_head (strip i)) l).
(** survey.py 42: the pattern of [id]; common/fdsn.py 34: that of the code *)
Definition id_char (c : ascii) : bool := (is_alpha c || is_digit c || existsb (Ascii.eqb c) ["_"; "-"; " "]%char)%bool.
Definition code_ok (s : text) : bool := ((List.length s =? 2) && forallb (fun c => is_alpha c || is_digit c) s)%bool.
Definition set_id (i : text) (s : survey) : result survey :=
  if forallb id_char i then
    Ok (mkSurvey i (v_network s) (v_name s) (v_summary s) (v_comment s) (v_doi s) (v_author s) (v_email s) (v_org s) (v_country s)
          (v_place s) (v_journal s) (v_project s) (v_acquirer s) (v_acq_comment s))
  else Err ValueError.
Definition set_network (c : text) (s : survey) : result survey :=
  if code_ok c then
    Ok (mkSurvey (v_id s) (Some c) (v_name s) (v_summary s) (v_comment s) (v_doi s) (v_author s) (v_email s) (v_org s) (v_country s)
          (v_place s) (v_journal s) (v_project s) (v_acquirer s) (v_acq_comment s))
  else Err ValueError.
Definition set_name (n : text) (s : survey) : result survey :=
  Ok (mkSurvey (v_id s) (v_network s) n (v_summary s) (v_comment s) (v_doi s) (v_author s) (v_email s) (v_org s) (v_country s)
        (v_place s) (v_journal s) (v_project s) (v_acquirer s) (v_acq_comment s)).
Definition set_summary (n : text) (s : survey) : result survey :=
  Ok (mkSurvey (v_id s) (v_network s) (v_name s) n (v_comment s) (v_doi s) (v_author s) (v_email s) (v_org s) (v_country s)
        (v_place s) (v_journal s) (v_project s) (v_acquirer s) (v_acq_comment s)).
Definition comment_text (v : text) : result text := if has_char "|" v then bar v else Ok v.
Definition set_comment (v : text) (s : survey) : result survey :=
  bindR (comment_text v) (fun w =>
    Ok (mkSurvey (v_id s) (v_network s) (v_name s) (v_summary s) (Some w) (v_doi s) (v_author s) (v_email s) (v_org s) (v_country s)
          (v_place s) (v_journal s) (v_project s) (v_acquirer s) (v_acq_comment s))).
Definition set_doi (v : text) (s : survey) : result survey :=
  bindR (validate_doi v) (fun d =>
    Ok (mkSurvey (v_id s) (v_network s) (v_name s) (v_summary s) (v_comment s) d (v_author s) (v_email s) (v_org s) (v_country s)
          (v_place s) (v_journal s) (v_project s) (v_acquirer s) (v_acq_comment s))).
Definition set_lead (a m o : option text) (s : survey) : survey :=
  mkSurvey (v_id s) (v_network s) (v_name s) (v_summary s) (v_comment s) (v_doi s) a m o (v_country s)
    (v_place s) (v_journal s) (v_project s) (v_acquirer s) (v_acq_comment s).
Definition set_country (l : list text) (s : survey) : survey :=
  mkSurvey (v_id s) (v_network s) (v_name s) (v_summary s) (v_comment s) (v_doi s) (v_author s) (v_email s) (v_org s) (Some l)
    (v_place s) (v_journal s) (v_project s) (v_acquirer s) (v_acq_comment s).
Definition set_place (v : text) (s : survey) : survey :=
  mkSurvey (v_id s) (v_network s) (v_name s) (v_summary s) (v_comment s) (v_doi s) (v_author s) (v_email s) (v_org s) (v_country s)
    v (v_journal s) (v_project s) (v_acquirer s) (v_acq_comment s).
Definition set_journal (v : text) (s : survey) : result survey :=
  bindR (validate_doi v) (fun d =>
    Ok (mkSurvey (v_id s) (v_network s) (v_name s) (v_summary s) (v_comment s) (v_doi s) (v_author s) (v_email s) (v_org s) (v_country s)
          (v_place s) d (v_project s) (v_acquirer s) (v_acq_comment s))).
Definition set_project (v : text) (s : survey) : survey :=
  mkSurvey (v_id s) (v_network s) (v_name s) (v_summary s) (v_comment s) (v_doi s) (v_author s) (v_email s) (v_org s) (v_country s)
    (v_place s) (v_journal s) v (v_acquirer s) (v_acq_comment s).
Definition set_acquirer (v : text) (s : survey) : survey :=
  mkSurvey (v_id s) (v_network s) (v_name s) (v_summary s) (v_comment s) (v_doi s) (v_author s) (v_email s) (v_org s) (v_country s)
    (v_place s) (v_journal s) (v_project s) (Some v) (v_acq_comment s).
Definition set_acq_comment (v : text) (s : survey) : result survey :=
  bindR (comment_text v) (fun w =>
    Ok (mkSurvey (v_id s) (v_network s) (v_name s) (v_summary s) (v_comment s) (v_doi s) (v_author s) (v_email s) (v_org s) (v_country s)
          (v_place s) (v_journal s) (v_project s) (v_acquirer s) (Some w))).

(** 79-100 *)
Definition all_names (ops : list operator) : list text := flat_map (fun o => map (fun p => join (txt ", ") (h_names p)) (o_contacts o)) ops.
Definition all_emails (ops : list operator) : list text := flat_map (fun o => map (fun p => join (txt ", ") (h_emails p)) (o_contacts o)) ops.
Definition joined (l : list text) (old : option text) : option text := match l with [] => old | _ => Some (join (txt ", ") l) end.
Definition read_operators (ops : list operator) (s : survey) : survey :=
  set_lead (joined (all_names ops) (v_author s)) (joined (all_emails ops) (v_email s)) (joined (map o_agency ops) (v_org s)) s.

(** 108-114: the values of comments whose subject mentions an identifier *)
Definition doi_value (v : cvalue) : result cvalue :=
  match v with
  | CDict _ => Err AttributeError
  | CText t => Ok (CText (if prefix_of (txt "http") t then t
                          else if contains (txt "doi.org") t then txt "https://" ++ t else doi_head ++ t))
  end.
(** 120-123, 127-131: a further comment; [value in mt_survey.comments] looks among the pairs of names and values of the [Comment]
    and is never true *)
Definition add_comment (v : cvalue) (s : survey) : result survey :=
  match truthy (v_comment s) with
  | Some c => set_comment (c ++ txt ", " ++ match v with CText t => t | CDict d => show_dict d end) s
  | None => match v with CText t => set_comment t s | CDict _ => Err TypeError end
  end.
(** base/metadata.py 146-186 with the validators of survey.py: a dictionary is refused *)
Definition set_key (key : text) (v : cvalue) (s : survey) : result survey :=
  if text_eqb key (txt "country") then
    match v with CText t => Ok (set_country (map strip (split_on "," t)) s) | CDict _ => Err TypeError end
  else if text_eqb key (txt "acquired_by.comments.value") then
    match v with CText t => set_acq_comment t s | CDict _ => Err TypeError end
  else if existsb (text_eqb key) [txt "acquired_by.author"; txt "citation_journal.doi"; txt "geographic_name"; txt "id"; txt "project"] then
    match v with
    | CDict _ => Err ValueError
    | CText t => if text_eqb key (txt "acquired_by.author") then Ok (set_acquirer t s)
                 else if text_eqb key (txt "citation_journal.doi") then set_journal t s
                 else if text_eqb key (txt "geographic_name") then Ok (set_place t s)
                 else if text_eqb key (txt "id") then set_id t s
                 else Ok (set_project t s)
    end
  else other key v s.
(** 105-131: one comment; [key.split("mt.survey.")[1]] is what stands between the first and the second mark *)
Definition after_mark (key : text) : result text :=
  match split1_str (txt "mt.survey.") key with
  | (_, None) => Err IndexError
  | (_, Some r) => Ok (fst (split1_str (txt "mt.survey.") r))
  end.
Definition take_comment (c : option text * text) (s : survey) : result survey :=
  bindR (read_comment (fst c) (snd c)) (fun kv =>
  let '(key, v0) := kv in
  bindR (if contains (txt "doi") key then doi_value v0 else Ok v0) (fun v =>
    if contains (txt "mt.survey") key then
      bindR (after_mark key) (fun k0 =>
        let k := if contains (txt "summary") k0 then replace (txt "summary") (txt "comments") k0 else k0 in
        if text_eqb k (txt "comments") then add_comment v s else set_key k v s)
    else add_comment v s)).
Fixpoint take_comments (l : list (option text * text)) (s : survey) : result survey :=
  match l with [] => Ok s | c :: r => bindR (take_comment c s) (take_comments r) end.

Definition if_given (o : option text) (f : text -> survey -> result survey) (s : survey) : result survey :=
  match o with Some v => f v s | None => Ok s end.
(** 67-147, in the order of the translator (38-55): id, code, comments, summary, identifiers, operators, name *)
Definition xml_to_mt (w : network) : result survey :=
  bindR (if_given (w_alternate w) set_id new_survey) (fun s1 =>
  bindR (if_given (w_code w) set_network s1) (fun s2 =>
  bindR (take_comments (w_comments w) s2) (fun s3 =>
  bindR (if_given (w_description w) set_summary s3) (fun s4 =>
  bindR (set_doi (read_identifiers (w_identifiers w)) s4) (fun s5 =>
  let s6 := read_operators (w_operators w) s5 in
  bindR (if_given (w_alternate w) set_name s6) (fun s7 =>
    match v_id s7 with
    | [] => match v_network s7 with Some c => set_id c s7 | None => Err ValueError end
    | _ => Ok s7
    end)))))).

(** A survey written and read again *)
Definition trip (code : text) (s : survey) : result survey := bindR (mt_to_xml code s) xml_to_mt.
Fixpoint trips (code : text) (n : nat) (s : survey) : result survey :=
  match n with O => Ok s | S n' => bindR (trip code s) (trips code n') end.
End Net.
