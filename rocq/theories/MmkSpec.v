(** Specification for C139: an experiment made from a directory of XML files. *)
From Verif Require Import PyBase PyText PyNum JfileModel ManyModel ManySpec MmkModel.
Local Open Scope list_scope.

(** A dictionary filled from a list: the keys in the order in which they are first seen, each with the last of its values. *)
Definition firsts (l : list text) : list text := rev (nodup text_dec (rev l)).
Definition latest {A : Type} (key : A -> text) (l : list A) (k : text) (v : A) : Prop :=
  exists l1 l2, l = l1 ++ v :: l2 /\ key v = k /\ forall a, In a l2 -> key a <> k.
Definition collected {A : Type} (key : A -> text) (l : list A) (d : list (text * A)) : Prop :=
  map fst d = firsts (map key l) /\ forall k v, dget text_dec k d = Some v <-> latest key l k v.

(** No file of a channel belongs to a run of the stations. *)
Definition without_channels (d : sorted_files) : Prop := forall e x, In e (d_stations d) -> In x (snd e) -> snd x = [].

(** The place of a channel that has none is that of the station. *)
Definition nowhere (p : place) : Prop := (lat p == 0 /\ lon p == 0 /\ elev p == 0)%Q.
Definition placed (p : place) (c c' : chan) : Prop :=
  c_type c' = c_type c /\ c_comp c' = c_comp c /\ c_rest c' = c_rest c /\ (nowhere (c_place c) -> c_place c' = p) /\ (~ nowhere (c_place c) -> c_place c' = c_place c).
(** A run as its file has it, its channels placed. *)
Definition run_made (rd : reader) (p : place) (x : file * list file) (r : run) : Prop :=
  exists r0, rd_run rd (fst x) = Ok r0 /\ r_id r = r_id r0 /\ r_rest r = r_rest r0
             /\ Forall2 (fun a b => fst b = fst a /\ placed p (snd a) (snd b)) (r_chans r0) (r_chans r).
(** The runs listed by the station file, empty but for the channels of the first. *)
Definition listed (k : station_content) : list run :=
  match firsts (k_list k) with
  | [] => []
  | i :: l => mkRun i (k_added k) [] :: map (fun i => mkRun i [] []) l
  end.
Definition station_made (rd : reader) (e : station_files) (s : station) : Prop :=
  exists k rs, rd_station rd (fst e) = Ok k /\ s_id s = k_id k /\ s_place s = k_place k
               /\ Forall2 (run_made rd (k_place k)) (snd e) rs /\ collected r_id (listed k ++ rs) (s_runs s).
Definition readable (rd : reader) (e : station_files) : Prop :=
  (exists k, rd_station rd (fst e) = Ok k) /\ forall x, In x (snd e) -> exists r, rd_run rd (fst x) = Ok r.

(** Filters *)
Definition filter_types : list (text * class) := [(txt "zpk", PoleZero); (txt "coefficient", Coefficient); (txt "time delay", TimeDelay); (txt "fir", Fir)].
Definition filter_made (e : filter_element) (f : filt) : Prop :=
  exists t ts c, e_types e = Some t :: ts /\ In (t, c) filter_types /\ e_read e c = Ok f.
