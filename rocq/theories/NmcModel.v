(** Model of the channel names of transfer functions: /repo/mt_metadata/transfer_functions/core.py 50-57, 113-119, 478-567, 575-611 (TF), and
    io/zfiles/zmm.py 336, 405-431 (ZMM).

    A nomenclature is a dictionary, and dictionaries are shared: an object keeps a reference to the one it was given.  The heap is the list of all dictionaries,
    its first entry being DEFAULT_CHANNEL_NOMENCLATURE of mt_metadata/__init__.py 85-91.  Of the datasets only the labels of the channels are modelled (the same for
    input and output, core.py 626, 642); the values are in TfModel.v. *)
From Verif Require Import PyBase PyText.
Local Open Scope list_scope.

Notation dict := (list (text * text)).
Definition get (k : text) (d : dict) : option text := dget text_dec k d.
Definition put (k v : text) (d : dict) : dict := dset text_dec k v d.

(** The attributes ex, ey, hx, hy, hz. *)
Record names : Type := mkNames { n_ex : text; n_ey : text; n_hx : text; n_hy : text; n_hz : text }.
(** The key "all": core.py 626, 642 *)
Definition all_names (n : names) : list text := [n_ex n; n_ey n; n_hz n; n_hx n; n_hy n].
Definition default_dict : dict :=
  [(txt "hx", txt "hx"); (txt "hy", txt "hy"); (txt "hz", txt "hz"); (txt "ex", txt "ex"); (txt "ey", txt "ey")].

(** A TF: its dictionary, the names, the names in the lists ex_ey, hx_hy and ex_ey_hz, the inverse (empty when it was not made) and the labels of the dataset. *)
Record obj : Type := mkObj { o_ref : nat; o_names : names; o_lists : names; o_inverse : dict; o_labels : list text }.
Record state : Type := mkState { heap : list dict; cache : list (dict * list text); objs : list obj }.
Definition start : state := mkState [default_dict] [] [].
Definition dict_at (s : state) (r : nat) : dict := nth r (heap s) [].

Fixpoint update {A : Type} (n : nat) (x : A) (l : list A) : list A :=
  match l, n with [], _ => [] | _ :: r, O => x :: r | y :: r, S n => y :: update n x r end.

(** core.py 600-611: the names one by one; a name that is missing is a KeyError, and leaves those before it changed. *)
Definition set_names (d : dict) (n l : names) : names * names * option exn :=
  match get (txt "ex") d with None => (n, l, Some KeyError) | Some ex =>
  let n := mkNames ex (n_ey n) (n_hx n) (n_hy n) (n_hz n) in
  match get (txt "ey") d with None => (n, l, Some KeyError) | Some ey =>
  let n := mkNames (n_ex n) ey (n_hx n) (n_hy n) (n_hz n) in
  match get (txt "hx") d with None => (n, l, Some KeyError) | Some hx =>
  let n := mkNames (n_ex n) (n_ey n) hx (n_hy n) (n_hz n) in
  match get (txt "hy") d with None => (n, l, Some KeyError) | Some hy =>
  let n := mkNames (n_ex n) (n_ey n) (n_hx n) hy (n_hz n) in
  match get (txt "hz") d with None => (n, l, Some KeyError) | Some hz =>
  let n := mkNames (n_ex n) (n_ey n) (n_hx n) (n_hy n) hz in
  (n, n, None) end end end end end.
Definition set_obj (s : state) (o : obj) (r : nat) : obj * option exn :=
  let '(n, l, e) := set_names (dict_at s r) (o_names o) (o_lists o) in (mkObj r n l (o_inverse o) (o_labels o), e).

(** 478-480 [_get_template_key]: the sorted items; two dictionaries have the same exactly if they are equal. *)
Definition same_dict (a b : dict) : bool :=
  Nat.eqb (length a) (length b) && forallb (fun kv => match get (fst kv) b with Some v => text_eqb v (snd kv) | None => false end) a.
Definition cached (c : list (dict * list text)) (d : dict) : option (list text) := option_map snd (List.find (fun e => same_dict (fst e) d) c).
(** 482-567 [_initialize_transfer_function]: the labels of the template in the cache of the class, made from the names when there is none. *)
Definition initialize (s : state) (o : obj) : list (dict * list text) * list text :=
  let d := dict_at s (o_ref o) in
  match cached (cache s) d with
  | Some l => (cache s, l)
  | None => ((d, all_names (o_names o)) :: cache s, all_names (o_names o))
  end.

(** zmm.py 419-427: the names that are missing are added to the dictionary that was given. *)
Definition zmm_comps : list text := map fst default_dict.
Fixpoint zmm_fill (cs : list text) (d : dict) : dict :=
  match cs with [] => d | c :: r => zmm_fill r (match get c d with Some _ => d | None => put c c d end) end.
Definition zmm_name (d : dict) (c : text) : text := match get c d with Some v => v | None => c end.

(** What a program does: make a dictionary, assign an entry of one, make a TF, set the nomenclature of a TF, set its periods for the first time (1558-1562), ask for
    its inverse nomenclature, make a ZMM with a dictionary (zmm.py 336: also with the default one). *)
Inductive op : Type :=
| NewDict (d : dict) | Edit (r : nat) (k v : text) | NewTF | SetNames (i r : nat) | SetPeriods (i : nat) | AskInverse (i : nat) | NewZmm (r : nat).
Definition blank : names := mkNames [] [] [] [] [].
Definition step (s : state) (o : op) : state * option exn :=
  match o with
  | NewDict d => (mkState (heap s ++ [d]) (cache s) (objs s), None)
  | Edit r k v => (mkState (update r (put k v (dict_at s r)) (heap s)) (cache s) (objs s), None)
  | NewTF =>
      (* 56-57, 109; no object is made when the default dictionary lacks a name *)
      let '(x, e) := set_obj s (mkObj 0 blank blank [] []) 0 in
      match e with
      | Some _ => (s, e)
      | None => let '(c, l) := initialize s x in (mkState (heap s) c (objs s ++ [mkObj (o_ref x) (o_names x) (o_lists x) [] l]), None)
      end
  | SetNames i r =>
      match nth_error (objs s) i with
      | None => (s, None)
      | Some x => let '(y, e) := set_obj s x r in (mkState (heap s) (cache s) (update i y (objs s)), e)
      end
  | SetPeriods i =>
      match nth_error (objs s) i with
      | None => (s, None)
      | Some x => let '(c, l) := initialize s x in (mkState (heap s) c (update i (mkObj (o_ref x) (o_names x) (o_lists x) (o_inverse x) l) (objs s)), None)
      end
  | AskInverse i =>
      match nth_error (objs s) i with
      | None => (s, None)
      | Some x =>
          (* 113-119 *)
          let inv := match o_inverse x with [] => fold_left (fun a kv => put (snd kv) (fst kv) a) (dict_at s (o_ref x)) [] | _ => o_inverse x end in
          (mkState (heap s) (cache s) (update i (mkObj (o_ref x) (o_names x) (o_lists x) inv (o_labels x)) (objs s)), None)
      end
  | NewZmm r => (mkState (update r (zmm_fill zmm_comps (dict_at s r)) (update 0 (zmm_fill zmm_comps (dict_at s 0)) (heap s))) (cache s) (objs s), None)
  end.
Definition run (s : state) (l : list op) : state := fold_left (fun s o => fst (step s o)) l s.
