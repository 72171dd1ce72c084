(** Properties of Python groups as mappings. *)
From Coq Require Import ZArith Ascii String.
From Verif Require Import M_Base M_Double M_Json M_Mode M_Key S_Text M_Metadata S_Metadata M_Fs M_Attributes S_Attributes
  M_Container S_Container P_Container Properties_Attributes Properties_Container
  M_PyGroup S_PyGroup P_PyGroup P_PyGroup2 P_PyGroup8 Properties_PyGroup M_PyMapping S_PyMapping P_PyMapping.
Import ListNotations.
Local Open Scope list_scope.
Local Open Scope N_scope.

(** * C114: groups as mappings *)

(** Iterating gives exactly the names [n] for which [n in g], each once, and
    [len(g)] is their number. *)
Theorem C114_iter s ls g : listing s ls ->
  NoDup (py_iter ls g) /\ py_len ls g = List.length (py_iter ls g) /\
  forall n, In n (py_iter ls g) <-> proper n /\ py_contains s g n = true.
Proof.
  intros L. split; [exact (@iter_NoDup s ls g L)|]. split; [reflexivity|]. intros n. exact (@iter_members s ls g n L).
Qed.
Print Assumptions C114_iter.

(** [items()] gives exactly the pairs [(n, g[n])], in the order of the iteration, and
    [values()] their second components. *)
Theorem C114_items s ls g : listing s ls -> all_readable s ls g ->
  exists L, py_items ls s g = Ok L /\ map fst L = py_iter ls g /\ py_values ls s g = Ok (map snd L) /\
    forall n x, In (n, x) L <-> proper n /\ py_getitem s g n = Ok x.
Proof. exact (@readable_items s ls g). Qed.
Print Assumptions C114_items.

(** [g.get(key)] is the default exactly if there is no directory with this name, and
    otherwise [g[key]]. *)
Theorem C114_get s g key : key <> [] -> Forall proper key ->
  (py_get s g (name_of key) = Ok None <-> fs_isdir s (h_path (pg_handle g) ++ key) = false) /\
  forall x, (py_get s g (name_of key) = Ok (Some x) <-> py_getitem s g (name_of key) = Ok x).
Proof. exact (@get_spec s g key). Qed.
Print Assumptions C114_get.

(** [g == g'] always has an answer, and it is True exactly if no dataset is in or
    below either group and the same names exist in both. *)
Theorem C114_equal s ls g g' d : listing s ls -> all_readable s ls g -> all_readable s ls g' ->
  (forall k u, member s g k (PGroup u) -> (List.length k < d)%nat) -> (0 < d)%nat ->
  exists b, py_eq ls d s g g' = Ok b /\
    (b = true <-> only_groups s g /\ only_groups s g' /\ same_names s g g').
Proof. intros L. exact (@eq_characterised s ls L d g g'). Qed.
Print Assumptions C114_equal.

Example C114_case :
  listing ex_tree ex_ls /\ all_readable ex_tree ex_ls (ex_pg 2) /\
  (forall k u, member ex_tree (ex_pg 2) k (PGroup u) -> (List.length k < 2)%nat) /\
  py_iter ex_ls (ex_pg 2) = ["g"%string] /\
  is_ok (py_get ex_tree (ex_pg 2) "g/d") = true /\ py_get ex_tree (ex_pg 2) "h" = Ok None /\
  py_eq ex_ls 2 ex_tree (ex_pg 2) (ex_pg 2) = Ok false.
Proof.
  destruct C77_case as [L [A [D _]]]. split; [exact L|]. split; [exact A|]. split; [exact D|].
  repeat split; vm_compute; reflexivity.
Qed.

(** FINDING: a group with a dataset somewhere below it is not equal to itself
    ([g == g] is False, although [g is g]), whatever group it is. *)
Theorem C114_self_refuted s ls g d k o : listing s ls -> all_readable s ls g ->
  (forall k u, member s g k (PGroup u) -> (List.length k < d)%nat) -> (0 < d)%nat ->
  member s g k (PDataset o) -> py_eq ls d s g g = Ok false.
Proof.
  intros L A D D0 M. destruct (@eq_characterised s ls L d g g A A D D0) as [[|] [E B]]; [|exact E].
  destruct (proj1 B Logic.eq_refl) as [O _]. destruct (O _ _ M) as [u X]. discriminate X.
Qed.
Print Assumptions C114_self_refuted.

Example C114_self_case : exists o, member ex_tree (ex_pg 2) ["g"; "d"]%string (PDataset o).
Proof.
  destruct (py_getitem ex_tree (PyGroup (Handle ["f"; "g"]%string Mode_a) "/g" "." 2) "d") as [[|o]| |] eqn:E;
    try (vm_compute in E; discriminate E).
  exists o. apply (@member_below ex_tree (ex_pg 2) "g"%string (PyGroup (Handle ["f"; "g"]%string Mode_a) "/g" "." 2)).
  - vm_compute. intuition discriminate.
  - vm_compute. reflexivity.
  - constructor; [vm_compute; intuition discriminate|exact E].
Qed.

(** FINDING: two different groups are equal if no datasets are in them, in particular
    any two empty groups, also of different containers; their attributes are not
    compared. *)
Theorem C114_distinct_refuted :
  let s : fsys := fun p =>
    if existsb (path_eqb p) [[]; ["f"]; ["f"; "a"]; ["f"; "b"]]%string then Some NDir
    else if path_eqb p ["f"; "attributes.json"]%string then Some (NDoc (JObj [("n5", JStr "2.0.0")]%string))
    else if path_eqb p ["f"; "b"; "attributes.json"]%string then Some (NDoc (JObj [("x", JBool true)]%string))
    else None in
  let ls (p : path) := (if path_eqb p [] then ["f"] else if path_eqb p ["f"] then ["a"; "b"] else [])%string in
  let f := PyGroup (Handle ["f"%string] Mode_a) "" "." 2 in
  exists a b, py_getitem s f "a" = Ok (PGroup a) /\ py_getitem s f "b" = Ok (PGroup b) /\
    h_path (pg_handle a) <> h_path (pg_handle b) /\ py_eq ls 1 s a b = Ok true.
Proof.
  cbv zeta.
  exists (PyGroup (Handle ["f"; "a"]%string Mode_a) "/a" "." 2), (PyGroup (Handle ["f"; "b"]%string Mode_a) "/b" "." 2).
  split; [vm_compute; reflexivity|]. split; [vm_compute; reflexivity|]. split; [discriminate|vm_compute; reflexivity].
Qed.
Print Assumptions C114_distinct_refuted.
