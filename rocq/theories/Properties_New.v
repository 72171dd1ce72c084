(** Properties of nodes just made. *)
From Coq Require Import ZArith String.
From Verif Require Import M_Base M_Double M_Json M_Mode M_Key M_Metadata M_Fs M_Attributes M_Container M_PyGroup S_Container S_New
  P_Container3 P_New Properties_Attributes Properties_Container.
Import ListNotations.
Local Open Scope list_scope.
Local Open Scope N_scope.

(** C107: after any history of calls, among them removals of nodes of the same
    name, a group or dataset just made, or a zarr file, has no attributes; an n5
    file shows its version only; *)
Theorem C107_attributes m m' cs c k p s s' : fs_ok s -> Forall (fun c => forall p, c = CRemove p -> p <> []) cs ->
  new_node c = Some (k, p) -> run_ccall m' c (snd (run_ccalls m cs s)) = (s', Ok tt) ->
  exists j, read_attributes k s' p = Ok j /\
    match c with
    | CCreateFile _ false _ => j = JObj [("n5", JStr "2.0.0")]%string
    | _ => no_attributes j
    end.
Proof. intros F R N C. exact (proj2 (@new_after m m' cs c k p s s' F R N C)). Qed.
Print Assumptions C107_attributes.
(** and there is nothing in it but one document: no group, no dataset, no chunk; *)
Theorem C107_bare m m' cs c k p s s' : fs_ok s -> Forall (fun c => forall p, c = CRemove p -> p <> []) cs ->
  new_node c = Some (k, p) -> run_ccall m' c (snd (run_ccalls m cs s)) = (s', Ok tt) ->
  bare s' p /\ forall key m'', key <> [] -> group_in s' (Handle p m'') key = false.
Proof.
  intros F R N C. assert (B := proj1 (@new_after m m' cs c k p s s' F R N C)). split; [exact B|].
  intros key m'' K. exact (bare_members m'' B K).
Qed.
Print Assumptions C107_bare.
(** in python: the names of [attrs]. *)
Theorem C107_python m m' cs c k p s s' : fs_ok s -> Forall (fun c => forall p, c = CRemove p -> p <> []) cs ->
  new_node c = Some (k, p) -> run_ccall m' c (snd (run_ccalls m cs s)) = (s', Ok tt) ->
  py_attr_keys s' (AttrManager k m' p) =
    Ok (match c with CCreateFile _ false _ => ["n5"]%string | _ => [] end).
Proof. exact (@new_names m m' cs c k p s s'). Qed.
Print Assumptions C107_python.

(** A dataset made at the place of a removed one that had attributes, and that
    held a group before. *)
Definition ex_again : list ccall :=
  [CCreateFile ["f"] true 2; CCreateGroup ["f"] ["x"] 2; CCreateGroup ["f"] ["x"; "y"] 2;
   CWriteAttr HGroup ["f"; "x"] (JObj [("a", JInt 1)]); CRemove ["f"; "x"]]%string.
Example C107_case :
  fs_ok ex_root /\ Forall (fun c => forall p, c = CRemove p -> p <> []) ex_again /\
  fst (run_ccalls Mode_a ex_again ex_root) = [Ok tt; Ok tt; Ok tt; Ok tt; Ok tt] /\
  read_attributes HGroup (snd (run_ccalls Mode_a (firstn 4 ex_again) ex_root)) ["f"; "x"]%string = Ok (JObj [("a", JUInt 1)])%string /\
  let c := (CCreateDataset ["f"] ["x"] "int32" [10] [4] "raw" [] (DZero false) "." 2 "default" [])%string in
  new_node c = Some (HDataset, ["f"; "x"]%string) /\
  exists s', run_ccall Mode_a c (snd (run_ccalls Mode_a ex_again ex_root)) = (s', Ok tt) /\
    fs_isdir s' ["f"; "x"]%string = true.
Proof.
  split; [exact ex_root_ok|]. split; [repeat constructor; intros p E; inversion E; discriminate|].
  split; [vm_compute; reflexivity|]. split; [vm_compute; reflexivity|].
  split; [reflexivity|]. apply after_unit. vm_compute. reflexivity.
Qed.
Example C107_file_case :
  exists s', run_ccall Mode_a (CCreateFile ["g"] false 2)%string (snd (run_ccalls Mode_a ex_again ex_root)) = (s', Ok tt) /\
    fs_isdir s' ["g"]%string = true.
Proof. apply after_unit. vm_compute. reflexivity. Qed.

(** That an n5 file just made has no attributes either is not true. *)
Theorem C107_n5_file_refuted : exists s', run_ccall Mode_a (CCreateFile ["g"] false 2)%string ex_root = (s', Ok tt) /\
  read_attributes HFile s' ["g"]%string = Ok (JObj [("n5", JStr "2.0.0")]%string).
Proof. apply after_unit. vm_compute. reflexivity. Qed.
Print Assumptions C107_n5_file_refuted.
