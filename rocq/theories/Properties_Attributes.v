(** Properties of attributes. *)
From Coq Require Import ZArith String.
From Verif Require Import M_Base M_Double M_Json M_Mode M_Metadata M_Fs M_Attributes S_Attributes P_Attributes
  M_Container S_Container P_Container P_Container2 P_Container3.
Import ListNotations.
Local Open Scope list_scope.
Local Open Scope N_scope.

(** C48.  After any history of attribute writes and removals through a writable
    handle of a file, group or dataset (n5, zarr v2, zarr v3), the calls that
    succeeded are those of the specification, and reading shows for each name the
    last value written and not removed since, or what was there before. *)
Theorem C48_merge k m p v z ops s j0 :
  can_write m = true -> attr_node k s p v z -> Forall aop_ok ops ->
  read_attributes k s p = Ok j0 ->
  fst (api_run k m p ops s) = fst (table_run (protected k z) ops (fun a => jfind a j0)) /\
  exists j, read_attributes k (snd (api_run k m p ops s)) p = Ok j /\
            shows j (snd (table_run (protected k z) ops (fun a => jfind a j0))).
Proof. exact (@attributes_history k m p v z ops s j0). Qed.
Print Assumptions C48_merge.

(** All other files stay as they are, and in zarr.json all other entries. *)
Theorem C48_frame k m p v z ops s :
  can_write m = true -> attr_node k s p v z -> Forall aop_ok ops ->
  (forall q, q <> p ++ [attr_file v z] -> snd (api_run k m p ops s) q = s q) /\
  (v = true -> forall a, a <> "attributes"%string ->
     match s (p ++ ["zarr.json"%string]), snd (api_run k m p ops s) (p ++ ["zarr.json"%string]) with
     | Some (NDoc d), Some (NDoc d') => jfind a d' = jfind a d
     | _, _ => False
     end).
Proof.
  intros W A F. destruct (@api_run_ok k m p v z W ops s A F) as [_ [Q [V _]]].
  split; [exact Q|]. intros ->. exact (V eq_refl).
Qed.
Print Assumptions C48_frame.

(** A container with one dataset, in each format. *)
Definition ex_root : fsys := fun p => match p with [] => Some NDir | _ => None end.
Definition ex_calls (z : bool) (fmt : Z) : list ccall :=
  [CCreateFile ["f"%string] z fmt;
   CCreateGroup ["f"%string] ["g"%string] fmt;
   CCreateDataset ["f"%string] ["g"; "d"]%string "uint8" [5; 4] [2; 3] "gzip" [("useZlib"%string, OBool false)]
     (DZero false) "." fmt "default" []].
Definition ex_fs (z : bool) (fmt : Z) : fsys := snd (run_ccalls Mode_a (ex_calls z fmt) ex_root).
Definition ex_ops : list aop :=
  [AWrite (JObj [("a", JInt 1); ("b", JStr "x")]); ARemove "b"; AWrite (JObj [("a", JReal DNan); ("dimensions", JInt 3)]);
   AWrite (JObj [("c", JArr [JBool true])]); AWrite (JStr "no object"); ARemove "zz"]%string.

Lemma ex_ops_ok : Forall aop_ok ex_ops.
Proof.
  unfold ex_ops. repeat constructor; cbn; repeat constructor; cbn; try tauto;
    intros X; repeat destruct X as [X|X]; discriminate || tauto.
Qed.

Example C48_case :
  attr_node HDataset (ex_fs false 2) ["f"; "g"; "d"]%string false false /\
  attr_node HDataset (ex_fs true 2) ["f"; "g"; "d"]%string false true /\
  attr_node HDataset (ex_fs true 3) ["f"; "g"; "d"]%string true true /\
  attr_node HGroup (ex_fs true 3) ["f"; "g"]%string true true /\
  attr_node HFile (ex_fs false 2) ["f"]%string false false /\
  Forall aop_ok ex_ops /\
  fst (api_run HDataset Mode_a ["f"; "g"; "d"]%string ex_ops (ex_fs false 2)) = [true; true; false; true; false; true] /\
  fst (api_run HDataset Mode_a ["f"; "g"; "d"]%string ex_ops (ex_fs true 3)) = [true; true; true; true; false; true] /\
  read_attributes HDataset (snd (api_run HDataset Mode_a ["f"; "g"; "d"]%string ex_ops (ex_fs false 2)))
    ["f"; "g"; "d"]%string = Ok (JObj [("a", JUInt 1); ("c", JArr [JBool true])])%string /\
  read_attributes HDataset (snd (api_run HDataset Mode_a ["f"; "g"; "d"]%string ex_ops (ex_fs true 3)))
    ["f"; "g"; "d"]%string = Ok (JObj [("a", JNull); ("dimensions", JUInt 3); ("c", JArr [JBool true])])%string.
Proof.
  repeat match goal with |- _ /\ _ => split end;
    try (apply ex_ops_ok); try (vm_compute; reflexivity);
    split; try (vm_compute; reflexivity); vm_compute; repeat split; try discriminate; tauto.
Qed.

(** C49.  Through the handle of a dataset no history of attribute calls changes
    the metadata that opening reads (any format); *)
Theorem C49_metadata_kept m p v z ops s :
  can_write m = true -> attr_node HDataset s p v z -> Forall aop_ok ops ->
  read_dataset_metadata (snd (api_run HDataset m p ops s)) p = read_dataset_metadata s p.
Proof. exact (@attributes_keep_metadata m p v z ops s). Qed.
Print Assumptions C49_metadata_kept.

(** attempts to do so in n5 fail and change nothing; *)
Theorem C49_refused m p l a s :
  attr_node HDataset s p false false ->
  In a ["dimensions"; "blockSize"; "dataType"; "compressionType"; "compression"]%string ->
  (jlookup a l <> None ->
    fst (write_attributes HDataset m p (JObj l) s) = s /\ is_ok (snd (write_attributes HDataset m p (JObj l) s)) = false) /\
  fst (remove_attribute HDataset m p a s) = s /\ is_ok (snd (remove_attribute HDataset m p a s)) = false.
Proof. exact (@n5_refused m p l a s). Qed.
Print Assumptions C49_refused.

(** and reading never shows these entries. *)
Theorem C49_hidden s p j a :
  attr_node HDataset s p false false -> read_attributes HDataset s p = Ok j ->
  In a ["dimensions"; "blockSize"; "dataType"; "compressionType"; "compression"]%string ->
  jfind a j = None.
Proof. exact (@n5_hidden s p j a). Qed.
Print Assumptions C49_hidden.

Example C49_case :
  (exists m, read_dataset_metadata (snd (api_run HDataset Mode_a ["f"; "g"; "d"]%string ex_ops (ex_fs false 2)))
    ["f"; "g"; "d"]%string = Ok m /\ md_shape m = [5; 4] /\ md_chunks m = [2; 3]) /\
  (exists j, ex_fs false 2 ["f"; "g"; "d"; "attributes.json"]%string = Some (NDoc j) /\
             jfind "dimensions" j = Some (JArr [JUInt 4; JUInt 5])).
Proof. split; eexists; vm_compute; repeat split; reflexivity. Qed.

(** C49 holds for the dataset handle only: through the group handle of the same
    directory (File and Group handles can be made for any path) the entries are
    neither hidden nor protected. *)
Theorem C49_group_handle_refuted :
  exists s', write_attributes HGroup Mode_a ["f"; "g"; "d"]%string (JObj [("dimensions"%string, JArr [JUInt 7; JUInt 7])])
               (ex_fs false 2) = (s', Ok tt) /\
    exists m, read_dataset_metadata s' ["f"; "g"; "d"]%string = Ok m /\ md_shape m = [7; 7].
Proof. eexists. split; [vm_compute; reflexivity|]. eexists. split; vm_compute; reflexivity. Qed.
Print Assumptions C49_group_handle_refuted.
