(** Property C87: containers on a failing disk. *)
From Coq Require Import ZArith Ascii String.
From Verif Require Import M_Base P_Base M_Double M_Json M_Mode M_Key M_Metadata M_Fs M_Attributes M_Container M_Store M_S3Container M_DiskDocs
  S_Text S_Container S_S3 S_S3Container S_DiskDocs P_S3Text P_DiskDocs Properties_S3Container.
Import ListNotations.
Local Open Scope list_scope.
Local Open Scope N_scope.

(** C87: a call on a container (files, groups, datasets, attributes) on a disk with
    failing accesses.  Whatever fails, it has the result that it has on a working disk,
    or it throws because of the disk.  In the first case the files are those of a
    working disk, but one document may be lost; in the second the files are as before,
    but directories on the way to a new node may have been made, and parts of a removed
    node may be gone. *)
Theorem C87_call T z m p c s : call_named c ->
  let '(s', r) := disk_call T z m p c s in let '(t1, r1) := sound_call z m p c (dc_files s) in
  (r = r1 /\ ((forall x, dc_files s' x = t1 x) \/ (~ writes_saved s /\ one_lost T p c (dc_files s) t1 (dc_files s')))) \/
  (exists e, doc_error e /\ r = Throw e /\ left_by p c (dc_files s) (dc_files s')).
Proof. exact (@any_call T z m p c s). Qed.
Print Assumptions C87_call.

(** If no document is lost then a call that returns has had its effect. *)
Theorem C87_saved T z m p c s : call_named c -> writes_saved s ->
  let '(s', r) := disk_call T z m p c s in let '(t1, r1) := sound_call z m p c (dc_files s) in
  (r = r1 /\ forall x, dc_files s' x = t1 x) \/
  (exists e, doc_error e /\ r = Throw e /\ left_by p c (dc_files s) (dc_files s')).
Proof.
  intros NM W. pose proof (@C87_call T z m p c s NM) as H. destruct (disk_call T z m p c s) as [s' r], (sound_call z m p c (dc_files s)) as [t1 r1].
  destruct H as [[E [H|[N _]]]|H]; [left; auto|contradiction|right; exact H].
Qed.
Print Assumptions C87_saved.

(** Calls that only read: a failure is never taken for a missing node, document or
    attribute, and nothing changes. *)
Theorem C87_read T z m p c s : call_named c -> (forall d, ~ written_docs p c d) -> (forall q, c <> KRemove q) ->
  let '(s', r) := disk_call T z m p c s in
  (forall x, dc_files s' x = dc_files s x) /\
  (r = snd (sound_call z m p c (dc_files s)) \/ exists e, doc_error e /\ r = Throw e).
Proof.
  intros NM W NR. pose proof (@C87_call T z m p c s NM) as H.
  assert (X : new_node p c = None /\ fst (sound_call z m p c (dc_files s)) = dc_files s).
  { destruct c; try (split; reflexivity); exfalso.
    1,2: eapply W; cbn; eexists; split; [left; reflexivity|reflexivity].
    1,2,3: eapply W; cbn; eexists; split; [left; reflexivity|reflexivity]. now elim (NR q). }
  destruct X as [X1 X2]. destruct (disk_call T z m p c s) as [s' r], (sound_call z m p c (dc_files s)) as [t1 r1]. cbn [fst snd] in *. subst t1.
  destruct H as [[E [H|[_ (d & j & Wd & _)]]]|(e & De & E & L)]; [auto|now elim (W d)|]. split; [|eauto].
  intros x. destruct (L x) as [Y|[(n & Y & _)|(q & Y & _)]]; [exact Y|congruence|now elim (NR q)].
Qed.
Print Assumptions C87_read.

(** If no access fails then the calls do what the other properties say. *)
Theorem C87_no_failure T z m p c s : call_named c -> docs_work s ->
  let '(s', r) := disk_call T z m p c s in let '(t1, r1) := sound_call z m p c (dc_files s) in
  r = r1 /\ forall x, dc_files s' x = t1 x.
Proof. exact (@calm_docs T z m p c s). Qed.
Print Assumptions C87_no_failure.

(** A container with a dataset that has the attribute "a". *)
Definition ex_fails : doc_fate := DocFails 1 (fun q => Nat.eqb (List.length q) 3).
Definition ex_dataset (fmt : Z) (name : string) : cont_call :=
  KCreateDataset [] name "uint8" [5; 4] [2; 3] "raw" [] (DZero false) "." fmt "default" [].
Definition ex_attrs : cont_call := KWriteAttrs HDataset ["d"%string] (JObj [("b", JBool true)]%string).
Definition ex_container (fmt : Z) : fsys := dc_files (fst (history (disk_call ex_text true Mode_a ["f"%string])
  [KCreateFile fmt; ex_dataset fmt "d"; KWriteAttrs HDataset ["d"%string] (JObj [("a", JInt 7)]%string)] (Docs ex_empty [] []))).

(** Failures of every kind; the container is removed in part. *)
Example C87_case :
  let s := Docs (ex_container 2) (ex_fails :: repeat DocWorks 3 ++ ex_fails :: repeat DocWorks 3 ++ [ex_fails; DocWorks; ex_fails]) [] in
  call_named ex_attrs /\ writes_saved s /\
  snd (history (disk_call ex_text true Mode_a ["f"%string])
    [KExists []; KReadAttrs HDataset ["d"%string]; KCreateGroup [] "h" 2; KRemove ["d"%string]; KOpen [] "d"] s) =
  [Throw EFilesystem; Throw EFilesystem; Throw EFilesystem; Throw EFilesystem; Throw ERuntime] /\
  snd (disk_call ex_text true Mode_a ["f"%string] (KReadAttrs HDataset ["d"%string]) s) = Throw EFilesystem.
Proof. split; [exact I|]. split; [constructor|]. split; vm_compute; reflexivity. Qed.

(** A document that is not saved is not noticed: attributes are written without an
    exception, and are not there. *)
Theorem C87_attributes_refuted : exists s s', Forall (eq DocWorks) (dc_fates s) /\
  disk_call ex_text true Mode_a ["f"%string] ex_attrs s = (s', Ok AUnit) /\ dc_fates s' = [] /\ dc_writes s' = [] /\
  snd (disk_call ex_text true Mode_a ["f"%string] (KReadAttrs HDataset ["d"%string]) s) = Ok (AJson (JObj [("a", JUInt 7)]%string)) /\
  snd (disk_call ex_text true Mode_a ["f"%string] (KReadAttrs HDataset ["d"%string]) s') = Ok (AJson (JObj [("a", JUInt 7)]%string)).
Proof.
  pose (s := Docs (ex_container 2) [] [Unopened]). exists s, (fst (disk_call ex_text true Mode_a ["f"%string] ex_attrs s)).
  split; [constructor|]. split; [apply injective_projections; [reflexivity|vm_compute; reflexivity]|]. split; [vm_compute; reflexivity|].
  split; [vm_compute; reflexivity|]. split; vm_compute; reflexivity.
Qed.
Print Assumptions C87_attributes_refuted.

(** Zarr v3: the attributes are in the document of the dataset.  If the disk is full
    when attributes are written then there is no exception, and the dataset cannot be
    opened any more. *)
Theorem C87_destroyed_refuted : exists s s' o, Forall (eq DocWorks) (dc_fates s) /\
  snd (disk_call ex_text true Mode_a ["f"%string] (KOpen [] "d") s) = Ok (ADataset true o) /\
  disk_call ex_text true Mode_a ["f"%string] ex_attrs s = (s', Ok AUnit) /\ dc_fates s' = [] /\
  snd (disk_call ex_text true Mode_a ["f"%string] (KOpen [] "d") s') = Throw EJson /\
  snd (disk_call ex_text true Mode_a ["f"%string] (KReadAttrs HDataset ["d"%string]) s') = Throw EJson.
Proof.
  pose (s := Docs (ex_container 3) [] [Cut 5]). exists s, (fst (disk_call ex_text true Mode_a ["f"%string] ex_attrs s)).
  eexists. split; [constructor|]. split; [vm_compute; reflexivity|]. split; [apply injective_projections; [reflexivity|vm_compute; reflexivity]|].
  split; [vm_compute; reflexivity|]. split; vm_compute; reflexivity.
Qed.
Print Assumptions C87_destroyed_refuted.

(** createDataset returns a dataset that cannot be opened. *)
Theorem C87_created_refuted : exists s s' o, Forall (eq DocWorks) (dc_fates s) /\
  disk_call ex_text true Mode_a ["f"%string] (ex_dataset 2 "e") s = (s', Ok (ADataset true o)) /\ dc_fates s' = [] /\
  snd (disk_call ex_text true Mode_a ["f"%string] (KOpen [] "e") s') = Throw ERuntime.
Proof.
  pose (s := Docs (ex_container 2) [] [Unopened]). exists s, (fst (disk_call ex_text true Mode_a ["f"%string] (ex_dataset 2 "e") s)).
  eexists. split; [constructor|]. split; [apply injective_projections; [reflexivity|vm_compute; reflexivity]|].
  split; vm_compute; reflexivity.
Qed.
Print Assumptions C87_created_refuted.

(** Opening a File object.  The format [z] is the one of the extension; without an
    extension it is found out from the documents, and a failure may hide a zarr
    container.  Except for that the object is opened as on a working disk, but the
    document of a new container may be lost; or there is an exception, and the files
    are as before, except for directories on the way, and in mode w the old container. *)
Theorem C87_open_file T p m ext uz fmt s :
  exists z, (forall z0, ext = Some z0 -> z = z0) /\ (z = true -> infer_format (dc_files s) p ext = true) /\
  let '(s', r) := doc_open_file T (Handle p m) ext uz fmt s in
  let '(t1, r1) := py_open_file (Handle p m) (Some z) uz fmt (dc_files s) in
  (r = r1 /\ ((forall x, dc_files s' x = t1 x) \/ (~ writes_saved s /\ new_lost T p (dc_files s) t1 (dc_files s')))) \/
  (exists e, doc_error e /\ r = Throw e /\ open_left (should_truncate m) p (dc_files s) (dc_files s')).
Proof. exact (@opened_file T p m ext uz fmt s). Qed.
Print Assumptions C87_open_file.
Theorem C87_open_no_failure T p m ext uz fmt s : docs_work s ->
  let '(s', r) := doc_open_file T (Handle p m) ext uz fmt s in
  let '(t1, r1) := py_open_file (Handle p m) ext uz fmt (dc_files s) in
  r = r1 /\ forall x, dc_files s' x = t1 x.
Proof. exact (@calm_open T p m ext uz fmt s). Qed.
Print Assumptions C87_open_no_failure.

(** Mode a on a container of zarr v3; the second access to its document fails. *)
Example C87_open_case :
  let s l := Docs (ex_container 3) l [] in
  snd (doc_open_file ex_text (Handle ["f"%string] Mode_a) (Some true) None 2 (s [])) = Ok 3%Z /\
  snd (doc_open_file ex_text (Handle ["f"%string] Mode_a) (Some true) None 2 (s (repeat DocWorks 6 ++ [ex_fails]))) = Throw EJson.
Proof. split; vm_compute; reflexivity. Qed.

(** A zarr container without an extension, mode w: if its document cannot be looked up
    once then the new container is n5. *)
Theorem C87_format_refuted : exists p s s', infer_format (dc_files s) p None = true /\ writes_saved s /\
  doc_open_file ex_text (Handle p Mode_w) None None 2 s = (s', Ok 2%Z) /\
  dc_files s' (p ++ [".zgroup"%string]) = None /\
  dc_files s' (p ++ ["attributes.json"%string]) = Some (NDoc (JObj [("n5", JStr "2.0.0")]%string)).
Proof.
  pose (s := Docs (ex_container 2) [ex_fails] []). exists ["f"%string], s, (fst (doc_open_file ex_text (Handle ["f"%string] Mode_w) None None 2 s)).
  split; [vm_compute; reflexivity|]. split; [constructor|]. split; [apply injective_projections; [reflexivity|vm_compute; reflexivity]|].
  split; vm_compute; reflexivity.
Qed.
Print Assumptions C87_format_refuted.
