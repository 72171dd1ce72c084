(** Properties C81 to C84: containers in an object store. *)
From Coq Require Import ZArith Ascii String.
From Verif Require Import M_Base P_Base M_Double M_Json M_Mode M_Key M_Blocking M_Metadata M_Fs M_Attributes M_Container M_Access M_Store M_S3 M_S3Container
  S_Container S_Text S_S3 S_S3Container P_S3 P_S3Container P_S3Container4 P_S3Container5 P_S3Container6 P_S3Text.
Import ListNotations.
Local Open Scope list_scope.
Local Open Scope N_scope.

(** * C81 *)

(** Every history of calls on a zarr container gives the same answers and exceptions in
    a bucket as in a directory, and leads to the same container; nothing outside of it
    changes.  [agreed] excludes the calls for which this is false, see the theorems
    below.  Partial: zarr containers, answered requests. *)
Theorem C81_history_partial T p n m cs t s : text_ok T -> mirror T p n t s -> reliable s -> all_agreed m p cs t ->
  let '(t', l) := history (dir_call m p) cs t in
  let '(s', l') := history (bucket_call T m n) cs s in
  l' = l /\ mirror T p n t' s' /\ rest_same n s s'.
Proof. exact (@containers_same T p n m cs t s). Qed.
Print Assumptions C81_history_partial.

(** keys() of a group in the bucket: the sub-directories of its directory, once each. *)
Theorem C81_keys T p n q m t s : mirror T p n t s -> reliable s -> Forall plain_name q ->
  exists s' l, s3_keys (S3Handle (place n q) m) s = (s', Ok l) /\ objects s' = objects s /\ reliable s' /\ NoDup l /\
    forall c, In c l <-> plain_name c /\ t (p ++ q ++ [c]) = Some NDir.
Proof. exact (@children_same T p n q m t s). Qed.
Print Assumptions C81_keys.

(** A file system with nothing but "/", and a bucket with someone else's objects. *)
Definition ex_empty : fsys := fun q => match q with [] => Some NDir | _ => None end.
Definition ex_shared : s3 := S3 [("data2/.zgroup", [1]); ("readme", [2])]%string [].

Example C81_start : mirror ex_text ["f"%string] "data" ex_empty ex_shared.
Proof.
  assert (N : forall k b, lookup (objects ex_shared) k = Some b -> ~ inside "data" k).
  { intros k b E. unfold lookup, ex_shared in E. cbn [objects find fst snd] in E. destruct (String.eqb_spec "data2/.zgroup" k) as [<-|_].
    - intros [X|[r X]]; discriminate X.
    - destruct (String.eqb_spec "readme" k) as [<-|_]; [|discriminate E]. intros [X|[r X]]; discriminate X. }
  constructor.
  - split; [reflexivity|]. intros [|x p] a H; [reflexivity|]. now elim H.
  - intros q c F. cbn [app ex_empty stored]. destruct (lookup (objects ex_shared) (place "data" (q ++ [c]))) as [b|] eqn:E; [|reflexivity].
    exfalso. apply (N _ _ E). apply inside_root; [exact F|now destruct q].
  - intros k [b E] I. exfalso. exact (N k b E I).
  - intros q F H. discriminate.
  - intros q c I H. discriminate.
  - reflexivity.
Qed.

Definition ex_history (fmt : Z) : list cont_call :=
  [KCreateFile fmt; KCreateFile fmt; KCreateGroup [] "g" fmt;
   KCreateDataset ["g"] "d" "uint8" [5; 4] [2; 3] "raw" [] (DZero false) "." fmt "default" [];
   KWriteAttrs HDataset ["g"; "d"] (JObj [("a", JInt 7); ("b", JBool true)]); KReadAttrs HDataset ["g"; "d"];
   KRemoveAttr HDataset ["g"; "d"] "b"; KReadAttrs HDataset ["g"; "d"];
   KIsSubGroup [] "g"; KIsSubGroup ["g"] "d"; KIsSubGroup ["g"] "x"; KIn [] "g"; KExists ["h"]; KIsZarr HGroup ["g"; "d"];
   KOpen ["g"] "d"; KOpen ["g"] "x"; KCreateGroup ["g"] "d" fmt; KRemove ["g"]; KExists ["g"]; KIn [] "g"]%string.

Lemma one_up t a : t [] = Some NDir -> way_free t [a].
Proof.
  intros D [|b q] B N; [now right|]. cbn in B. destruct (String.eqb_spec b a) as [->|]; [|discriminate B]. destruct q; [now elim N|discriminate B].
Qed.
Ltac look := vm_compute; reflexivity.
Ltac agreed_step :=
  match goal with
  | |- Forall _ _ => repeat constructor; try discriminate
  | |- no_file _ _ => first [left; look | right; look]
  | |- is_node _ _ _ => split; [look|first [exists "zarr.json"%string; split; [cbn; tauto|vm_compute; discriminate]
                                          |exists ".zgroup"%string; split; [cbn; tauto|vm_compute; discriminate]
                                          |exists ".zarray"%string; split; [cbn; tauto|vm_compute; discriminate]]]
  | |- ~ In _ documents => cbn; intuition discriminate
  | |- way_free _ _ => apply one_up; look
  | |- forall _, create_metadata _ _ _ _ _ _ _ _ _ _ _ = Ok _ -> _ =>
      let m := fresh in let E := fresh in intros m E; vm_compute in E; injection E as <-; eexists; look
  | |- forall _, read_dataset_metadata _ _ = Ok _ -> _ =>
      let m := fresh in let E := fresh in intros m E; vm_compute in E; first [discriminate E|injection E as <-; look]
  | |- _ <> [] => discriminate
  | |- _ = Some NDir => look
  | |- _ /\ _ => split
  end.

Example C81_case fmt : fmt = 2%Z \/ fmt = 3%Z ->
  text_ok ex_text /\ reliable ex_shared /\ all_agreed Mode_a ["f"%string] (ex_history fmt) ex_empty /\
  map (fun a => match a with Ok (ADataset b x) => Ok (ABool (b && M_Access.shape_eqb (op_shape x) [5; 4])) | x => x end)
     (snd (history (bucket_call ex_text Mode_a "data") (ex_history fmt) ex_shared)) =
   [Ok AUnit; Throw EInvalidArgument; Ok AUnit; Ok (ABool true); Ok AUnit; Ok (AJson (JObj [("a", JUInt 7); ("b", JBool true)]));
    Ok AUnit; Ok (AJson (JObj [("a", JUInt 7)])); Ok (ABool true); Ok (ABool false); Ok (ABool false);
    Ok (ABool true); Ok (ABool false); Ok (ABool (fmt =? 3)%Z); Ok (ABool true); Throw ERuntime; Throw EInvalidArgument;
    Ok AUnit; Ok (ABool false); Ok (ABool false)]%string /\
  map fst (objects (fst (history (bucket_call ex_text Mode_a "data") (ex_history fmt) ex_shared))) =
    [if (fmt =? 3)%Z then "data/zarr.json" else "data/.zgroup"; "data2/.zgroup"; "readme"]%string.
Proof.
  intros F. split; [exact ex_text_ok|]. split; [constructor|]. split.
  - unfold ex_history. cbn [all_agreed agreed]. destruct F as [-> | ->]; repeat (split; [repeat agreed_step|]); exact Logic.I.
  - destruct F as [-> | ->]; (split; [look|look]).
Qed.

(** ** Where the backends differ *)

(** n5: createGroup succeeds in the bucket but leaves nothing: the group does not exist
    afterwards, in a directory it does. *)
Theorem C81_n5_group_refuted : exists t s,
  fs_exists t ["f"%string] = true /\ snd (s3_exists (S3Handle "data" Mode_a) s) = Ok true /\
  is_zarr_group t ["f"%string] = Ok false /\ snd (s3_is_zarr_group (S3Handle "data" Mode_a) s) = Ok false /\
  (let '(t', r) := create_group (Handle ["f"%string] Mode_a) ["g"%string] 2 t in
   r = Ok tt /\ fs_exists t' ["f"; "g"]%string = true) /\
  (let '(s', r) := s3_create_group ex_text (S3Handle "data" Mode_a) "g" 2 s in
   r = Ok tt /\ objects s' = objects s /\ snd (s3_exists (S3Handle "data/g" Mode_a) s') = Ok false).
Proof.
  exists (fst (create_file (Handle ["f"%string] Mode_a) false 2 ex_empty)), (fst (s3_create_file ex_text (S3Handle "data" Mode_a) false 2 ex_shared)).
  repeat split; look.
Qed.
Print Assumptions C81_n5_group_refuted.

(** In general: creating a group in an n5 container has no effect on any bucket. *)
Theorem C81_n5_group_lost T h name fmt s : reliable s ->
  snd (s3_is_zarr_group h s) = Ok false -> snd (s3_exists (s3_child h name) s) = Ok false -> sh_mode h <> Mode_r ->
  let '(s', r) := s3_create_group T h name fmt s in r = Ok tt /\ objects s' = objects s.
Proof. exact (@n5_group_lost T h name fmt s). Qed.
Print Assumptions C81_n5_group_lost.

(** n5: a name that is not there is a group in the bucket, not in a directory. *)
Theorem C81_n5_sub_group_refuted : exists t s,
  fs_exists t ["f"; "x"]%string = false /\ snd (s3_in (S3Handle "data" Mode_r) "x" s) = Ok false /\
  is_sub_group t ["f"%string] ["x"%string] = Ok false /\
  snd (s3_is_sub_group ex_text (S3Handle "data" Mode_r) "x" s) = Ok true.
Proof.
  exists (fst (create_file (Handle ["f"%string] Mode_a) false 2 ex_empty)), (fst (s3_create_file ex_text (S3Handle "data" Mode_a) false 2 ex_shared)).
  repeat split; look.
Qed.
Print Assumptions C81_n5_sub_group_refuted.

(** Zarr: remove() of a group that is not there is an error in a directory, not in a
    bucket; a document of a group is a member in a bucket. *)
Theorem C81_members_refuted : exists t s, mirror ex_text ["f"%string] "data" t s /\
  snd (dir_call Mode_a ["f"%string] (KRemove ["x"%string]) t) = Throw EInvalidArgument /\
  snd (bucket_call ex_text Mode_a "data" (KRemove ["x"%string]) s) = Ok AUnit /\
  snd (dir_call Mode_a ["f"%string] (KIn [] ".zgroup") t) = Ok (ABool false) /\
  snd (bucket_call ex_text Mode_a "data" (KIn [] ".zgroup") s) = Ok (ABool true).
Proof.
  exists (fst (history (dir_call Mode_a ["f"%string]) [KCreateFile 2] ex_empty)), (fst (history (bucket_call ex_text Mode_a "data") [KCreateFile 2] ex_shared)).
  split; [|repeat split; look].
  pose proof (@C81_history_partial ex_text ["f"%string] "data" Mode_a [KCreateFile 2] ex_empty ex_shared ex_text_ok C81_start) as H.
  destruct (history (dir_call Mode_a ["f"%string]) _ _), (history (bucket_call ex_text Mode_a "data") _ _). apply H.
  - constructor.
  - cbn [all_agreed agreed]. repeat split; repeat agreed_step.
Qed.
Print Assumptions C81_members_refuted.

(** Zarr: a dataset of complex numbers (made by other software) is opened from a
    directory, but not from a bucket. *)
Definition ex_complex : json := JObj [("zarr_format", JInt 2); ("shape", JArr [JInt 4]); ("chunks", JArr [JInt 2]); ("dtype", JStr "<c8");
  ("compressor", JNull); ("fill_value", JInt 0); ("order", JStr "C"); ("filters", JNull)]%string.
Theorem C81_complex_refuted : exists t s, mirror ex_text ["f"%string] "data" t s /\ reliable s /\
  (exists o, snd (dir_call Mode_r ["f"%string] (KOpen [] "d") t) = Ok (ADataset true o)) /\
  snd (bucket_call ex_text Mode_r "data" (KOpen [] "d") s) = Throw ERuntime.
Proof.
  pose (t1 := fst (history (dir_call Mode_a ["f"%string]) [KCreateFile 2] ex_empty)).
  pose (s1 := fst (history (bucket_call ex_text Mode_a "data") [KCreateFile 2] ex_shared)).
  exists (with_node t1 ["f"; "d"]%string ".zarray" (reparse ex_complex)),
    (S3 (put_key "data/d/.zarray" (dump ex_text ex_complex) (objects s1)) []).
  split; [|split; [constructor|split; [eexists; look|look]]].
  assert (M : mirror ex_text ["f"%string] "data" t1 s1).
  { pose proof (@C81_history_partial ex_text ["f"%string] "data" Mode_a [KCreateFile 2] ex_empty ex_shared ex_text_ok C81_start) as H.
    unfold t1, s1. destruct (history (dir_call Mode_a ["f"%string]) _ _), (history (bucket_call ex_text Mode_a "data") _ _). apply H.
    - constructor.
    - cbn [all_agreed agreed]. repeat split; repeat agreed_step. }
  apply (@mirror_new ex_text ["f"%string] "data" ex_text_ok t1 s1 ["d"%string] ".zarray" ex_complex _ M).
  - repeat constructor; discriminate.
  - cbn; tauto.
  - look.
  - apply (@parent_way t1 ["f"%string] (mi_fs M)). look.
  - intros [|a q0] c0 E; [injection E as <-; split; [look|cbn; intuition discriminate]|]. destruct q0; discriminate E.
  - reflexivity.
Qed.
Print Assumptions C81_complex_refuted.

(** * C82 *)

(** The name of a node relative to a group above it (visititems): the names along the
    path between them. *)
Theorem C82_relative n q r : Forall plain_name r ->
  s3_relative_path (place n q) (place n (q ++ r)) = key_of r.
Proof. exact (@relative_below n q r). Qed.
Print Assumptions C82_relative.

(** It joins back to the name of the node. *)
Theorem C82_back n q r : r <> [] -> Forall plain_name r ->
  child (place n q) (s3_relative_path (place n q) (place n (q ++ r))) = place n (q ++ r).
Proof. exact (@relative_back n q r). Qed.
Print Assumptions C82_back.

Example C82_case : Forall plain_name ["b"; "c"]%string /\
  s3_relative_path "data/a" "data/a/b/c" = "b/c"%string /\ s3_relative_path "" "a/b" = "a/b"%string /\
  s3_relative_path "data" "data" = ""%string.
Proof. repeat split; try reflexivity; repeat constructor; discriminate. Qed.

(** A sibling whose name starts with the same characters: the result names a node below
    the group. *)
Theorem C82_sibling_refuted : exists a b x, ~ inside a b /\ s3_relative_path a b = x /\ child a x <> b /\ inside a (child a x).
Proof.
  exists "data/a"%string, "data/ab/c"%string, "b/c"%string. split; [intros [X|[r X]]; discriminate X|]. split; [reflexivity|].
  split; [discriminate|]. right. now exists "b/c"%string.
Qed.
Print Assumptions C82_sibling_refuted.

(** * C83 *)

(** Whatever becomes of the requests of a call, it changes at most the documents of the
    node it is about. *)
Theorem C83_objects T m n c s k : ~ may_change n c k ->
  lookup (objects (fst (bucket_call T m n c s))) k = lookup (objects s) k.
Proof. exact (@calls_touch T m n c s k). Qed.
Print Assumptions C83_objects.

Definition ex_node3 : s3 := fst (history (bucket_call ex_text Mode_a "data") [KCreateFile 3; KCreateGroup [] "g" 3;
  KWriteAttrs HGroup ["g"%string] (JObj [("a"%string, JInt 1)])] ex_shared).
Example C83_case :
  (forall k, may_change "data" (KCreateGroup [] "g" 3) k <-> k = "data/g/.zgroup"%string \/ k = "data/g/zarr.json"%string) /\
  (let '(s', r) := bucket_call ex_text Mode_a "data" (KCreateGroup [] "h" 3) (S3 (objects ex_node3) [Served; Served; Served; Served; Lost]) in
   r = Throw ERuntime /\ lookup (objects s') "data/g/zarr.json" = lookup (objects ex_node3) "data/g/zarr.json") /\
  snd (bucket_call ex_text Mode_a "data" (KReadAttrs HGroup ["g"%string]) ex_node3) = Ok (AJson (JObj [("a"%string, JUInt 1)])).
Proof.
  split; [|split; [split; look|look]]. intros k. cbn. split.
  - intros (d & [<-|[<-|[]]] & ->); auto.
  - intros [-> | ->]; eexists; (split; [|reflexivity]); auto.
Qed.

(** A request for the existence of an object that fails is taken for a "no".  Without an
    exception: attributes are written to a place where they are not found again ... *)
Theorem C83_write_refuted : exists s fs, reliable s /\
  (let '(s', r) := bucket_call ex_text Mode_a "data" (KWriteAttrs HGroup ["g"%string] (JObj [("b"%string, JInt 2)])) (S3 (objects s) fs) in
   r = Ok AUnit /\ snd (bucket_call ex_text Mode_a "data" (KReadAttrs HGroup ["g"%string]) (quiet s')) = Ok (AJson (JObj [("a"%string, JUInt 1)]))).
Proof.
  exists (S3 (objects ex_node3) []), [Served; Served; Served; Refused]. split; [constructor|]. split; look.
Qed.
Print Assumptions C83_write_refuted.

(** ... a node with attributes is read as one without ... *)
Theorem C83_read_refuted : exists s fs, reliable s /\
  snd (bucket_call ex_text Mode_a "data" (KReadAttrs HGroup ["g"%string]) s) = Ok (AJson (JObj [("a"%string, JUInt 1)])) /\
  snd (bucket_call ex_text Mode_a "data" (KReadAttrs HGroup ["g"%string]) (S3 (objects s) fs)) = Ok (AJson JNull).
Proof. exists (S3 (objects ex_node3) []), [Served; Served; Served; Refused]. split; [constructor|]. split; look. Qed.
Print Assumptions C83_read_refuted.

(** ... and a dataset of a zarr container is created as an n5 dataset, a group not at
    all. *)
Theorem C83_create_refuted : exists s fs c, reliable s /\
  snd (bucket_call ex_text Mode_a "data" (KIsZarr HFile []) s) = Ok (ABool true) /\
  c = KCreateDataset [] "d" "uint8" [4] [2] "raw" [] (DZero false) "." 3 "default" [] /\
  (let '(s', r) := bucket_call ex_text Mode_a "data" c (S3 (objects s) fs) in
   (exists o, r = Ok (ADataset true o)) /\ held s' "data/d/attributes.json" /\ ~ held s' "data/d/zarr.json" /\
   snd (bucket_call ex_text Mode_a "data" (KIsZarr HDataset ["d"%string]) (quiet s')) = Ok (ABool false)) /\
  (let '(s', r) := bucket_call ex_text Mode_a "data" (KCreateGroup [] "h" 3) (S3 (objects s) fs) in
   r = Ok AUnit /\ objects s' = objects s).
Proof.
  exists (S3 (objects ex_node3) []), [Served; Served; Refused]. eexists. split; [constructor|]. split; [look|]. split; [reflexivity|]. split; [|split; look].
  split; [eexists; look|]. split; [eexists; look|]. split; [|look]. intros [b E]. vm_compute in E. discriminate E.
Qed.
Print Assumptions C83_create_refuted.

(** * C84 *)

(** S3File(...): every mode, all requests answered.  Nothing outside of the container
    changes; 'r' and 'r+' need an existing container and change nothing, 'a' keeps an
    existing container or makes an empty one, 'w' leaves an empty one, 'w-' refuses an
    existing one. *)
Theorem C84_open T h fmt s : text_ok T -> reliable s ->
  let '(s', r) := s3_open_file T h fmt s in
  rest_same (sh_name h) s s' /\
  match sh_mode h with
  | Mode_r | Mode_r_p => objects s' = objects s /\ (there (sh_name h) s /\ r = Ok tt \/ ~ there (sh_name h) s /\ r = Throw EFilesystem)
  | Mode_a => r = Ok tt /\ (there (sh_name h) s /\ objects s' = objects s \/ ~ there (sh_name h) s /\ only_new T (sh_name h) fmt s')
  | Mode_w => r = Ok tt /\ only_new T (sh_name h) fmt s'
  | Mode_w_m => there (sh_name h) s /\ objects s' = objects s /\ r = Throw EFilesystem \/
                ~ there (sh_name h) s /\ only_new T (sh_name h) fmt s' /\ r = Ok tt
  end.
Proof. exact (@open_reliable T h fmt s). Qed.
Print Assumptions C84_open.

(** Any requests may fail: nothing outside of the container changes, and nothing at all
    with 'r' and 'r+'. *)
Theorem C84_frame T h fmt s : let s' := fst (s3_open_file T h fmt s) in
  rest_same (sh_name h) s s' /\ (can_create (sh_mode h) = false -> objects s' = objects s).
Proof. exact (@open_any T h fmt s). Qed.
Print Assumptions C84_frame.

Example C84_case : text_ok ex_text /\ reliable ex_node3 /\ there "data" ex_node3 /\ ~ there "dat" ex_node3 /\
  map fst (objects (fst (s3_open_file ex_text (S3Handle "data" Mode_w) 2 ex_node3))) = ["data/.zgroup"; "data2/.zgroup"; "readme"]%string /\
  snd (s3_open_file ex_text (S3Handle "dat" Mode_r) 2 ex_node3) = Throw EFilesystem.
Proof.
  split; [exact ex_text_ok|]. split; [vm_compute; constructor|]. split.
  - exists "data/zarr.json"%string. split; [eexists; look|]. right. now exists "zarr.json"%string.
  - split; [|split; look]. intros (k & [b E] & [X|[r ->]]); [discriminate X|]. vm_compute in E. discriminate E.
Qed.

(** Some objects below the name, none of them a document: the container is taken for an
    existing one by 'a'.  It is not zarr, although only zarr is supported: groups
    created in it are lost, and datasets are n5. *)
Theorem C84_foreign_refuted : exists s, reliable s /\
  (let '(s1, r) := s3_open_file ex_text (S3Handle "data" Mode_a) 2 s in
   r = Ok tt /\ snd (s3_is_zarr_group (S3Handle "data" Mode_a) s1) = Ok false /\
   (let '(s2, r) := bucket_call ex_text Mode_a "data" (KCreateGroup [] "g" 2) s1 in
    r = Ok AUnit /\ objects s2 = objects s) /\
   (let '(s2, r) := bucket_call ex_text Mode_a "data" (KCreateDataset [] "d" "uint8" [4] [2] "raw" [] (DZero false) "." 2 "default" []) s1 in
    (exists o, r = Ok (ADataset true o)) /\ held s2 "data/d/attributes.json")).
Proof.
  exists (S3 [("data/readme.txt"%string, [1])] []). split; [constructor|]. split; [look|]. split; [look|]. split; [split; look|].
  split; [eexists; look|eexists; look].
Qed.
Print Assumptions C84_foreign_refuted.

(** 'w' with a service that reports (inside a successful answer) that it did not delete
    an object: the container is opened as it is left. *)
Theorem C84_spared_refuted : exists s fs, reliable s /\
  (let '(s', r) := s3_open_file ex_text (S3Handle "data" Mode_w) 3 (S3 (objects s) fs) in
   r = Ok tt /\ snd (bucket_call ex_text Mode_w "data" (KReadAttrs HGroup ["g"%string]) (quiet s')) = Ok (AJson (JObj [("a"%string, JUInt 1)]))).
Proof. exists (S3 (objects ex_node3) []), [Served; Served; Spared ["data/g/zarr.json"%string]]. split; [constructor|]. split; look. Qed.
Print Assumptions C84_spared_refuted.
