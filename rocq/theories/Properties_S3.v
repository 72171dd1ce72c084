(** Properties C57, C58 and C70 of the object store backend. *)
From Verif Require Import M_Base M_Text M_Key M_Blocking M_View M_Bytes M_N5Header M_Format
  M_Mode M_Shard M_Dataset M_Sharded M_Access M_Store M_S3 S_Text S_Dataset S_S3
  P_Base P_Key P_Dataset P_Store P_S3 P_S3Sim P_S3Fail Properties_Dataset Properties_Access Properties_Sharded.
Import List ListNotations.
Local Open Scope list_scope.
Local Open Scope N_scope.

(** * C57 *)

(** exists() of a file, group or dataset: true exactly if some object belongs to it. *)
Theorem C57_exists h s : reliable s ->
  exists s' b, s3_exists h s = (s', Ok b) /\ objects s' = objects s /\ reliable s' /\
    (b = true <-> exists k, held s k /\ inside (sh_name h) k).
Proof. exact (@s3_exists_spec h s). Qed.
Print Assumptions C57_exists.

(** in(name): true exactly if there is an object with the key of the child, or an
    object that belongs to it. *)
Theorem C57_in h name s : reliable s -> child (sh_name h) name <> ""%string ->
  exists s' b, s3_in h name s = (s', Ok b) /\ objects s' = objects s /\ reliable s' /\
    (b = true <-> held s (child (sh_name h) name) \/ exists k, held s k /\ inside (child (sh_name h) name) k).
Proof. exact (@s3_in_spec h name s). Qed.
Print Assumptions C57_in.

(** remove(): afterwards nothing belongs to the node, and every other object is as it
    was. *)
Theorem C57_remove h s : reliable s -> can_write (sh_mode h) = true ->
  exists s', s3_remove h s = (s', Ok tt) /\ reliable s' /\
    forall k, (inside (sh_name h) k -> ~ held s' k) /\
              (~ inside (sh_name h) k -> lookup (objects s') k = lookup (objects s) k).
Proof. exact (@s3_remove_spec h s). Qed.
Print Assumptions C57_remove.

(** remove() with any failing requests: other objects are as they were, no object has
    a new value, and without an exception nothing is left - unless the service reports
    that it spared some objects, see [C70_spared_refuted]. *)
Theorem C57_remove_failing h s s' r : s3_remove h s = (s', r) ->
  (forall k, ~ inside (sh_name h) k -> lookup (objects s') k = lookup (objects s) k) /\
  (forall k, lookup (objects s') k = lookup (objects s) k \/ lookup (objects s') k = None) /\
  match r with
  | Ok _ => deletes_all s -> forall k, inside (sh_name h) k -> ~ held s' k
  | Throw e => e = ERuntime \/ e = EInvalidArgument /\ can_write (sh_mode h) = false /\ s' = s
  | UB => False
  end.
Proof. exact (@s3_remove_any h s s' r). Qed.
Print Assumptions C57_remove_failing.

(** keys(): the names of the children that something belongs to, once each. *)
Theorem C57_keys h s : reliable s ->
  exists s' l, s3_keys h s = (s', Ok l) /\ objects s' = objects s /\ reliable s' /\ NoDup l /\
    forall c, In c l <-> slash_free c = true /\ exists r, held s (child (sh_name h) c ++ "/" ++ r)%string.
Proof. exact (@s3_keys_spec h s). Qed.
Print Assumptions C57_keys.

(** What belongs to a node, as paths: exactly what lies below it, whatever the names -
    no sibling whose name only starts with the same characters. *)
Theorem C57_paths p q : Forall plain_name p -> Forall plain_name q -> p <> [] -> q <> [] ->
  inside (key_of p) (key_of q) <-> exists r, r <> [] /\ q = p ++ r.
Proof. exact (@inside_path p q). Qed.
Print Assumptions C57_paths.

(** A bucket with a group "data", a dataset "data/a", and siblings "data2", "dataset". *)
Definition ex_bucket : list (string * bytes) :=
  [("data/.zgroup", [1]); ("data/a/.zarray", [2]); ("data/a/0.0", [3]); ("data2/.zgroup", [4]);
   ("dataset", [5]); ("data/ab/.zarray", [6])]%string.
Definition ex_node (n : string) : s3_handle := S3Handle n Mode_a.
Example C57_case :
  reliable (S3 ex_bucket [Served]) /\ can_write (sh_mode (ex_node "data/a")) = true /\
  Forall plain_name ["data"; "a"]%string /\ key_of ["data"; "a"; "0.0"]%string = "data/a/0.0"%string /\
  snd (s3_exists (ex_node "dat") (S3 ex_bucket [])) = Ok false /\
  snd (s3_exists (ex_node "data/a") (S3 ex_bucket [])) = Ok true /\
  snd (s3_in (ex_node "data") "a" (S3 ex_bucket [])) = Ok true /\
  snd (s3_in (ex_node "data") "" (S3 ex_bucket [])) = Ok false /\
  snd (s3_keys (ex_node "data") (S3 ex_bucket [])) = Ok ["a"; "ab"]%string /\
  map fst (objects (fst (s3_remove (ex_node "data/a") (S3 ex_bucket [])))) =
    ["data/.zgroup"; "data2/.zgroup"; "dataset"; "data/ab/.zarray"]%string /\
  map fst (objects (fst (s3_remove (ex_node "data") (S3 ex_bucket [Served; Refused])))) = map fst ex_bucket.
Proof.
  split; [repeat constructor|]. split; [reflexivity|]. split; [repeat constructor; discriminate|].
  repeat (split; [vm_compute; reflexivity|]). vm_compute. reflexivity.
Qed.

(** * C58 *)

(** The same calls on a dataset in a directory and on one in a bucket that start with
    the same contents: the same answers and exceptions, in the end the same contents
    under the same relative keys, and the rest of the bucket untouched.  Plain
    datasets, zarr and n5. *)
Theorem C58_plain name d cs st s : fs_separator (k_delim (d_key d)) -> reliable s -> mirrors name st s ->
  let '(st', l) := history (fs_call d) cs st in
  let '(s', l') := history (call (s3_policy name) d) cs s in
  l' = l /\ mirrors name st' s' /\ others_same name s s'.
Proof. exact (@backends_same name d cs st s). Qed.
Print Assumptions C58_plain.

Theorem C58_sharded name sd cs st s : fs_separator (k_delim (d_key (sd_base sd))) -> reliable s -> mirrors name st s ->
  let '(st', l) := history (fs_sh_call sd) cs st in
  let '(s', l') := history (sh_call (s3_policy name) sd) cs s in
  l' = l /\ mirrors name st' s' /\ others_same name s s'.
Proof. exact (@backends_same_sharded name sd cs st s). Qed.
Print Assumptions C58_sharded.

Definition ex_calls : list ds_call :=
  [KWriteArray (FromScalar [5; 0]) [1; 0] [3; 3]; KRaw [0; 0]; KRemove [0; 1]; KExists [0; 1]; KExists [1; 1];
   KReadArray (make_view [2; 2]) [1; 1] (repeat [0; 0] 4); KRead [9; 9] []].
Example C58_case :
  fs_separator (k_delim (d_key ex_zarr)) /\ reliable (S3 ex_bucket []) /\ mirrors "ds" (fun _ => None) (S3 ex_bucket []) /\
  snd (history (call (s3_policy "ds") ex_zarr) ex_calls (S3 ex_bucket [])) =
    [Ok AUnit; Ok (ABytes [7; 0; 7; 0; 5; 0; 5; 0]); Ok AUnit; Ok (ABool false); Ok (ABool true);
     Ok (ACells false [[5; 0]; [7; 0]; [5; 0]; [5; 0]]); Throw ERuntime] /\
  snd (history (sh_call (s3_policy "ds") ex_sharded) ex_calls (S3 ex_bucket [])) =
    [Ok AUnit; Ok (ABytes [7; 0; 7; 0; 5; 0; 5; 0]); Ok AUnit; Ok (ABool false); Ok (ABool true);
     Ok (ACells false [[5; 0]; [7; 0]; [5; 0]; [5; 0]]); Ok (ACells false [])].
Proof.
  split; [right; reflexivity|]. split; [constructor|]. split; [|split; vm_compute; reflexivity].
  intros k. reflexivity.
Qed.

(** The full claim is false.  A separator that contains "/" without being "/" (from
    foreign metadata) can be written to a bucket but not to a directory. *)
Theorem C58_separator_refuted : exists d c, d_zarr d = true /\ dataset_ok (Dataset (d_shape d) (d_chunks d) (KeyConfig true "." 2 "default") (d_type d) (d_fill d) (d_codec d) (d_mode d)) /\
  snd (fs_call d c (fun _ => None)) = Throw ERuntime /\ snd (call (s3_policy "ds") d c (S3 [] [])) = Ok AUnit.
Proof.
  exists (Dataset [5; 3] [2; 2] (KeyConfig true "a/b" 2 "default") (ElemType 2 false) [7; 0] raw_codec Mode_a), (KWriteArray (FromScalar [5; 0]) [0; 0] [2; 2]).
  split; [reflexivity|]. split; [exact ex_zarr_ok|]. split; vm_compute; reflexivity.
Qed.
Print Assumptions C58_separator_refuted.

(** checkVarlenChunk of an n5 dataset finds a chunk of variable length in a directory,
    but not in a bucket with the same contents. *)
Theorem C58_varlen_refuted : exists d ids data n,
  dataset_ok d /\ can_write (d_mode d) = true /\
  (let st := fst (fs_call d (KVarlenWrite ids data n) (fun _ => None)) in
   check_varlen_chunk d st ids = Ok (true, n)) /\
  (let s := fst (call (s3_policy "ds") d (KVarlenWrite ids data n) (S3 [] [])) in
   exists m, m <> n /\ snd (g_check_varlen (s3_policy "ds") d ids s) = Ok (false, m)).
Proof.
  exists ex_n5, [0; 0], [[1; 0]; [2; 0]; [3; 0]], 3. split; [exact ex_n5_ok|]. split; [reflexivity|].
  split; [vm_compute; reflexivity|]. exists 4. split; [discriminate|]. vm_compute. reflexivity.
Qed.
Print Assumptions C58_varlen_refuted.

(** * C70 *)

(** Whatever requests fail, a call on a sharded dataset either throws or does exactly
    what it does without failures; nothing outside of the dataset changes. *)
Theorem C70_sharded_partial name sd c s :
  let '(s', r) := sh_call (s3_policy name) sd c s in
  let '(s1, r1) := sh_call (s3_policy name) sd c (quiet s) in
  others_same name s s' /\ (r = Throw ERuntime \/ r = r1 /\ objects s' = objects s1).
Proof. exact (@sharded_failure name sd c s). Qed.
Print Assumptions C70_sharded_partial.

(** The same for single chunks of plain datasets. *)
Theorem C70_chunks_partial name d c s : single_chunk c ->
  let '(s', r) := call (s3_policy name) d c s in
  let '(s1, r1) := call (s3_policy name) d c (quiet s) in
  others_same name s s' /\ (r = Throw ERuntime \/ r = r1 /\ objects s' = objects s1).
Proof. exact (@chunk_failure name d c s). Qed.
Print Assumptions C70_chunks_partial.

(** And a call for a single chunk that fails leaves the bucket as it was, or as it is
    after the complete call. *)
Theorem C70_state_partial name d sd c s : single_chunk c ->
  (let s' := fst (call (s3_policy name) d c s) in
   objects s' = objects s \/ objects s' = objects (fst (call (s3_policy name) d c (quiet s)))) /\
  (let s' := fst (sh_call (s3_policy name) sd c s) in
   objects s' = objects s \/ objects s' = objects (fst (sh_call (s3_policy name) sd c (quiet s)))).
Proof. intros H. split; [exact (@chunk_failure_state name d c s H)|exact (@sharded_failure_state name sd c s H)]. Qed.
Print Assumptions C70_state_partial.

(** exists() of files, groups and datasets throws or is right. *)
Theorem C70_exists_partial h s s' r : s3_exists h s = (s', r) -> objects s' = objects s /\
  (r = Throw ERuntime \/ exists b, r = Ok b /\ (b = true <-> exists k, held s k /\ inside (sh_name h) k)).
Proof. exact (@s3_exists_any h s s' r). Qed.
Print Assumptions C70_exists_partial.

(** A bucket with one complete chunk of [ex_zarr], and one with a shard. *)
Definition ex_stored : list (string * bytes) := [("ds/0.0", [1; 0; 2; 0; 3; 0; 4; 0])]%string.
Definition ex_shards : list (string * bytes) :=
  objects (fst (sh_call (s3_policy "ds") ex_sharded (KWriteArray (FromScalar [5; 0]) [0; 0] [4; 3]) (S3 [] []))).
Example C70_case :
  single_chunk (KRead [0; 0] (repeat [0; 0] 4)) /\
  snd (call (s3_policy "ds") ex_zarr (KRead [0; 0] (repeat [0; 0] 4)) (S3 ex_stored [Refused])) = Throw ERuntime /\
  snd (call (s3_policy "ds") ex_zarr (KRead [0; 0] (repeat [0; 0] 4)) (S3 ex_stored [Served; Refused])) =
    Ok (ACells false [[1; 0]; [2; 0]; [3; 0]; [4; 0]]) /\
  objects (fst (call (s3_policy "ds") ex_zarr (KWrite [0; 0] (repeat [9; 0] 4)) (S3 ex_stored [Lost]))) =
    [("ds/0.0", [9; 0; 9; 0; 9; 0; 9; 0])]%string /\
  snd (sh_call (s3_policy "ds") ex_sharded (KReadArray (make_view [2; 2]) [0; 0] (repeat [0; 0] 4)) (S3 ex_shards [Refused])) = Throw ERuntime /\
  snd (sh_call (s3_policy "ds") ex_sharded (KReadArray (make_view [2; 2]) [0; 0] (repeat [0; 0] 4)) (S3 ex_shards [])) =
    Ok (ACells false (repeat [5; 0] 4)) /\
  snd (s3_exists (ex_node "data") (S3 ex_bucket [Lost])) = Throw ERuntime.
Proof. repeat (split; [first [exact Logic.I | vm_compute; reflexivity]|]). vm_compute. reflexivity. Qed.

(** The claim is false for sub-arrays of plain datasets.  A read whose request for the
    existence of a chunk fails returns the fill value for stored elements. *)
Theorem C70_read_refuted : exists d ov off out s,
  dataset_ok d /\ snd (call (s3_policy "ds") d (KReadArray ov off out) (quiet s)) = Ok (ACells false [[1; 0]; [2; 0]; [3; 0]; [4; 0]]) /\
  snd (call (s3_policy "ds") d (KReadArray ov off out) s) = Ok (ACells false (repeat (d_fill d) 4)) /\ fates s = [Refused].
Proof.
  exists ex_zarr, (make_view [2; 2]), [0; 0], (repeat [0; 0] 4), (S3 ex_stored [Refused]). split; [exact ex_zarr_ok|].
  split; [vm_compute; reflexivity|]. split; [vm_compute; reflexivity|reflexivity].
Qed.
Print Assumptions C70_read_refuted.

(** A write of one element after such a failure succeeds and replaces the other
    elements of the chunk by the fill value. *)
Theorem C70_write_refuted : exists d src off n s,
  dataset_ok d /\ fates s = [Refused] /\ lookup (objects s) "ds/0.0" = Some [1; 0; 2; 0; 3; 0; 4; 0] /\ n = [1; 1] /\
  snd (call (s3_policy "ds") d (KWriteArray src off n) s) = Ok AUnit /\
  lookup (objects (fst (call (s3_policy "ds") d (KWriteArray src off n) s))) "ds/0.0" = Some [9; 0; 7; 0; 7; 0; 7; 0] /\
  lookup (objects (fst (call (s3_policy "ds") d (KWriteArray src off n) (quiet s)))) "ds/0.0" = Some [9; 0; 2; 0; 3; 0; 4; 0].
Proof.
  exists ex_zarr, (FromScalar [9; 0]), [0; 0], [1; 1], (S3 ex_stored [Refused]). split; [exact ex_zarr_ok|].
  repeat (split; [vm_compute; reflexivity|]). vm_compute. reflexivity.
Qed.
Print Assumptions C70_write_refuted.

(** A chunk that is there is reported as missing, a member of a group too. *)
Theorem C70_exists_refuted : exists d ids s h name,
  snd (call (s3_policy "ds") d (KExists ids) (quiet s)) = Ok (ABool true) /\
  snd (call (s3_policy "ds") d (KExists ids) s) = Ok (ABool false) /\
  snd (s3_in h name (quiet s)) = Ok true /\ snd (s3_in h name s) = Ok false.
Proof.
  exists ex_zarr, [0; 0], (S3 ex_stored [Refused]), (ex_node "ds"), "0.0"%string.
  repeat (split; [vm_compute; reflexivity|]). vm_compute. reflexivity.
Qed.
Print Assumptions C70_exists_refuted.

(** keys() returns an empty list for a group with members. *)
Theorem C70_keys_refuted : exists h s,
  snd (s3_keys h (quiet s)) = Ok ["a"; "ab"]%string /\ snd (s3_keys h s) = Ok [].
Proof. exists (ex_node "data"), (S3 ex_bucket [Refused]). split; vm_compute; reflexivity. Qed.
Print Assumptions C70_keys_refuted.

(** remove() succeeds although the service reports that it did not delete an object. *)
Theorem C70_spared_refuted : exists h s k b, inside (sh_name h) k /\
  snd (s3_remove h s) = Ok tt /\ lookup (objects (fst (s3_remove h s))) k = Some b.
Proof.
  exists (ex_node "data"), (S3 ex_bucket [Served; Spared ["data/a/0.0"%string]]), "data/a/0.0"%string, [3].
  split; [right; exists "a/0.0"%string; reflexivity|]. split; vm_compute; reflexivity.
Qed.
Print Assumptions C70_spared_refuted.
