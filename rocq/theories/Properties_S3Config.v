(** Property C122: the clients of handles. *)
From Coq Require Import Ascii.
From Verif Require Import M_Base M_Text M_Pool M_S3Config S_S3Config P_Base P_S3Config.
Import List ListNotations.
Local Open Scope list_scope.
Local Open Scope nat_scope.

(** C122: whatever threads have asked for in a process, and however they interleave, a
    handle gets a client that was made for the handle's own settings, and for no others. *)
Theorem C122_own_client threads p : reach some_step (process_start threads) p ->
  forall t x id, In (t, RClient x, Some id) (pr_log p) ->
  In (ECreate id (configured x)) (pr_events p) /\ forall c, In (ECreate id c) (pr_events p) -> c = configured x.
Proof. exact (@client_of threads p). Qed.
Print Assumptions C122_own_client.

(** C122: two handles get the same client if and only if all their settings are the same. *)
Theorem C122_shared threads p : reach some_step (process_start threads) p ->
  forall t x i u y j, In (t, RClient x, Some i) (pr_log p) -> In (u, RClient y, Some j) (pr_log p) -> (i = j <-> x = y).
Proof. exact (@clients_shared threads p). Qed.
Print Assumptions C122_shared.

(** C122: the SDK is initialised once, before the first client is made, and it is shut down
    at the end, when each client that was made has been destroyed once; if it is not
    needed, it is not touched. *)
Theorem C122_sdk threads p : reach some_step (process_start threads) p -> all_returned p ->
  exit_events p = [] \/ sdk_run Off (exit_events p) Down.
Proof. exact (@sdk_used threads p). Qed.
Print Assumptions C122_sdk.

(** C122: no request waits for ever. *)
Theorem C122_progress threads p : reach some_step (process_start threads) p ->
  all_returned p \/ exists p', some_step p p'.
Proof. exact (@no_deadlock threads p). Qed.
Print Assumptions C122_progress.
Theorem C122_requests_end threads : Acc (fun q p => some_step p q) (process_start threads).
Proof. exact (requests_end threads). Qed.
Print Assumptions C122_requests_end.

(** ** The settings of a client *)

(** C122: credentials are those of the handle. *)
Theorem C122_credentials x :
  (se_anon x = true -> cl_credentials (configured x) = Anonymous) /\
  (se_anon x = false -> se_access x <> ""%string -> cl_credentials (configured x) = Static (se_access x) (se_secret x)) /\
  (se_anon x = false -> se_access x = ""%string -> cl_credentials (configured x) = DefaultChain).
Proof.
  assert (E : cl_credentials (configured x) =
    if se_anon x then Anonymous else if negb (is_empty (se_access x)) then Static (se_access x) (se_secret x) else DefaultChain).
  { unfold configured. destruct (is_empty (se_endpoint x)); [reflexivity|]. destruct (starts_with _ _); [reflexivity|].
    destruct (starts_with _ _); reflexivity. }
  rewrite E. repeat split; intros ->; [reflexivity| |].
  - destruct (se_access x); [congruence|reflexivity].
  - intros ->. reflexivity.
Qed.
Print Assumptions C122_credentials.

Lemma prefix_app p h : String.prefix p (p ++ h) = true.
Proof. induction p as [|a p IH]; cbn; [now destruct h|]. destruct (ascii_dec a a); [exact IH|congruence]. Qed.
Lemma prefix_inv p : forall s, String.prefix p s = true -> exists h, s = (p ++ h)%string.
Proof.
  induction p as [|a p IH]; intros s H; [now exists s|]. destruct s as [|b s]; [discriminate|]. cbn in H.
  destruct (ascii_dec a b) as [->|]; [|discriminate]. destruct (IH _ H) as [h ->]. now exists h.
Qed.
Lemma substring_all s : String.substring 0 (String.length s) s = s.
Proof. induction s as [|a s IH]; cbn; [reflexivity|now rewrite IH]. Qed.
Lemma drop_app p h : drop_chars (String.length p) (p ++ h) = h.
Proof.
  unfold drop_chars. induction p as [|a p IH]; cbn [String.length String.append].
  - rewrite Nat.sub_0_r. apply substring_all.
  - exact IH.
Qed.

(** C122: the store is the one of the handle: scheme and host of a URL, the given text
    otherwise, with the bucket in the path; without an endpoint everything is left to
    the SDK. *)
Theorem C122_endpoint x c : configured x = c ->
  (forall host, se_endpoint x = ("http://" ++ host)%string ->
     cl_scheme c = Some Http /\ cl_endpoint c = Some host /\ cl_virtual c = false) /\
  (forall host, se_endpoint x = ("https://" ++ host)%string ->
     cl_scheme c = Some Https /\ cl_endpoint c = Some host /\ cl_virtual c = false) /\
  (se_endpoint x = ""%string -> cl_scheme c = None /\ cl_endpoint c = None /\ cl_virtual c = true) /\
  ((forall host, se_endpoint x <> ("http://" ++ host)%string) -> (forall host, se_endpoint x <> ("https://" ++ host)%string) ->
     se_endpoint x <> ""%string -> cl_scheme c = None /\ cl_endpoint c = Some (se_endpoint x) /\ cl_virtual c = false).
Proof.
  intros <-. unfold configured, starts_with. split; [|split; [|split]].
  - intros host ->. rewrite prefix_app. pose proof (drop_app "http://" host) as D. cbn -[drop_chars] in *. now rewrite D.
  - intros host ->. replace (String.prefix "http://" ("https://" ++ host)) with false by reflexivity.
    rewrite prefix_app. pose proof (drop_app "https://" host) as D. cbn -[drop_chars] in *. now rewrite D.
  - intros ->. cbn. auto.
  - intros H1 H2 H3. destruct (String.prefix "http://" (se_endpoint x)) eqn:E1; [destruct (prefix_inv E1) as [h E]; now destruct (H1 h)|].
    destruct (String.prefix "https://" (se_endpoint x)) eqn:E2; [destruct (prefix_inv E2) as [h E]; now destruct (H2 h)|].
    destruct (se_endpoint x); [congruence|]. cbn. auto.
Qed.
Print Assumptions C122_endpoint.

Theorem C122_region x : (se_region x <> ""%string -> cl_region (configured x) = Some (se_region x)) /\
  (se_region x = ""%string -> cl_region (configured x) = None).
Proof.
  assert (E : cl_region (configured x) = if is_empty (se_region x) then None else Some (se_region x)).
  { unfold configured. destruct (is_empty (se_endpoint x)); [reflexivity|]. destruct (starts_with _ _); [reflexivity|].
    destruct (starts_with _ _); reflexivity. }
  rewrite E. split; [destruct (se_region x); [congruence|reflexivity]|now intros ->].
Qed.
Print Assumptions C122_region.

(** A secret key without an access key is dropped without a message: the credentials that
    the SDK finds elsewhere are used. *)
Theorem C122_secret_refuted : exists x, se_anon x = false /\ se_secret x <> ""%string /\
  cl_credentials (configured x) = DefaultChain.
Proof. exists (Settings "" "us-east-1" false "" "secret"). repeat split. discriminate. Qed.
Print Assumptions C122_secret_refuted.
(** The scheme of a URL is recognised in lower case only, although schemes have no case. *)
Theorem C122_scheme_refuted : exists x, se_endpoint x = "HTTP://localhost:9000"%string /\
  cl_scheme (configured x) = None /\ cl_endpoint (configured x) = Some "HTTP://localhost:9000"%string.
Proof. exists (Settings "HTTP://localhost:9000" "us-east-1" true "" ""). repeat split. Qed.
Print Assumptions C122_scheme_refuted.

(** C122: groups and datasets, at any depth, and their chunks, have the bucket and the
    settings of the file that they were reached from, and names below its name. *)
Theorem C122_descendants x keys : let h := fold_left group_handle keys x in
  sh_bucket h = sh_bucket x /\ sh_settings h = sh_settings x /\
  (~ In ""%string keys ->
     sh_name h = String.concat "/" (if is_empty (sh_name x) then keys else sh_name x :: keys)) /\
  (forall key, dataset_handle h key = group_handle h key) /\
  (forall key chunk, sh_bucket (chunk_object (dataset_handle h key) chunk) = sh_bucket x /\
     sh_settings (chunk_object (dataset_handle h key) chunk) = sh_settings x).
Proof. exact (descendants x keys). Qed.
Print Assumptions C122_descendants.

(** The chunks of a dataset that is the root of a bucket get names with a slash in front,
    other than its metadata: "/0.0" beside ".zarray". *)
Theorem C122_root_refuted : exists x key chunk,
  sh_name (dataset_handle x key) = ""%string /\ chunk = "0.0"%string /\
  sh_name (chunk_object (dataset_handle x key) chunk) = "/0.0"%string.
Proof. exists (S3Handle "bucket" "" (Settings "" "us-east-1" true "" "")), ""%string, "0.0"%string. repeat split. Qed.
Print Assumptions C122_root_refuted.

(** ** A case *)
Definition ex_x : settings := Settings "http://localhost:9000" "us-east-1" false "a" "b".
Definition ex_y : settings := Settings "http://localhost:9000" "us-east-1" true "" "".

Lemma step_first (a b c : process) : some_step a b -> reach some_step b c -> reach some_step a c.
Proof.
  intros H R. induction R as [|u v R IH St]; [eapply reach_step; [apply reach_refl|exact H]|eapply reach_step; eauto].
Qed.
Ltac go t c := eapply step_first; [exists t; eapply c; reflexivity|];
  match goal with |- reach _ ?p _ => let q := eval vm_compute in p in change p with q end.

(** Two threads: the first one is interrupted before it takes the mutex, the second one
    makes the client for [ex_x], and the first one finds it; then it makes one for
    [ex_y]. *)
Example C122_case : exists p, reach some_step (process_start [[RClient ex_x; RClient ex_y]; [RHandle; RClient ex_x]]) p /\
  all_returned p /\
  pr_log p = [(1, RHandle, None); (1, RClient ex_x, Some 0); (0, RClient ex_x, Some 0); (0, RClient ex_y, Some 1)] /\
  exit_events p = [EInit; ECreate 0 (Client (Some "us-east-1"%string) (Some Http) (Some "localhost:9000"%string) false (Static "a" "b"));
    ECreate 1 (Client (Some "us-east-1"%string) (Some Http) (Some "localhost:9000"%string) false Anonymous);
    EDestroy 0; EDestroy 1; EShutdown].
Proof.
  eexists. split.
  - go 0 step_start. go 0 step_api. go 0 step_statics.
    go 1 step_start. go 1 step_api. go 1 step_start. go 1 step_api. go 1 step_statics. go 1 step_lock. go 1 step_missing. go 1 step_make. go 1 step_emplace.
    go 0 step_lock. go 0 step_found. go 0 step_start. go 0 step_api. go 0 step_statics. go 0 step_lock. go 0 step_missing. go 0 step_make. go 0 step_emplace.
    apply reach_refl.
  - split; [vm_compute; repeat constructor|]. split; vm_compute; reflexivity.
Qed.
Example C122_descendants_case :
  fold_left group_handle ["a"; "b"; "c"]%string (S3Handle "bucket" "data/x.zarr" ex_x) = S3Handle "bucket" "data/x.zarr/a/b/c" ex_x /\
  sh_name (chunk_object (dataset_handle (S3Handle "bucket" "" ex_x) "d") "0.0") = "d/0.0"%string.
Proof. split; reflexivity. Qed.
