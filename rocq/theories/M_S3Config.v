(** The clients through which handles talk to an object store,
    include/z5/s3/handle.hxx:44-156. *)
From Verif Require Import M_Base M_Text M_Pool.

(** What a handle knows about its store, include/z5/s3/handle.hxx:325-337. *)
Record settings := Settings {
  se_endpoint : string;
  se_region : string;
  se_anon : bool;
  se_access : string;
  se_secret : string
}.

(** A handle: bucket, name in the bucket, and the settings. *)
Record s3_handle := S3Handle {
  sh_bucket : string;
  sh_name : string;
  sh_settings : settings
}.
Definition is_empty (s : string) : bool := match s with EmptyString => true | _ => false end.

(** The constructors of Group, Dataset and Chunk, include/z5/s3/handle.hxx:512-519, 559-567
    and 628-638; [chunk] is the key of the chunk, see [chunk_key]. *)
Definition group_handle (x : s3_handle) (key : string) : s3_handle :=
  S3Handle (sh_bucket x) (if String.eqb (sh_name x) "" then key else sh_name x ++ "/" ++ key) (sh_settings x).
Definition dataset_handle (x : s3_handle) (key : string) : s3_handle :=
  S3Handle (sh_bucket x) (if String.eqb (sh_name x) "" then key else sh_name x ++ "/" ++ key) (sh_settings x).
Definition chunk_object (x : s3_handle) (chunk : string) : s3_handle :=
  S3Handle (sh_bucket x) (sh_name x ++ "/" ++ chunk) (sh_settings x).

Inductive scheme := Http | Https.
Inductive credentials :=
| Anonymous
| Static (access secret : string)
| DefaultChain.

(** Aws::S3::S3ClientConfiguration and the credentials provider of a client; [None]: the
    default of the SDK.  The connection limits are fixed (lines 89-90). *)
Record client := Client {
  cl_region : option string;
  cl_scheme : option scheme;
  cl_endpoint : option string;
  cl_virtual : bool;
  cl_credentials : credentials
}.

(** [host.rfind(p, 0) == 0] and [host.substr(p.size())], include/z5/s3/handle.hxx:98-105. *)
Definition starts_with (p s : string) : bool := String.prefix p s.
Definition drop_chars (n : nat) (s : string) : string := String.substring n (String.length s - n) s.

(** makeConfiguredClient, include/z5/s3/handle.hxx:75-124. *)
Definition configured (x : settings) : client :=
  let region := if is_empty (se_region x) then None else Some (se_region x) in
  let host := se_endpoint x in
  let cred :=
    if se_anon x then Anonymous
    else if negb (is_empty (se_access x)) then Static (se_access x) (se_secret x)
    else DefaultChain in
  if is_empty host then Client region None None true cred
  else if starts_with "http://" host then Client region (Some Http) (Some (drop_chars 7 host)) false cred
  else if starts_with "https://" host then Client region (Some Https) (Some (drop_chars 8 host)) false cred
  else Client region None (Some host) false cred.

(** operator< of ClientKey, include/z5/s3/handle.hxx:138 and 142: std::tuple compares
    the members in turn, std::string byte by byte. *)
Definition bool_compare (a b : bool) : comparison :=
  match a, b with false, true => Lt | true, false => Gt | _, _ => Eq end.
Definition then_compare (a b : comparison) : comparison := match a with Eq => b | _ => a end.
Definition key_compare (a b : settings) : comparison :=
  then_compare (String.compare (se_endpoint a) (se_endpoint b))
  (then_compare (String.compare (se_region a) (se_region b))
  (then_compare (bool_compare (se_anon a) (se_anon b))
  (then_compare (String.compare (se_access a) (se_access b))
     (String.compare (se_secret a) (se_secret b))))).
Definition key_lt (a b : settings) : bool := match key_compare a b with Lt => true | _ => false end.

(** std::map: entries in the order of their keys; find and emplace (which keeps an entry
    that is there), include/z5/s3/handle.hxx:140-149.  Clients are named by numbers. *)
Definition cache := list (settings * nat).
Fixpoint cache_find (x : settings) (c : cache) : option nat :=
  match c with
  | [] => None
  | (y, id) :: c' => if key_lt y x then cache_find x c' else if key_lt x y then None else Some id
  end.
Fixpoint cache_emplace (x : settings) (id : nat) (c : cache) : cache :=
  match c with
  | [] => [(x, id)]
  | (y, i) :: c' =>
      if key_lt y x then (y, i) :: cache_emplace x id c'
      else if key_lt x y then (x, id) :: c else c
  end.

(** What the SDK sees: Aws::InitAPI, the construction and destruction of clients,
    Aws::ShutdownAPI, include/z5/s3/handle.hxx:45-62. *)
Inductive event :=
| EInit
| ECreate (id : nat) (c : client)
| EDestroy (id : nat)
| EShutdown.

(** The objects with static storage duration that are constructed on first use: the
    guard of the SDK (line 61) and the cache (line 140); they are destroyed in the reverse
    order at the end of the process.  The mutex has nothing to construct. *)
Inductive static_object := SApi | SCache.
Definition static_eqb (a b : static_object) : bool :=
  match a, b with SApi, SApi | SCache, SCache => true | _, _ => false end.

(** A thread constructs a handle (include/z5/s3/handle.hxx:325-337) or asks for the client
    of a handle (lines 153-156 and 341-343). *)
Inductive request :=
| RHandle
| RClient (x : settings).
(** Where a thread is: between two requests, before ensureApiInitialized, before the
    static objects of getSharedClient (lines 139-140), before the mutex (line 143), before
    find, before makeConfiguredClient, before emplace. *)
Inductive at_line :=
| AtIdle
| AtApi (r : request)
| AtStatics (x : settings)
| AtLock (x : settings)
| AtFind (x : settings)
| AtMake (x : settings)
| AtEmplace (x : settings) (id : nat).

(** [pr_statics]: the last constructed one first; [pr_log] (ghost): the requests that have
    returned, with thread and client ([None]: an exception, or a handle). *)
Record process := Process {
  pr_statics : list static_object;
  pr_cache : cache;
  pr_mutex : option nat;
  pr_next : nat;
  pr_threads : list (at_line * list request);
  pr_events : list event;
  pr_log : list (nat * request * option nat)
}.

Definition constructed (o : static_object) (p : process) : bool := existsb (static_eqb o) (pr_statics p).
Definition process_start (threads : list (list request)) : process :=
  Process [] [] None 0 (map (fun rs => (AtIdle, rs)) threads) [] [].

(** One step of thread [t].  Static objects are constructed by one thread while others
    wait, in one step.  Constructing a client can fail; the mutex is released by the
    lock_guard then. *)
Inductive process_step (t : nat) (p : process) : process -> Prop :=
| step_start r rest : nth_error (pr_threads p) t = Some (AtIdle, r :: rest) ->
    process_step t p (Process (pr_statics p) (pr_cache p) (pr_mutex p) (pr_next p)
      (set_nth t (pr_threads p) (AtApi r, rest)) (pr_events p) (pr_log p))
| step_api r rest : nth_error (pr_threads p) t = Some (AtApi r, rest) ->
    process_step t p (Process
      (if constructed SApi p then pr_statics p else SApi :: pr_statics p)
      (pr_cache p) (pr_mutex p) (pr_next p)
      (set_nth t (pr_threads p) (match r with RHandle => AtIdle | RClient x => AtStatics x end, rest))
      (if constructed SApi p then pr_events p else pr_events p ++ [EInit])
      (match r with RHandle => pr_log p ++ [(t, r, None)] | RClient _ => pr_log p end))
| step_statics x rest : nth_error (pr_threads p) t = Some (AtStatics x, rest) ->
    process_step t p (Process
      (if constructed SCache p then pr_statics p else SCache :: pr_statics p)
      (pr_cache p) (pr_mutex p) (pr_next p) (set_nth t (pr_threads p) (AtLock x, rest)) (pr_events p) (pr_log p))
| step_lock x rest : nth_error (pr_threads p) t = Some (AtLock x, rest) -> pr_mutex p = None ->
    process_step t p (Process (pr_statics p) (pr_cache p) (Some t) (pr_next p)
      (set_nth t (pr_threads p) (AtFind x, rest)) (pr_events p) (pr_log p))
| step_found x rest id : nth_error (pr_threads p) t = Some (AtFind x, rest) -> cache_find x (pr_cache p) = Some id ->
    process_step t p (Process (pr_statics p) (pr_cache p) None (pr_next p)
      (set_nth t (pr_threads p) (AtIdle, rest)) (pr_events p) (pr_log p ++ [(t, RClient x, Some id)]))
| step_missing x rest : nth_error (pr_threads p) t = Some (AtFind x, rest) -> cache_find x (pr_cache p) = None ->
    process_step t p (Process (pr_statics p) (pr_cache p) (pr_mutex p) (pr_next p)
      (set_nth t (pr_threads p) (AtMake x, rest)) (pr_events p) (pr_log p))
| step_make x rest : nth_error (pr_threads p) t = Some (AtMake x, rest) ->
    process_step t p (Process (pr_statics p) (pr_cache p) (pr_mutex p) (S (pr_next p))
      (set_nth t (pr_threads p) (AtEmplace x (pr_next p), rest))
      (pr_events p ++ [ECreate (pr_next p) (configured x)]) (pr_log p))
| step_fails x rest : nth_error (pr_threads p) t = Some (AtMake x, rest) ->
    process_step t p (Process (pr_statics p) (pr_cache p) None (pr_next p)
      (set_nth t (pr_threads p) (AtIdle, rest)) (pr_events p) (pr_log p ++ [(t, RClient x, None)]))
| step_emplace x rest id : nth_error (pr_threads p) t = Some (AtEmplace x id, rest) ->
    process_step t p (Process (pr_statics p) (cache_emplace x id (pr_cache p)) None (pr_next p)
      (set_nth t (pr_threads p) (AtIdle, rest))
      (match cache_find x (pr_cache p) with Some _ => pr_events p ++ [EDestroy id] | None => pr_events p end)
      (pr_log p ++ [(t, RClient x, cache_find x (cache_emplace x id (pr_cache p)))])).
Definition some_step (p p' : process) : Prop := exists t, process_step t p p'.

(** The end of the process: static objects are destroyed, the last constructed one
    first.  Nobody else holds a client then. *)
Definition destroyed (c : cache) (o : static_object) : list event :=
  match o with SApi => [EShutdown] | SCache => map (fun e => EDestroy (snd e)) c end.
Definition exit_events (p : process) : list event :=
  pr_events p ++ flat_map (destroyed (pr_cache p)) (pr_statics p).
