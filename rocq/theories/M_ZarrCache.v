(** The format that a dataset handle remembers, include/z5/s3/handle.hxx:569-592 and
    include/z5/filesystem/handle.hxx:203-227. *)
From Coq Require Import ZArith.
From Verif Require Import M_Base M_Text M_Pool M_Store M_S3 M_Fs.

(** What threads do with the handles of one dataset: isZarr() of handle number [h],
    setIsZarr(v), and the copy constructor. *)
Inductive request_of := QIsZarr (h : nat) | QSet (h : nat) (v : bool) | QCopy (h : nat).

(** Where a thread is: between calls; in isZarrDataset() with some checks still to do; before
    the store of the answer. *)
Inductive where_at (check : Type) := AtIdle | AtChecks (h : nat) (rest : list check) | AtStore (h : nat) (v : bool).
Arguments AtIdle {check}. Arguments AtChecks {check}. Arguments AtStore {check}.

(** What has happened: isZarr() of a handle has returned (or thrown); a handle has been copied. *)
Inductive happened := LAnswer (t h : nat) (o : outcome bool) | LCopy (t h copy : nat).

(** One check of isZarrDataset(); None: it throws. *)
Definition check (M : Type) : Type := M -> M * option bool.

(** The store, the caches of the handles, the threads with their coming requests. *)
Record world (M : Type) := World {
  w_store : M;
  w_caches : list Z;
  w_threads : list (where_at (check M) * list request_of);
  w_log : list happened
}.
Arguments World {M}. Arguments w_store {M}. Arguments w_caches {M}. Arguments w_threads {M}. Arguments w_log {M}.

(** The value of the cache for an answer, and the answer of isZarr() from the value,
    include/z5/s3/handle.hxx:585, 588 and 591; the initial value is -1 (line 620). *)
Definition flag (v : bool) : Z := if v then 1%Z else 0%Z.
Definition unknown : Z := (-1)%Z.

(** One step of thread [t]: one access to the atomic cache, or one check.  A handle is used
    only after it has been constructed.  Simplified: atomic accesses are sequentially
    consistent; they are relaxed in the code, on one variable for each handle, where the
    accesses of all threads have one order. *)
Definition thread_step {M} (checks : list (check M)) (t : nat) (w : world M) : option (world M) :=
  match nth_error (w_threads w) t with
  | Some (AtIdle, QIsZarr h :: r) =>
      match nth_error (w_caches w) h with
      | None => None
      | Some c =>
          if (c <? 0)%Z then Some (World (w_store w) (w_caches w) (set_nth t (w_threads w) (AtChecks h checks, r)) (w_log w))
          else Some (World (w_store w) (w_caches w) (set_nth t (w_threads w) (AtIdle, r)) (LAnswer t h (Ok (c =? 1)%Z) :: w_log w))
      end
  | Some (AtIdle, QSet h v :: r) =>
      match nth_error (w_caches w) h with
      | None => None
      | Some _ => Some (World (w_store w) (set_nth h (w_caches w) (flag v)) (set_nth t (w_threads w) (AtIdle, r)) (w_log w))
      end
  | Some (AtIdle, QCopy h :: r) =>
      match nth_error (w_caches w) h with
      | None => None
      | Some c => Some (World (w_store w) (w_caches w ++ [c]) (set_nth t (w_threads w) (AtIdle, r))
          (LCopy t h (List.length (w_caches w)) :: w_log w))
      end
  | Some (AtChecks h [], r) => Some (World (w_store w) (w_caches w) (set_nth t (w_threads w) (AtStore h false, r)) (w_log w))
  | Some (AtChecks h (c :: rest), r) =>
      let (m, a) := c (w_store w) in
      match a with
      | Some true => Some (World m (w_caches w) (set_nth t (w_threads w) (AtStore h true, r)) (w_log w))
      | Some false => Some (World m (w_caches w) (set_nth t (w_threads w) (AtChecks h rest, r)) (w_log w))
      | None => Some (World m (w_caches w) (set_nth t (w_threads w) (AtIdle, r)) (LAnswer t h (Throw ERuntime) :: w_log w))
      end
  | Some (AtStore h v, r) => Some (World (w_store w) (set_nth h (w_caches w) (flag v)) (set_nth t (w_threads w) (AtIdle, r))
      (LAnswer t h (Ok (flag v =? 1)%Z) :: w_log w))
  | Some (AtIdle, []) | None => None
  end.

(** Somebody else changes the store. *)
Definition change_store {M} (m : M) (w : world M) : world M := World m (w_caches w) (w_threads w) (w_log w).

(** A step of some thread, or a change of the store by somebody else that [env] allows. *)
Inductive world_step {M} (checks : list (check M)) (env : M -> M -> Prop) (w : world M) : world M -> Prop :=
| step_thread t w' : thread_step checks t w = Some w' -> world_step checks env w w'
| step_env m : env (w_store w) m -> world_step checks env w (change_store m w).

(** The start: the store, the caches of the handles that exist, and the requests of the threads. *)
Definition world_start {M} (m : M) (caches : list Z) (requests : list (list request_of)) : world M :=
  World m caches (map (fun r => (AtIdle, r)) requests) [].

(** isZarrDataset(), include/z5/s3/handle.hxx:421-423 and inImpl, 398-407: four requests, see
    [s3_is_zarr_dataset]. *)
Definition as_check (a : act s3 bool) : check s3 := fun s =>
  match a s with (s', Ok b) => (s', Some b) | (s', _) => (s', None) end.
Definition s3_checks (dataset : string) : list (check s3) :=
  [as_check (object_exists (join_key dataset ".zarray"));
   as_check (any_with_prefix (join_key dataset ".zarray" ++ "/"));
   as_check (object_exists (join_key dataset "zarr.json"));
   as_check (any_with_prefix (join_key dataset "zarr.json" ++ "/"))].

(** isZarrDataset(), include/z5/filesystem/handle.hxx:34-40: three lookups, see
    [is_zarr_dataset]. *)
Definition fs_checks (dataset : path) : list (check fsys) :=
  [(fun s => (s, if fs_exists s dataset then Some false else None));
   (fun s => (s, Some (fs_exists s (dataset ++ [".zarray"%string]))));
   (fun s => (s, Some (fs_exists s (dataset ++ ["zarr.json"%string]))))].

(** The Dataset and ShardedDataset constructors, include/z5/generic/dataset.hxx:29-36 and
    include/z5/generic/sharded_dataset.hxx:38-47: they copy the handle and set its format. *)
Definition own_handle (given copy : nat) (is_zarr : bool) : list request_of := [QCopy given; QSet copy is_zarr].
