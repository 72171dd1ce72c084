(** Model of include/z5/util/functions.hxx: loops over all chunks of a dataset with
    several threads. *)
From Verif Require Import M_Base M_Text M_Key M_Blocking M_Bytes M_Format M_Mode M_Shard M_Dataset M_Sharded
  M_Access M_Pool M_Parallel M_ForEach.

(** The memory the callbacks share: the files of the dataset and other data [X]. *)
Notation fmem X := (store * X)%type.
Notation fcode X := (prog (store * X) unit).

(** Looking for or reading a file: the contents at that moment. *)
Definition fread {X} (key : string) (k : option bytes -> fcode X) : fcode X :=
  Act (fun m => (m, k (fst m key))).
(** Changing a file. *)
Definition fput {X} (key : string) (v : option bytes) (k : fcode X) : fcode X :=
  Act (fun m => ((set_key (fst m) key v, snd m), k)).

(** The virtual functions of Dataset that the callbacks call (include/z5/dataset.hxx);
    each looks at one file, whose contents are an argument here. *)
Record chunk_calls := ChunkCalls {
  cc_data : dataset;                                  (* shape, chunk shape, type, mode *)
  cc_key : shape -> outcome string;                   (* the file *)
  cc_exists : option bytes -> shape -> outcome bool;  (* chunkExists *)
  cc_varlen : option bytes -> shape -> outcome (bool * N);              (* checkVarlenChunk *)
  cc_read : option bytes -> shape -> list cell -> outcome (bool * list cell)   (* readChunk *)
}.

(** generic::Dataset, include/z5/generic/dataset.hxx:72-90,108-111,178-195. *)
Definition plain_calls (d : dataset) : chunk_calls :=
  ChunkCalls d
    (fun c => let! h := chunk_handle_of d (d_chunks d) c in Ok (ch_key h))
    (fun f c => chunk_exists d (only f) c)
    (fun f c => check_varlen_chunk d (only f) c)
    (fun f c out => read_chunk d (only f) c out).

(** generic::ShardedDataset, include/z5/generic/sharded_dataset.hxx:68-104,129-133.
    checkVarlenChunk reads no file. *)
Definition sharded_calls (sd : sharded) : chunk_calls :=
  ChunkCalls (sd_base sd)
    (fun c => let! coord := shard_id c (sd_cps sd) in
              let! h := shard_handle sd coord in Ok (ch_key h))
    (fun f c => sh_chunk_exists sd (only f) c)
    (fun _ c => let! n := get_chunk_size (sd_base sd) c in Ok (false, n))
    (fun f c out => sh_read_chunk sd (only f) c out).

(** prepareChunkReadBuffer, include/z5/util/functions.hxx:15-26: the number of elements
    that readChunk fills, and the buffer; [vl] is the result of checkVarlenChunk. *)
Definition prepare_read_buffer (d : dataset) (vl : bool * N) : N * list cell :=
  let defsize := prodw (d_chunks d) in
  let size := if negb (fst vl) && d_zarr d then defsize else snd vl in
  (size, repeat (zero_cell (t_width (d_type d))) (N.to_nat (N.max defsize size))).

(** The beginning of all callbacks, include/z5/util/functions.hxx:46-51, 102-107,
    136-142: nothing for missing chunks; else the elements that were read. *)
Definition load_chunk {X} (cc : chunk_calls) (c : shape) (k : list cell -> fcode X) : fcode X :=
  plift (cc_key cc c) (fun key =>
  fread key (fun f1 =>
  plift (cc_exists cc f1 c) (fun ex =>
  if negb ex then Ret (Ok tt)
  else
    fread key (fun f2 =>
    plift (cc_varlen cc f2 c) (fun vl =>
    let (size, data) := prepare_read_buffer (cc_data cc) vl in
    fread key (fun f3 =>
    plift (cc_read cc f3 c data) (fun r => k (firstn (N.to_nat size) (snd r))))))))).

(** ** Sets and maps *)

(** std::set<T>::insert of one value.  Simplified: a set is the list of its elements in
    the order of insertion (the code only asks for membership, size and the only
    element); values are equivalent iff they are equal, which excludes NaN. *)
Definition set_insert (t : elem_type) (s : list cell) (v : cell) : list cell :=
  if existsb (fun x => elem_eq t x v) s then s else s ++ [v].
(** std::set<T>::insert of a range; also the constructor from a range. *)
Definition set_insert_all (t : elem_type) (s : list cell) (vs : list cell) : list cell :=
  fold_left (set_insert t) vs s.

(** find in a std::map<T, size_t>, then emplace or += [k], include/z5/util/functions.hxx:
    144-149 ([k] = 1) and 157-162; simplified like [set_insert]. *)
Fixpoint map_add (t : elem_type) (m : list (cell * N)) (v : cell) (k : N) : list (cell * N) :=
  match m with
  | [] => [(v, k)]
  | (x, n) :: r => if elem_eq t x v then (x, addw n k) :: r else (x, n) :: map_add t r v k
  end.
(** The loop at lines 143-150. *)
Definition map_count_all (t : elem_type) (m : list (cell * N)) (vs : list cell) : list (cell * N) :=
  fold_left (fun m v => map_add t m v 1) vs m.
(** The loop at lines 156-163. *)
Definition map_merge (t : elem_type) (m : list (cell * N)) (other : list (cell * N)) : list (cell * N) :=
  fold_left (fun m e => map_add t m (fst e) (snd e)) other m.

(** ** removeTrivialChunks *)

(** Neither value is less than the other one: they are equal or one of them is NaN. *)
Definition unordered (t : elem_type) (x y : cell) : bool :=
  elem_eq t x y || negb (elem_eq t x x) || negb (elem_eq t y y).
(** The condition at include/z5/util/functions.hxx:53-54; [value] is [None] when
    removeSpecificValue is false.  The set keeps the size 1 as long as the elements are
    equivalent to the first one, NaN included (libstdc++ inserts into a set of one element
    iff one of the two is less than the other one). *)
Definition trivial (t : elem_type) (value : option cell) (data : list cell) : bool :=
  match data with
  | [] => false
  | x :: r => forallb (unordered t x) r && match value with None => true | Some v => elem_eq t x v end
  end.

(** removeChunk as code, include/z5/generic/dataset.hxx:207-210, see [remove_chunk]. *)
Definition remove_code {X} (d : dataset) (c : shape) : fcode X :=
  plift (chunk_handle_of d (d_chunks d) c) (fun h =>
  if negb (can_write (d_mode d)) then Ret (Throw EInvalidArgument)
  else fput (ch_key h) None (Ret (Ok tt))).

(** The callback at include/z5/util/functions.hxx:43-58. *)
Definition trivial_visit (d : dataset) (value : option cell) (tid : nat) (c : shape) (_ : unit) : fcode unit :=
  load_chunk (plain_calls d) c (fun data =>
    if trivial (d_type d) value data then remove_code d c else Ret (Ok tt)).

(** removeTrivialChunks, include/z5/util/functions.hxx:32-60, of a dataset that is not
    sharded, started with the files [st], can leave the files [st1] and return [r];
    [hw] is std::thread::hardware_concurrency(). *)
Inductive remove_trivial (d : dataset) (hw : N) (nThreads est : Z) (value : option cell) (st st1 : store)
    : outcome unit -> Prop :=
| trivial_refused : can_write (d_mode d) = false -> st1 = st ->
    remove_trivial d hw nThreads est value st st1 (Throw EInvalidArgument)
| trivial_done r : can_write (d_mode d) = true ->
    for_each_chunk (d_shape d) (d_chunks d) (actual_threads hw nThreads) est (fun _ => True) tt (st, tt)
      (trivial_visit d value) (st1, tt) r ->
    remove_trivial d hw nThreads est value st st1 r.

(** ** removeDataset *)

(** The callback at include/z5/util/functions.hxx:73-80. *)
Definition remove_visit (d : dataset) (tid : nat) (c : shape) (_ : unit) : fcode unit :=
  plift (chunk_handle_of d (d_chunks d) c) (fun h =>
  fread (ch_key h) (fun f =>
  plift (chunk_exists d (only f) c) (fun ex => if negb ex then Ret (Ok tt) else remove_code d c))).

(** removeDataset, include/z5/util/functions.hxx:64-84; at the end Dataset::remove
    (include/z5/filesystem/handle.hxx:243-252) deletes the directory and
    everything in it.  Simplified: the directory exists. *)
Inductive remove_dataset (d : dataset) (hw : N) (nThreads est : Z) (st : store) : store -> outcome unit -> Prop :=
| removal_refused : can_write (d_mode d) = false -> remove_dataset d hw nThreads est st st (Throw EInvalidArgument)
| removal_failed st1 r : can_write (d_mode d) = true -> r <> Ok tt ->
    for_each_chunk (d_shape d) (d_chunks d) (actual_threads hw nThreads) est (fun _ => True) tt (st, tt)
      (remove_visit d) (st1, tt) r ->
    remove_dataset d hw nThreads est st st1 r
| removal_done st1 : can_write (d_mode d) = true ->
    for_each_chunk (d_shape d) (d_chunks d) (actual_threads hw nThreads) est (fun _ => True) tt (st, tt)
      (remove_visit d) (st1, tt) (Ok tt) ->
    remove_dataset d hw nThreads est st (fun _ => None) (Ok tt).

(** ** unique and uniqueWithCounts *)

(** getActualNumThreads, include/z5/util/threadpool.hxx:64-67. *)
Definition at_least_one (threads : N) : nat := N.to_nat (N.max 1 threads).

(** Changing entry [i] of the per-thread data: entry 0 is [uniques], entry [i] is
    threadData[i - 1]; only thread [i] accesses it, so one step. *)
Definition fupdate {A} (threads : N) (i : nat) (f : A -> A) : fcode (nat -> A) :=
  if (i <? at_least_one threads)%nat
  then Act (fun m => ((fst m, fun j => if (j =? i)%nat then f (snd m j) else snd m j), Ret (Ok tt)))
  else Ret UB.

(** The callbacks at include/z5/util/functions.hxx:98-110 ([add] is the insertion of the
    elements of a chunk into the set) and 132-151 (into the map). *)
Definition collect_visit {A} (cc : chunk_calls) (threads : N) (add : A -> list cell -> A)
    (tid : nat) (c : shape) (_ : unit) : fcode (nat -> A) :=
  load_chunk cc c (fun data => fupdate threads tid (fun a => add a data)).

(** unique (lines 89-118) and uniqueWithCounts (lines 123-165): started with [u] in the
    argument, the call can return [r] and leave [u1]; [merge] is the loop at the end;
    after an exception the argument has what thread 0 has added so far. *)
Inductive collect {A} (cc : chunk_calls) (hw : N) (nThreads est : Z) (empty : A) (add : A -> list cell -> A)
    (merge : A -> A -> A) (st : store) (u : A) : A -> outcome unit -> Prop :=
| collected m1 r :
    for_each_chunk (d_shape (cc_data cc)) (d_chunks (cc_data cc)) (actual_threads hw nThreads) est (fun _ => True) tt
      (st, fun i => match i with O => u | _ => empty end)
      (collect_visit cc (actual_threads hw nThreads) add) m1 r ->
    collect cc hw nThreads est empty add merge st u
      (match r with
       | Ok _ => fold_left (fun a i => merge a (snd m1 i)) (seq 1 (at_least_one (actual_threads hw nThreads) - 1)) (snd m1 0%nat)
       | _ => snd m1 0%nat
       end) r.

(** unique, include/z5/util/functions.hxx:89-118; [u] are the elements of the set that is
    passed, [u1] its elements afterwards. *)
Definition unique_run (cc : chunk_calls) (hw : N) (nThreads est : Z) (st : store) (u u1 : list cell) (r : outcome unit) : Prop :=
  let t := d_type (cc_data cc) in
  collect cc hw nThreads est [] (set_insert_all t) (set_insert_all t) st u u1 r.
(** uniqueWithCounts, include/z5/util/functions.hxx:123-165. *)
Definition unique_counts_run (cc : chunk_calls) (hw : N) (nThreads est : Z) (st : store) (u u1 : list (cell * N)) (r : outcome unit) : Prop :=
  let t := d_type (cc_data cc) in
  collect cc hw nThreads est [] (map_count_all t) (map_merge t) st u u1 r.
