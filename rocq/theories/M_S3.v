(** Model of the object store backend: include/z5/s3/handle.hxx, include/z5/s3/store.hxx. *)
From Verif Require Import M_Base M_Text M_Key M_Blocking M_View M_Bytes M_N5Header M_Format
  M_Mode M_Shard M_Dataset M_Sharded M_Access M_Store.

(** * The service *)

(** What becomes of a request: it is answered; it is refused (network, credentials,
    timeout) without effect; it takes effect but the answer is lost; or, for a request
    to delete several objects, it is answered with success although some of the objects
    (listed as errors in the answer) were not deleted. *)
Inductive fate := Served | Refused | Lost | Spared (keys : list string).

(** The objects of the bucket, and the fates of the coming requests (all further
    ones are answered).  Simplified: a bucket that no other client modifies during a
    call, bucket and client configuration are left out. *)
Record s3 := S3 { objects : list (string * bytes); fates : list fate }.

(** The object with the given key. *)
Definition lookup (l : list (string * bytes)) (key : string) : option bytes :=
  match find (fun kv => String.eqb (fst kv) key) l with Some kv => Some (snd kv) | None => None end.

(** One request: [effect] on the objects, [answer] from them (None if it fails). *)
Definition request {A} (effect : list (string * bytes) -> list (string * bytes))
    (answer : list (string * bytes) -> A) : s3 -> s3 * option A := fun s =>
  match fates s with
  | Refused :: r => (S3 (objects s) r, None)
  | Lost :: r => (S3 (effect (objects s)) r, None)
  | Served :: r | Spared _ :: r => (S3 (effect (objects s)) r, Some (answer (objects s)))
  | [] => (S3 (effect (objects s)) [], Some (answer (objects s)))
  end.
(** A request whose failure is thrown as std::runtime_error. *)
Definition or_throw {A} (r : s3 -> s3 * option A) : act s3 A := fun s =>
  match r s with (s', Some a) => (s', Ok a) | (s', None) => (s', Throw ERuntime) end.

(** PutObject, DeleteObject / DeleteObjects on the objects. *)
Definition put_key (key : string) (b : bytes) (l : list (string * bytes)) : list (string * bytes) :=
  (key, b) :: filter (fun kv => negb (String.eqb (fst kv) key)) l.
Definition delete_keys (keys : list string) (l : list (string * bytes)) : list (string * bytes) :=
  filter (fun kv => negb (existsb (String.eqb (fst kv)) keys)) l.

(** getObject, include/z5/s3/handle.hxx:178-212: None is false.  Simplified: the body
    is never shorter than its announced length. *)
Definition get_object (key : string) : act s3 (option bytes) :=
  or_throw (request (fun l => l) (fun l => lookup l key)).
(** putObject, include/z5/s3/handle.hxx:226-240. *)
Definition put_object (key : string) (b : bytes) : act s3 unit :=
  or_throw (request (put_key key b) (fun _ => tt)).
(** objectExists, include/z5/s3/handle.hxx:249-255: every failure is false. *)
Definition object_exists (key : string) : act s3 bool := fun s =>
  match request (fun l => l) (fun l => lookup l key) s with
  | (s', Some (Some _)) => (s', Ok true)
  | (s', _) => (s', Ok false)
  end.
(** deleteObject, include/z5/s3/handle.hxx:257-267. *)
Definition delete_object (key : string) : act s3 unit :=
  or_throw (request (delete_keys [key]) (fun _ => tt)).

(** What ListObjectsV2 answers with: at most 1000 entries, and whether there are
    more.  The continuation token is the number of entries already sent.  Simplified:
    pages have exactly 1000 entries except for the last; the order of the keys is the
    order of [objects], not the order of the alphabet. *)
Definition page_size : nat := 1000.
Definition page {A} (entries : list A) (token : nat) : list A * bool :=
  (firstn page_size (skipn token entries), Nat.ltb (token + page_size) (List.length entries)).

(** The keys that start with the prefix. *)
Definition matching (prefix : string) (l : list (string * bytes)) : list string :=
  filter (String.prefix prefix) (map fst l).

(** The loop of listAllKeys, include/z5/s3/handle.hxx:270-289.  [fuel] bounds the
    number of pages; see [list_all_keys]. *)
Fixpoint list_pages (fuel : nat) (prefix : string) (token : nat) (out : list string)
    : act s3 (list string) :=
  match fuel with
  | O => aret UB
  | S f =>
      do^ p <- or_throw (request (fun l => l) (fun l => page (matching prefix l) token)) in
      let out' := (out ++ fst p)%list in
      if snd p then list_pages f prefix (token + page_size) out' else aret (Ok out')
  end.
(** listAllKeys, include/z5/s3/handle.hxx:270-289. *)
Definition list_all_keys (prefix : string) : act s3 (list string) := fun s =>
  list_pages (S (List.length (objects s))) prefix 0 [] s.

(** A DeleteObjects request of deletePrefix, include/z5/s3/handle.hxx:306-311: only the
    status of the whole answer is looked at, not its list of errors. *)
Definition delete_objects (keys : list string) : s3 -> s3 * option unit := fun s =>
  match fates s with
  | Spared ks :: r =>
      (S3 (delete_keys (filter (fun k => negb (existsb (String.eqb k) ks)) keys) (objects s)) r, Some tt)
  | _ => request (delete_keys keys) (fun _ => tt) s
  end.
(** The batches of deletePrefix: at most [n] keys each. *)
Fixpoint batches {A} (fuel n : nat) (l : list A) : list (list A) :=
  match fuel, l with
  | O, _ | _, [] => []
  | S f, _ => firstn n l :: batches f n (skipn n l)
  end.
(** deletePrefix, include/z5/s3/handle.hxx:292-313. *)
Definition delete_prefix (prefix : string) : act s3 unit :=
  do^ keys <- list_all_keys prefix in
  afold (fun _ b => or_throw (delete_objects b))
        (batches (List.length keys) page_size keys) tt.

(** * Handles *)

(** joinKey, include/z5/s3/handle.hxx:68-70. *)
Definition join_key (base name : string) : string :=
  match base with EmptyString => name | _ => (base ++ "/" ++ name)%string end.

(** S3HandleImpl: name in the bucket, and the mode,
    include/z5/s3/handle.hxx:323-338. *)
Record s3_handle := S3Handle { sh_name : string; sh_mode : mode }.
(** The constructors of Group and Dataset,
    include/z5/s3/handle.hxx:513-519,559-568. *)
Definition s3_child (h : s3_handle) (key : string) : s3_handle :=
  S3Handle (match sh_name h with EmptyString => key | _ => (sh_name h ++ "/" ++ key)%string end) (sh_mode h).
(** nameInBucket_.empty() ? "" : nameInBucket_ + "/" of existsImpl, keysImpl and
    removeImpl, include/z5/s3/handle.hxx:365,374,412. *)
Definition node_prefix (h : s3_handle) : string :=
  match sh_name h with EmptyString => EmptyString | n => (n ++ "/")%string end.

(** anyObjectWithPrefix, include/z5/s3/handle.hxx:349-360: a page of at most one key. *)
Definition any_with_prefix (prefix : string) : act s3 bool :=
  or_throw (request (fun l => l)
    (fun l => negb (Nat.eqb (List.length (firstn 1 (matching prefix l))) 0))).

(** existsImpl, include/z5/s3/handle.hxx:363-367. *)
Definition s3_exists (h : s3_handle) : act s3 bool := any_with_prefix (node_prefix h).

(** inImpl, include/z5/s3/handle.hxx:398-407. *)
Definition s3_in (h : s3_handle) (name : string) : act s3 bool :=
  let key := join_key (sh_name h) name in
  do^ e <- object_exists key in
  if e then aret (Ok true) else any_with_prefix (key ++ "/")%string.

(** What a request with delimiter "/" answers for a key behind the prefix: the part up
    to and with the first "/" (a common prefix), or nothing for a key without "/"
    (which is listed as an object). *)
Fixpoint up_to_slash (s : string) : option string :=
  match s with
  | EmptyString => None
  | String c r =>
      if Ascii.eqb c "/" then Some "/"%string
      else match up_to_slash r with Some p => Some (String c p) | None => None end
  end.
(** The rest of a key behind a prefix. *)
Definition behind (prefix key : string) : string :=
  String.substring (String.length prefix) (String.length key - String.length prefix) key.
(** The entries of a listing with delimiter: common prefixes, once each, and objects. *)
Inductive list_entry := Common (p : string) | Object (k : string).
Definition entry_eqb (a b : list_entry) : bool :=
  match a, b with
  | Common p, Common q | Object p, Object q => String.eqb p q
  | _, _ => false
  end.
(** See [list_entry]. *)
Definition grouped (prefix : string) (l : list (string * bytes)) : list list_entry :=
  fold_right (fun k acc =>
    let e := match up_to_slash (behind prefix k) with
             | Some p => Common (prefix ++ p)%string
             | None => Object k
             end in
    if existsb (entry_eqb e) acc then acc else e :: acc) [] (matching prefix l).

(** The name taken from a common prefix, include/z5/s3/handle.hxx:386-392, with
    util::split (include/z5/util/util.hxx:21-32, [split_slash]): the last but one part,
    which prefixSplit.rbegin()[1] reads unchecked. *)
Definition child_name (prefix : string) : outcome (option string) :=
  match prefix with
  | EmptyString => Ok None
  | _ =>
      if String.eqb (String.substring (String.length prefix - 1) 1 prefix) "/" then
        match rev (split_slash prefix "") with
        | _ :: n :: _ => Ok (Some n)
        | _ => UB
        end
      else Ok None
  end.

(** The names of one page. *)
Definition page_names (es : list list_entry) : outcome (list string) :=
  foldM (fun acc e =>
    match e with
    | Common p => let! o := child_name p in
                  Ok (match o with Some n => (acc ++ [n])%list | None => acc end)
    | Object _ => Ok acc
    end) es [].

(** The loop of keysImpl, include/z5/s3/handle.hxx:379-395; a failing request ends it
    without an error. *)
Fixpoint keys_pages (fuel : nat) (prefix : string) (token : nat) (out : list string)
    : act s3 (list string) :=
  match fuel with
  | O => aret UB
  | S f => fun s =>
      match request (fun l => l) (fun l => page (grouped prefix l) token) s with
      | (s', None) => (s', Ok out)
      | (s', Some p) =>
          (do^ ns <- aret (page_names (fst p)) in
           let out' := (out ++ ns)%list in
           if snd p then keys_pages f prefix (token + page_size) out' else aret (Ok out')) s'
      end
  end.
(** keysImpl, include/z5/s3/handle.hxx:369-396. *)
Definition s3_keys (h : s3_handle) : act s3 (list string) := fun s =>
  keys_pages (S (List.length (objects s))) (node_prefix h) 0 [] s.

(** File::create, Group::create and Dataset::create,
    include/z5/s3/handle.hxx:479-490, 528-536, 597-605: the checks only. *)
Definition s3_file_create (h : s3_handle) : act s3 unit :=
  if negb (can_create (sh_mode h)) then aret (Throw EInvalidArgument)
  else do^ e <- s3_exists h in aret (if e then Throw EInvalidArgument else Ok tt).
Definition s3_node_create (h : s3_handle) : act s3 unit :=
  if is_mode_r (sh_mode h) then aret (Throw EInvalidArgument)
  else do^ e <- s3_exists h in aret (if e then Throw EInvalidArgument else Ok tt).

(** remove() of files, groups and datasets with removeImpl,
    include/z5/s3/handle.hxx:492-498, 538-544, 607-613, 410-414. *)
Definition s3_remove (h : s3_handle) : act s3 unit :=
  if negb (can_write (sh_mode h)) then aret (Throw EInvalidArgument)
  else delete_prefix (node_prefix h).

(** isZarrGroup, isZarrDataset, include/z5/s3/handle.hxx:416-423. *)
Definition s3_is_zarr_group (h : s3_handle) : act s3 bool :=
  do^ a <- s3_in h ".zgroup" in if a then aret (Ok true) else s3_in h "zarr.json".
Definition s3_is_zarr_dataset (h : s3_handle) : act s3 bool :=
  do^ a <- s3_in h ".zarray" in if a then aret (Ok true) else s3_in h "zarr.json".

(** * The chunk store *)

(** The object of a chunk, include/z5/s3/handle.hxx:628-638 (Chunk constructor). *)
Definition chunk_object (name key : string) : string := (name ++ "/" ++ key)%string.

(** s3::ChunkStore, include/z5/s3/store.hxx:15-53, with Chunk::exists and Chunk::remove,
    include/z5/s3/handle.hxx:640-657; [name] is the name of the dataset in the bucket.
    There is no header access. *)
Definition s3_policy (name : string) : policy s3 := {|
  p_exists key := object_exists (chunk_object name key);
  p_read key := get_object (chunk_object name key);
  p_write := fun _ key b => put_object (chunk_object name key) b;
  p_erase key := delete_object (chunk_object name key);
  p_remove key := delete_object (chunk_object name key);
  p_headers := false;
  p_header := fun _ => aret UB
|}.
