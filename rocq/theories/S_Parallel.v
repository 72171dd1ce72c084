(** Specification vocabulary for sub-array access on several threads. *)
From Verif Require Import M_Base M_Text M_Key M_View M_N5Header M_Format M_Mode M_Shard M_Dataset M_Sharded M_Access
  M_Pool M_Parallel S_Array S_Grid S_Bytes S_Text S_Format S_Dataset S_Access S_File.

(** The array [o], given by address, has the elements of the list [l]. *)
Definition lists (o : N -> cell) (l : list cell) : Prop := forall a, a < lenN l -> getN l a = Ok (o a).

(** A chunk file that can be read into the buffer of its chunk: it holds as many
    elements as the chunk, or is rejected; if it has a variable length, the elements
    fit into the buffer. *)
Definition overwritable (d : dataset) (c : shape) (file : bytes) : Prop :=
  let w := t_width (d_type d) in
  let n := prod (stored_shape d c) in
  complete_file d c file /\
  (forall sz payload, file_parts d file = Some (sz, payload) -> sz = n) /\
  (d_zarr d = false -> forall sz len, read_n5_header file = Ok (true, sz, len) ->
     sz <= n /\
     (cd_raw (d_codec d) = false ->
      match cd_dec (d_codec d) (skipn (N.to_nat len) file) (sz * w) with
      | Ok x => lenN x <= sz * w
      | Throw _ => True
      | UB => False
      end)).

(** The bytes of inner chunk [c], if it is stored and its shard can be read, were not
    cut short. *)
Definition complete_slot (sd : sharded) (st : store) (c : shape) : Prop :=
  forall x, sh_read_raw_chunk sd st c = Ok x -> x <> [] -> complete_file (sd_base sd) c x.

(** One operation on a plain or a sharded dataset; sub-array writes run on [threads]
    threads.  Store and result afterwards. *)
Definition par_op (d : dataset) (threads : N) (estimate : Z) (o : array_op) (st st1 : store) (r : outcome unit) : Prop :=
  match o with
  | AWrite off n src => write_run d threads estimate src off n st st1 r
  | AChunk c data => write_chunk d c data false 0 st = (st1, r)
  | ARemove c => remove_chunk d c st = (st1, r)
  end.
Definition sh_par_op (sd : sharded) (threads : N) (estimate : Z) (o : array_op) (st st1 : store) (r : outcome unit) : Prop :=
  match o with
  | AWrite off n src => sh_write_run sd threads estimate src off n st st1 r
  | AChunk c data => sh_write_chunk sd c data false st = (st1, r)
  | ARemove c => sh_remove_chunk sd c st = (st1, r)
  end.

(** A sequence of operations, each with its own number of threads; store and results
    afterwards. *)
Inductive history (step : N -> Z -> array_op -> store -> store -> outcome unit -> Prop)
    : list (N * Z * array_op) -> store -> store -> list (outcome unit) -> Prop :=
| history_nil st : history step [] st st []
| history_cons threads estimate o ops st st1 st2 r rs :
    step threads estimate o st st1 r -> history step ops st1 st2 rs ->
    history step ((threads, estimate, o) :: ops) st st2 (r :: rs).
