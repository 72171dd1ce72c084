(** The process dies during a single threaded write. *)
From Verif Require Import M_Base M_Text M_Key M_Blocking M_View M_Bytes M_Format
  M_Mode M_Shard M_Dataset M_Sharded M_Access M_Pool M_Parallel.

(** The memory when code is stopped: between two accesses, or inside of an access
    that appends to a file, which has then got some of the bytes
    (std::ofstream::write and close, include/z5/filesystem/store.hxx:39-49).
    Simplified: the bytes arrive in order, and what was written is not lost later
    (the process dies, not the machine). *)
Inductive crash : code -> pmem -> pmem -> Prop :=
| crash_now p m : crash p m m
| crash_later f m m' : crash (snd (f m)) (fst (f m)) m' -> crash (Act f) m m'
| crash_torn f m key a b i : fst m key = Some a -> fst (fst (f m)) key = Some (a ++ b)%list ->
    crash (Act f) m (set_key (fst m) key (Some (a ++ firstn i b)%list), snd m).

(** writeSubarray / writeScalar with one thread is stopped and leaves the files [st'],
    see [write_run] (include/z5/multiarray/array_access.hxx:253-288). *)
Inductive write_crash (d : dataset) (src : source) (off n : shape) (st : store) : store -> Prop :=
| write_crash_reqs reqs m' : begin_request d off n = Ok reqs ->
    crash (foreach_sequential (fun _ => write_unit_code d src off n) reqs
             (repeat (d_fill d) (N.to_nat (prodw (d_chunks d))))) (st, fun _ => []) m' ->
    write_crash d src off n st (fst m').

(** The same for a sharded dataset, see [sh_write_run]
    (include/z5/multiarray/array_access.hxx:327-404). *)
Inductive sh_write_crash (sd : sharded) (src : source) (off n : shape) (st : store) : store -> Prop :=
| sh_write_crash_groups groups m' :
    (let! reqs := begin_request (sd_base sd) off n in
     if negb (can_write (d_mode (sd_base sd))) then Throw EInvalidArgument else
     let! cps := chunks_per_shard (sd_shard sd) (d_chunks (sd_base sd)) in
     group_chunks cps reqs) = Ok groups ->
    crash (foreach_sequential (fun _ => shard_write_unit_code sd src off n) groups
             (repeat (d_fill (sd_base sd)) (N.to_nat (prodw (d_chunks (sd_base sd)))))) (st, fun _ => []) m' ->
    sh_write_crash sd src off n st (fst m').
