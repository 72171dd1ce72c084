(** Several clients of one dataset: threads or processes, each with its own object of
    the dataset or sharing one, that call its functions without coordination.  Nothing
    in include/z5/dataset.hxx, include/z5/generic/dataset.hxx and
    include/z5/multiarray/array_access.hxx orders accesses of different calls except
    shardMutex_, which is modelled in M_Lock. *)
From Verif Require Import M_Base M_Text M_Key M_Blocking M_View M_Bytes M_Format
  M_Mode M_Shard M_Dataset M_Sharded M_Access M_Pool M_Parallel M_Lock.

(** A call under way: its own output array, of [cb_size] elements, and the code it has
    to execute.  Calls use one thread. *)
Record call_body := Body {
  cb_size : N;
  cb_out : N -> cell;
  cb_code : code
}.

(** The elements of an output array, given by address. *)
Definition elements (size : N) (o : N -> cell) : list cell := map (fun i => o (N.of_nat i)) (seq 0 (N.to_nat size)).
(** An output array with the elements of a list. *)
Definition array_of (l : list cell) : N -> cell := fun a => nth (N.to_nat a) l [].

(** What a call returns: the exception, or the elements of its output array. *)
Definition answer (size : N) (o : N -> cell) (r : outcome (list cell)) : outcome (list cell) :=
  match r with
  | Ok _ => Ok (elements size o)
  | Throw e => Throw e
  | UB => UB
  end.

(** Code of a call that has no output array. *)
Definition no_output (p : code) : call_body := Body 0 (fun _ => []) p.

(** readSubarray, include/z5/multiarray/array_access.hxx:157-181. *)
Definition read_call (d : dataset) (ov : view) (off : shape) (out : list cell) : call_body :=
  Body (lenN out) (array_of out)
    (plet (begin_request d off (v_shape ov)) (fun reqs =>
     foreach_sequential (fun _ => read_code d (lenN out) ov off (v_shape ov)) reqs
       (repeat (zero_cell (t_width (d_type d))) (N.to_nat (prodw (d_chunks d)))))).
(** writeSubarray and writeScalar, include/z5/multiarray/array_access.hxx:496-521 and
    include/z5/multiarray/broadcast.hxx:18-50. *)
Definition write_call (d : dataset) (src : source) (off n : shape) : call_body :=
  no_output
    (plet (begin_request d off n) (fun reqs =>
     foreach_sequential (fun _ => write_unit_code d src off n) reqs
       (repeat (d_fill d) (N.to_nat (prodw (d_chunks d)))))).
(** writeChunk, include/z5/generic/dataset.hxx:42-67. *)
Definition write_chunk_call (d : dataset) (c : shape) (data : list cell) : call_body :=
  no_output (write_chunk_code d c data (Ret (Ok []))).
(** removeChunk, include/z5/generic/dataset.hxx:207-210. *)
Definition remove_chunk_call (d : dataset) (c : shape) : call_body :=
  no_output
    (plet (chunk_handle_of d (d_chunks d) c) (fun h =>
     if negb (can_write (d_mode d)) then Ret (Throw EInvalidArgument)
     else pset (ch_key h) None (Ret (Ok [])))).

(** The same for sharded datasets; readSubarray,
    include/z5/multiarray/array_access.hxx:419-493. *)
Definition sh_read_call (sd : sharded) (ov : view) (off : shape) (out : list cell) : call_body :=
  let d := sd_base sd in
  Body (lenN out) (array_of out)
    (plet (let! reqs := begin_request d off (v_shape ov) in
           let! cps := chunks_per_shard (sd_shard sd) (d_chunks d) in
           group_chunks cps reqs) (fun groups =>
     foreach_sequential (fun _ => shard_read_unit_code sd (lenN out) ov off (v_shape ov)) groups
       (repeat (zero_cell (t_width (d_type d))) (N.to_nat (prodw (d_chunks d)))))).
(** Calls that M_Lock models.  Simplified: the mutex is not taken; threads that share
    one object have fewer interleavings than this model. *)
Definition unguarded (c : call_code) : call_body :=
  no_output (match c with
             | Returns (Ok _) => Ret (Ok [])
             | Returns (Throw e) => Ret (Throw e)
             | Returns UB => Ret UB
             | Unlocked p | Locked p => p
             end).

(** ** The clients *)
Section Clients.
(** [C]: the calls the clients make. *)
Context {C : Type}.
Variable body_of : C -> call_body.

(** A client is between two calls or executes one. *)
Inductive kstate :=
| KIdle
| KRun (c : C) (out : N -> cell) (p : code).

(** [k_clients]: for each client its state and the calls it still has to make; [k_log]
    (ghost): the calls that have returned, in this order, with client and answer. *)
Record clients := Clients {
  k_files : store;
  k_clients : list (kstate * list C);
  k_log : list (nat * C * outcome (list cell))
}.

(** Steps of client [t]; accesses to files of different clients may alternate in any
    way. *)
Inductive client_step (y : clients) (t : nat) : clients -> Prop :=
| kl_start c rest : nth_error (k_clients y) t = Some (KIdle, c :: rest) ->
    client_step y t (Clients (k_files y)
      (set_nth t (k_clients y) (KRun c (cb_out (body_of c)) (cb_code (body_of c)), rest)) (k_log y))
| kl_act c rest out f : nth_error (k_clients y) t = Some (KRun c out (Act f), rest) ->
    client_step y t (Clients (fst (fst (f (k_files y, out))))
      (set_nth t (k_clients y) (KRun c (snd (fst (f (k_files y, out)))) (snd (f (k_files y, out))), rest)) (k_log y))
| kl_end c rest out o : nth_error (k_clients y) t = Some (KRun c out (Ret o), rest) ->
    client_step y t (Clients (k_files y) (set_nth t (k_clients y) (KIdle, rest))
      (k_log y ++ [(t, c, answer (cb_size (body_of c)) out o)])).

(** Any client may make the next step. *)
Definition clients_step (y y' : clients) : Prop := exists t, client_step y t y'.

Definition clients_init (st : store) (calls : list (list C)) : clients :=
  Clients st (map (fun l => (KIdle, l)) calls) [].
End Clients.
