(** Specification of clients that use one dataset side by side. *)
From Verif Require Import M_Base M_Text M_Key M_Blocking M_View M_Bytes M_Format
  M_Mode M_Shard M_Dataset M_Sharded M_Access M_Pool M_Parallel M_Lock M_Clients
  S_Array S_Grid S_Bytes S_Dataset S_Access S_Sharded S_Lock.

(** A call: reading a region into the array [out], or one that changes the dataset. *)
Inductive client_call :=
| KRead (ov : view) (off : shape) (out : list cell)
| KOp (o : array_op).

(** The code behind a call. *)
Definition plain_body (d : dataset) (c : client_call) : call_body :=
  match c with
  | KRead ov off out => read_call d ov off out
  | KOp (AWrite off n src) => write_call d src off n
  | KOp (AChunk c data) => write_chunk_call d c data
  | KOp (ARemove c) => remove_chunk_call d c
  end.
Definition sharded_body (sd : sharded) (c : client_call) : call_body :=
  match c with
  | KRead ov off out => sh_read_call sd ov off out
  | KOp o => unguarded (array_call_code sd o)
  end.

(** Allowed arguments. *)
Definition client_call_ok (d : dataset) (c : client_call) : Prop :=
  match c with
  | KRead ov off out => region_ok d off (v_shape ov) /\ out_view_ok ov (lenN out)
  | KOp o => array_op_ok d o
  end.

(** The chunks a call is about, and those it may change. *)
Definition op_about (d : dataset) (o : array_op) (x : shape) : Prop :=
  match o with
  | AWrite off n _ => overlaps (d_shape d) (d_chunks d) off n x
  | AChunk c _ | ARemove c => x = c
  end.
Definition about (d : dataset) (c : client_call) (x : shape) : Prop :=
  match c with
  | KRead ov off _ => overlaps (d_shape d) (d_chunks d) off (v_shape ov) x
  | KOp o => op_about d o x
  end.
Definition changes (d : dataset) (c : client_call) (x : shape) : Prop :=
  match c with
  | KRead _ _ _ => False
  | KOp o => op_about d o x
  end.

(** No client changes a chunk another client's calls are about; with shards
    ([unit_of] gives the shard of a chunk): a shard. *)
Definition apart (d : dataset) (unit_of : shape -> shape) (calls : list (list client_call)) : Prop :=
  forall i j cs cs' c c' x x', i <> j -> nth_error calls i = Some cs -> nth_error calls j = Some cs' ->
    In c cs -> In c' cs' -> changes d c x -> about d c' x' -> unit_of x <> unit_of x'.

(** [out'] is [out] with the elements of the array [a] from [off] on in the view [ov]. *)
Definition shows_region (d : dataset) (a : shape -> cell) (ov : view) (off : shape) (out out' : list cell) : Prop :=
  lenN out' = lenN out /\
  (forall i, in_shape (v_shape ov) i -> exists v, getN out' (v_off ov + lin (v_strides ov) i) = Ok v /\
     same_value d v (a (vadd off i)) /\ (t_float (d_type d) = false -> v = a (vadd off i))) /\
  (forall x, (forall i, in_shape (v_shape ov) i -> x <> v_off ov + lin (v_strides ov) i) -> getN out' x = getN out x).

(** The answers of an array [a] that only these calls use: all calls succeed, reads
    show the array with the changes made before. *)
Fixpoint answers_of (d : dataset) (a : shape -> cell) (cs : list client_call) (rs : list (outcome (list cell))) : Prop :=
  match cs, rs with
  | [], [] => True
  | KRead ov off out :: cs', r :: rs' =>
      (exists out', r = Ok out' /\ shows_region d a ov off out out') /\ answers_of d a cs' rs'
  | KOp o :: cs', r :: rs' => r = Ok [] /\ answers_of d (apply_op d o a) cs' rs'
  | _, _ => False
  end.

(** The operations among calls. *)
Fixpoint ops_of (cs : list client_call) : list array_op :=
  match cs with
  | [] => []
  | KOp o :: r => o :: ops_of r
  | KRead _ _ _ :: r => ops_of r
  end.

(** Calls and answers of client [t] in a log. *)
Definition calls_by {C} (t : nat) (log : list (nat * C * outcome (list cell))) : list C :=
  map (fun e => snd (fst e)) (filter (fun e => Nat.eqb (fst (fst e)) t) log).
Definition answers_to {C} (t : nat) (log : list (nat * C * outcome (list cell))) : list (outcome (list cell)) :=
  map snd (filter (fun e => Nat.eqb (fst (fst e)) t) log).

(** All clients have made all their calls. *)
Definition all_answered {C} (y : @clients C) : Prop := Forall (fun t => t = (KIdle, [])) (k_clients y).

(** [order] is a sequence of all calls in which each client's calls keep their order. *)
Inductive interleaving {C} : list (list C) -> list C -> Prop :=
| il_nil ls : Forall (eq []) ls -> interleaving ls []
| il_cons ls t c rest order : nth_error ls t = Some (c :: rest) -> interleaving (set_nth t ls rest) order ->
    interleaving ls (c :: order).
