(** Specification of clients that access attributes: each of them sees and leaves what it
    would see and leave without the others. *)
From Coq Require Import String.
From Verif Require Import M_Base M_Json M_Mode M_Fs M_Attributes M_AttrSteps S_Attributes.
Import ListNotations.
Local Open Scope list_scope.

(** The answer of a call that returns nothing. *)
Definition done (r : fsys * outcome unit) : fsys * outcome json :=
  (fst r, match snd r with Ok _ => Ok JNull | Throw e => Throw e | UB => UB end).
(** A call that nobody interrupts, as a whole. *)
Definition call_alone (c : acall) (s : fsys) : fsys * outcome json :=
  match c with
  | AtRead k p => (s, read_attributes k s p)
  | AtWrite k m p j => done (write_attributes k m p j s)
  | AtRemove k m p a => done (remove_attribute k m p a s)
  end.
(** One after the other: the files at the end, and the answers. *)
Fixpoint calls_alone (l : list acall) (s : fsys) : fsys * list (outcome json) :=
  match l with
  | [] => (s, [])
  | c :: r => (fst (calls_alone r (fst (call_alone c s))), snd (call_alone c s) :: snd (calls_alone r (fst (call_alone c s))))
  end.

Definition changes (c : acall) : Prop := match c with AtRead _ _ => False | _ => True end.
Definition documents : list string := [".zgroup"; ".zarray"; "zarr.json"; ".zattrs"; "attributes.json"]%string.

(** A document of the node [p]; the node or a document of it. *)
Definition doc_of (p q : path) : Prop := exists d, In d documents /\ q = p ++ [d].
Definition foot (p q : path) : Prop := q = p \/ doc_of p q.

(** A node whose attributes one client changes is used by no other client, and no node
    has the name of a document of another. *)
Record separate (calls : list (list acall)) : Prop := {
  sep_nodes : forall t t' l l' c c', t <> t' -> nth_error calls t = Some l -> nth_error calls t' = Some l' ->
    In c l -> In c' l' -> changes c -> call_node c <> call_node c';
  sep_names : forall l l' c c' d, In l calls -> In l' calls -> In c l -> In c' l' -> In d documents ->
    call_node c' <> call_node c ++ [d]
}.

(** The calls of client [t] that have returned, with their answers. *)
Definition own_log (t : nat) (log : list (nat * acall * outcome json)) : list (acall * outcome json) :=
  map (fun x => (snd (fst x), snd x)) (filter (fun x => (fst (fst x) =? t)%nat) log).

(** A call that changes the attributes of one node. *)
Definition change_call (k : hkind) (m : mode) (p : path) (o : aop) : acall :=
  match o with
  | AWrite j => AtWrite k m p j
  | ARemove a => AtRemove k m p a
  end.
(** A client that makes such calls. *)
Record writer := Writer { w_kind : hkind; w_mode : mode; w_node : path; w_ops : list aop }.
Definition writer_calls (w : writer) : list acall := map (change_call (w_kind w) (w_mode w) (w_node w)) (w_ops w).
(** Which calls succeed. *)
Definition successes (l : list (acall * outcome json)) : list bool := map (fun x => is_ok (snd x)) l.
