(** Specification of clients that make, open and remove nodes: each of them sees and leaves
    what it would see and leave without the others. *)
From Coq Require Import ZArith String.
From Verif Require Import M_Base M_Json M_Mode M_Fs M_Attributes M_Container M_AttrSteps M_NodeSteps S_Attributes S_AttrSteps.
Import ListNotations.
Local Open Scope list_scope.

(** A call that nobody interrupts, as a whole ([M_Container], [M_Attributes]). *)
Definition with_answer {A} (f : A -> answer) (r : fsys * outcome A) : fsys * outcome answer :=
  (fst r, match snd r with Ok a => Ok (f a) | Throw e => Throw e | UB => UB end).
Definition ncall_alone (c : ncall) (s : fsys) : fsys * outcome answer :=
  match c with
  | DoAttr c => with_answer Attrs (call_alone c s)
  | DoFile h z fmt => with_answer (fun _ => Nothing) (create_file h z fmt s)
  | DoGroup root key fmt => with_answer (fun _ => Nothing) (create_group root key fmt s)
  | DoDataset root key dn sh ch cn o fill delim fmt enc shard =>
      with_answer Object (create_dataset root key dn sh ch cn o fill delim fmt enc shard s)
  | DoDatasetMd root key m => with_answer Object (create_dataset_md root key m s)
  | DoOpen root key => with_answer Object (s, open_dataset s root key)
  | DoRemove h => with_answer (fun _ => Nothing) (node_remove h s)
  | DoExists h => (s, Ok (Whether (fs_exists s (h_path h))))
  | DoIn h key => (s, Ok (Whether (group_in s h key)))
  end.
(** One after the other: the files at the end, and the answers. *)
Fixpoint ncalls_alone (l : list ncall) (s : fsys) : fsys * list (outcome answer) :=
  match l with
  | [] => (s, [])
  | c :: r => (fst (ncalls_alone r (fst (ncall_alone c s))),
               snd (ncall_alone c s) :: snd (ncalls_alone r (fst (ncall_alone c s))))
  end.

(** The node that a call makes, removes or changes. *)
Definition works_on (c : ncall) : option path :=
  match c with
  | DoAttr (AtRead _ _) => None
  | DoAttr (AtWrite _ _ p _) | DoAttr (AtRemove _ _ p _) => Some p
  | DoFile h _ _ | DoRemove h => Some (h_path h)
  | DoGroup root key _ | DoDataset root key _ _ _ _ _ _ _ _ _ _ | DoDatasetMd root key _ => Some (h_path root ++ key)
  | _ => None
  end.
(** The nodes that it looks at. *)
Definition looks_at (c : ncall) : list path :=
  match c with
  | DoAttr c => [call_node c]
  | DoGroup root _ _ | DoDataset root _ _ _ _ _ _ _ _ _ _ _ => [h_path root]
  | DoOpen root key => [h_path root; h_path root ++ key]
  | DoExists h => [h_path h]
  | DoIn h key => [h_path h ++ key]
  | _ => []
  end.

(** The files at and below some nodes. *)
Definition inside (T : list path) (q : path) : Prop := exists p, In p T /\ below p q = true.

(** Each client has nodes of its own, and everything below them belongs to it; nodes of
    different clients do not lie below each other.  A client works on its nodes.  Nodes
    that it only looks at may be those of nobody: a directory that is there, with
    documents that nobody makes. *)
Record apart (s : fsys) (own : list (list path)) (calls : list (list ncall)) : Prop := {
  ap_length : length own = length calls;
  ap_nodes : forall t t' T T' p p', t <> t' -> nth_error own t = Some T -> nth_error own t' = Some T' ->
    In p T -> In p' T' -> below p p' = false;
  ap_work : forall t T l c p, nth_error own t = Some T -> nth_error calls t = Some l -> In c l ->
    works_on c = Some p -> inside T p;
  ap_look : forall t T l c p, nth_error own t = Some T -> nth_error calls t = Some l -> In c l -> In p (looks_at c) ->
    inside T p \/
    s p = Some NDir /\
    (forall t' T' p', t' <> t -> nth_error own t' = Some T' -> In p' T' -> below p' p = false /\
       forall d, In d documents -> below (p ++ [d]) p' = false)
}.

(** The files of nobody. *)
Definition common (own : list (list path)) (q : path) : Prop := forall T, In T own -> ~ inside T q.

(** The calls of client [t] that have returned, with their answers. *)
Definition own_nlog (t : nat) (log : list (nat * ncall * outcome answer)) : list (ncall * outcome answer) :=
  map (fun x => (snd (fst x), snd x)) (filter (fun x => (fst (fst x) =? t)%nat) log).

(** The calls that make nodes. *)
Definition makes (c : ncall) : bool :=
  match c with DoFile _ _ _ | DoGroup _ _ _ | DoDataset _ _ _ _ _ _ _ _ _ _ _ _ | DoDatasetMd _ _ _ => true | _ => false end.
Definition makes_dataset (c : ncall) : bool :=
  match c with DoDataset _ _ _ _ _ _ _ _ _ _ _ _ | DoDatasetMd _ _ _ => true | _ => false end.
(** The files after remove() of what is at [p], if there is something. *)
Definition cleared (m : mode) (p : path) (s : fsys) : fsys :=
  if fs_exists s p then fst (node_remove (Handle p m) s) else s.
