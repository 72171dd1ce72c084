(** Python objects in memory: parents, names and files. *)
From Coq Require Import NArith ZArith List Bool String Ascii.
From Verif Require Import M_Base M_Double M_Json M_Mode M_Key M_Blocking M_Metadata M_Fs M_Attributes M_Container M_PyGroup.
Import ListNotations.
Local Open Scope list_scope.

(** An object (group, file or dataset) with the address of its _parent,
    src/python/module/z5py/group.py:42, dataset.py:89. *)
Record pynode := PyNode { nd_obj : pyobj; nd_parent : nat }.
(** The objects made so far; the address of an object is its position.  Python's "is"
    compares addresses.  Simplified: objects are never freed. *)
Definition pyheap := list pynode.

(** Group.parent and Dataset.parent, src/python/module/z5py/group.py:113-117, dataset.py:431-435. *)
Definition py_parent (m : pyheap) (i : nat) : option nat := option_map nd_parent (nth_error m i).
(** Group.name and Dataset.name, src/python/module/z5py/group.py:119-123, dataset.py:437-441. *)
Definition py_name (m : pyheap) (i : nat) : option string := option_map (fun x => obj_name (nd_obj x)) (nth_error m i).

(** [while parent is not parent.parent: parent = parent.parent],
    src/python/module/z5py/group.py:132-133, dataset.py:450-451: begun at [p], the loop
    ends at [r]. *)
Inductive climbs (m : pyheap) : nat -> nat -> Prop :=
| climb_stop p : py_parent m p = Some p -> climbs m p p
| climb_up p q r : py_parent m p = Some q -> p <> q -> climbs m q r -> climbs m p r.
(** Group.file and Dataset.file, src/python/module/z5py/group.py:125-134, dataset.py:443-452. *)
Definition py_file (m : pyheap) (i r : nat) : Prop := exists p, py_parent m i = Some p /\ climbs m p r.

(** Group(...) and Dataset(...): a new object, src/python/module/z5py/group.py:38-45, dataset.py:84-90. *)
Definition new_object (m : pyheap) (x : pyobj) (parent : nat) : pyheap * nat := (m ++ [PyNode x parent], List.length m).
(** The group at an address; datasets have no such methods (AttributeError). *)
Definition group_at (m : pyheap) (i : nat) : outcome pygroup :=
  match nth_error m i with
  | Some (PyNode (PGroup g) _) => Ok g
  | _ => Throw ELogic
  end.

(** What is done when a call has returned: the result is made an object with parent [i]. *)
Definition child_of {A} (m : pyheap) (i : nat) (mk : A -> pyobj) (r : fsys * outcome A) : fsys * pyheap * outcome nat :=
  match r with
  | (s, Ok x) => let (m', j) := new_object m (mk x) i in (s, m', Ok j)
  | (s, Throw e) => (s, m, Throw e)
  | (s, UB) => (s, m, UB)
  end.

(** The calls that give objects: File(...); group[name]; create_group, require_group,
    create_dataset, require_dataset; pickle.loads(pickle.dumps(object)). *)
Inductive pcall :=
| COpen (h : handle) (ext use_zarr : option bool) (fmt : Z) (sep : string)
| CGet (i : nat) (name : string)
| CCreateGroup (i : nat) (name : string)
| CRequireGroup (i : nat) (name : string)
| CCreateDataset (i : nat) (name : string) (a : ds_args)
| CRequireDataset (i : nat) (name : string) (sh : shape) (a : ds_args)
| CUnpickle (i : nat).

(** [for part in parts[:-1]: group = group.require_group(part)],
    src/python/module/z5py/group.py:242-244. *)
Fixpoint do_require_groups (parts : list string) (i : nat) (s : fsys) (m : pyheap) : fsys * pyheap * outcome nat :=
  match parts with
  | [] => (s, m, Ok i)
  | x :: r =>
      match group_at m i with
      | Ok g =>
          match child_of m i PGroup (py_require_group g x s) with
          | (s', m', Ok j) => do_require_groups r j s' m'
          | y => y
          end
      | Throw e => (s, m, Throw e)
      | UB => (s, m, UB)
      end
  end.

(** Group.create_dataset, src/python/module/z5py/group.py:234-259, see [py_create_dataset]. *)
Definition do_create_dataset (i : nat) (name : string) (a : ds_args) (g : pygroup) (s : fsys) (m : pyheap)
    : fsys * pyheap * outcome nat :=
  match py_may_create g name s with
  | (s1, Ok _) =>
      let parts := split_slash (lstrip name) "" in
      match removelast parts with
      | [] => child_of m i PDataset (py_create_in g name a s1)
      | front =>
          match do_require_groups front i s1 m with
          | (s2, m', Ok j) =>
              match group_at m' j with
              | Ok g' =>
                  child_of m' j PDataset
                    ((do* _ <- py_may_create g' (last parts ""%string) in py_create_in g' (last parts ""%string) a) s2)
              | Throw e => (s2, m', Throw e)
              | UB => (s2, m', UB)
              end
          | y => y
          end
      end
  | (s1, Throw e) => (s1, m, Throw e)
  | (s1, UB) => (s1, m, UB)
  end.

(** _navigate, src/python/module/z5py/dataset.py:22-33, see [navigate_parts]. *)
Fixpoint do_navigate (parts : list string) (i : nat) (s : fsys) (m : pyheap) : fsys * pyheap * outcome nat :=
  match parts with
  | [] => (s, m, Ok i)
  | x :: r =>
      match group_at m i with
      | Ok g =>
          match child_of m i (fun y => y) (s, py_getitem s g x) with
          | (s', m', Ok j) => do_navigate r j s' m'
          | y => y
          end
      | Throw e => (s, m, Throw e)
      | UB => (s, m, UB)
      end
  end.

(** self.file as the program computes it; as many rounds as there are objects are enough. *)
Fixpoint climb (fuel : nat) (m : pyheap) (p : nat) : option nat :=
  match fuel with
  | O => None
  | S k => match py_parent m p with
           | Some q => if Nat.eqb p q then Some p else climb k m q
           | None => None
           end
  end.
Definition file_address (m : pyheap) (i : nat) : option nat :=
  match py_parent m i with Some p => climb (List.length m) m p | None => None end.

(** The calls, src/python/module/z5py/file.py:95-134 (the file is its own parent),
    group.py:77-96, 151-192, 198-287, dataset.py:344-349.  Unpickling: Group.__reduce__ and
    Dataset.__reduce__, group.py:47-49, dataset.py:92-96, with file.py:31-44, 136-139;
    the unpickled file is a new object. *)
Definition run_call (c : pcall) (s : fsys) (m : pyheap) : fsys * pyheap * outcome nat :=
  let on (i : nat) (f : pygroup -> fsys * pyheap * outcome nat) :=
    match group_at m i with
    | Ok g => f g
    | Throw e => (s, m, Throw e)
    | UB => (s, m, UB)
    end in
  match c with
  | COpen h ext use_zarr fmt sep =>
      child_of m (List.length m) (fun fmt' => PGroup (PyGroup h "" sep fmt')) (py_open_file h ext use_zarr fmt s)
  | CGet i name => on i (fun g => child_of m i (fun x => x) (s, py_getitem s g name))
  | CCreateGroup i name => on i (fun g => child_of m i PGroup (py_create_group g name s))
  | CRequireGroup i name => on i (fun g => child_of m i PGroup (py_require_group g name s))
  | CCreateDataset i name a => on i (fun g => do_create_dataset i name a g s m)
  | CRequireDataset i name sh a => on i (fun g => child_of m i PDataset (py_require_dataset g name sh a s))
  | CUnpickle i =>
      match nth_error m i, file_address m i with
      | Some x, Some r =>
          match group_at m r with
          | Ok f =>
              match child_of m (List.length m) PGroup (s, py_unpickle_file s f) with
              | (s', m', Ok j) =>
                  match rstrip (lstrip (obj_name (nd_obj x))) with
                  | EmptyString => (s', m', Ok j)
                  | rel => do_navigate (split_slash rel "") j s' m'
                  end
              | y => y
              end
          | Throw e => (s, m, Throw e)
          | UB => (s, m, UB)
          end
      | _, _ => (s, m, Throw ELogic)
      end
  end.

(** A program: calls, each of which finds files and directories as they may then be
    (other programs may have changed them), and the calls that have returned, with
    the addresses of their results; [ok]: which calls the program makes. *)
Inductive history (ok : pcall -> Prop) : pyheap -> list (pcall * nat) -> Prop :=
| h_start : history ok [] []
| h_returns m l c s s' m' j : history ok m l -> ok c -> run_call c s m = (s', m', Ok j) -> history ok m' (l ++ [(c, j)])
| h_raises m l c s s' m' e : history ok m l -> ok c -> run_call c s m = (s', m', Throw e) -> history ok m' l.
