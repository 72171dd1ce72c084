(** Specification vocabulary for tasks that share memory. *)
From Verif Require Import M_Base M_Pool.

Section Memory.
(** [get m l]: contents of location [l]. *)
Variables (M B loc V : Type) (get : M -> loc -> V).

(** Two memories agree on a set of locations. *)
Definition agree (P : loc -> Prop) (m m' : M) : Prop := forall l, P l -> get m l = get m' l.
Definition either (P Q : loc -> Prop) : loc -> Prop := fun l => P l \/ Q l.

(** Code that depends on the locations [W] and [R] only and changes [W] only: run
    from two memories that agree on [W] and [R] it does the same, and locations with
    equal contents keep equal contents. *)
Inductive confined (W R : loc -> Prop) : prog M B -> Prop :=
| confined_ret o : confined W R (Ret o)
| confined_act f :
    (forall m m', agree (either W R) m m' ->
       snd (f m) = snd (f m') /\
       forall l, get m l = get m' l -> get (fst (f m)) l = get (fst (f m')) l) ->
    (forall m l, ~ W l -> get (fst (f m)) l = get m l) ->
    (forall m, confined W R (snd (f m))) ->
    confined W R (Act f).

(** A thread's code ended with result [r], leaving a usable thread state. *)
Definition ends (I : B -> Prop) (o : outcome B) (r : outcome unit) : Prop :=
  match o, r with
  | Ok b, Ok _ => I b
  | Throw e, Throw e' => e = e'
  | _, _ => False
  end.

(** Tasks 0..m-1 that can run side by side: they write to disjoint sets of locations
    [F], read nothing else but [R], and run alone from memory [m0] each has one
    result ([fin] on its locations and [res]), whatever thread it runs on and
    whatever state in [I] the thread has. *)
Record tasks_ok (m : nat) (task : nat -> nat -> B -> prog M B) (I : B -> Prop)
    (F : nat -> loc -> Prop) (R : loc -> Prop) (m0 : M)
    (fin : nat -> M) (res : nat -> outcome unit) : Prop := {
  to_disjoint : forall i j l, (i < m)%nat -> (j < m)%nat -> i <> j -> F i l -> ~ F j l;
  to_readonly : forall i l, (i < m)%nat -> F i l -> ~ R l;
  to_confined : forall i tid b, (i < m)%nat -> confined (F i) R (task i tid b);
  to_result : forall i tid b, (i < m)%nat -> I b ->
    agree (F i) (fst (run (task i tid b) m0)) (fin i) /\ ends I (snd (run (task i tid b) m0)) (res i)
}.
End Memory.

(** The first exception in a list of results. *)
Fixpoint first_error (rs : list (outcome unit)) : option error :=
  match rs with
  | [] => None
  | Throw e :: _ => Some e
  | _ :: r => first_error r
  end.

(** The worker runs a task. *)
Definition is_running {M B} (w : wstate M B) : bool :=
  match w with WRun _ _ => true | _ => false end.

(** The units of a batch that are started when the batch is processed in order: up
    to and including the first one that fails. *)
Fixpoint started (res : nat -> outcome unit) (l : list nat) : list nat :=
  match l with
  | [] => []
  | i :: r => i :: match res i with Ok _ => started res r | _ => [] end
  end.

(** The recorded result of task [k]. *)
Definition future_of {M B} (p : pool M B) (k : nat) : outcome unit :=
  match nth_error (p_futures p) k with Some (Some o) => o | _ => UB end.
