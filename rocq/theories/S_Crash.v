(** Specification of interrupted writes. *)
From Coq Require Import String.
From Verif Require Import M_Base M_Dataset S_Array S_Grid.
Import List ListNotations.
Local Open Scope list_scope.

(** The files [keys] are processed one after the other; [old] are the contents before,
    [new] those after a complete write.  There is a point up to which everything is
    new and after which everything is old; the file at this point may be cut. *)
Definition interrupted (keys : list string) (old new found : store) : Prop :=
  exists before current after, keys = (before ++ current ++ after)%list /\ (List.length current <= 1)%nat /\
    (forall k, In k before -> found k = new k) /\
    (forall k, In k after -> found k = old k) /\
    (forall k, In k current -> found k = old k \/ found k = new k \/
       exists file i, new k = Some file /\ found k = Some (firstn i file)) /\
    (forall k, ~ In k keys -> found k = old k).

(** The files [keys] are processed by [threads] threads.  All but at most [threads] of
    them have the old or the new contents; each of the others may be cut. *)
Definition interrupted_on (threads : nat) (keys : list string) (old new found : store) : Prop :=
  exists cut, (List.length cut <= threads)%nat /\ incl cut keys /\
    (forall k, In k keys -> ~ In k cut -> found k = old k \/ found k = new k) /\
    (forall k, In k cut -> found k = old k \/ found k = new k \/
       exists file i, new k = Some file /\ found k = Some (firstn i file)) /\
    (forall k, ~ In k keys -> found k = old k).

(** The files [keys] are processed one after the other, each of them at once: up to
    some point they have the new contents, after it the old ones. *)
Definition stopped (keys : list string) (old new found : store) : Prop :=
  exists before after, keys = (before ++ after)%list /\
    (forall k, In k before -> found k = new k) /\
    (forall k, In k after -> found k = old k) /\
    (forall k, ~ In k keys -> found k = old k).
