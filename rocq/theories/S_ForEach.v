(** Specification of include/z5/util/for_each.hxx: callbacks that are counted. *)
From Verif Require Import M_Base M_Pool S_Array S_Grid S_Pool.

(** A callback that counts its calls per argument and throws for some of them. *)
Definition counted {A B} (eqb : A -> A -> bool) (fail : A -> option error) (tid : nat) (a : A) (st : B)
    : prog (A -> nat) B :=
  Act (fun m => (fun a' => if eqb a' a then S (m a') else m a',
                 Ret (match fail a with None => Ok st | Some e => Throw e end))).

(** Equality of chunk coordinates and of blocks. *)
Fixpoint shape_eqb (a b : shape) : bool :=
  match a, b with
  | [], [] => true
  | x :: a', y :: b' => (x =? y) && shape_eqb a' b'
  | _, _ => false
  end.
Definition block_eqb (a b : shape * shape) : bool := shape_eqb (fst a) (fst b) && shape_eqb (snd a) (snd b).

(** Exactly the arguments in [P] were passed, each once. *)
Definition each_once {A} (P : A -> Prop) (calls : A -> nat) : Prop :=
  (forall a, P a -> calls a = 1%nat) /\ (forall a, ~ P a -> calls a = 0%nat).
(** No argument twice, none outside of [P]. *)
Definition at_most_once {A} (P : A -> Prop) (calls : A -> nat) : Prop :=
  (forall a, (calls a <= 1)%nat) /\ (forall a, ~ P a -> calls a = 0%nat).

(** First element and clipped extent of a block. *)
Definition is_block (P : shape -> Prop) (s b : shape) (a : shape * shape) : Prop :=
  exists k, P k /\ a = (chunk_origin b k, chunk_extent s b k).

(** What a caller sees of the calls for the arguments [P]: never one twice, none
    outside of [P]; each once if none fails; otherwise one of the exceptions is
    thrown. *)
Definition visited {A} (fail : A -> option error) (P : A -> Prop) (calls : A -> nat) (r : outcome unit) : Prop :=
  at_most_once P calls /\
  ((forall a, P a -> fail a = None) -> r = Ok tt /\ each_once P calls) /\
  ((exists a, P a /\ fail a <> None) -> exists a e, P a /\ fail a = Some e /\ r = Throw e).

