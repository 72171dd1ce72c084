(** Specification vocabulary for text, independent of the model. *)
From Coq Require Import Ascii String List NArith.
Import ListNotations.
Open Scope N_scope.

(** An ASCII digit. *)
Definition digit (c : ascii) : bool := (48 <=? N_of_ascii c) && (N_of_ascii c <=? 57).

(** A separator that cannot be mistaken for part of a number: its first
    character is not a digit (and it is not empty). *)
Definition good_separator (s : string) : Prop :=
  match s with EmptyString => False | String c _ => digit c = false end.

(** No path separator in the text. *)
Fixpoint slash_free (s : string) : bool :=
  match s with
  | EmptyString => true
  | String c r => negb (Ascii.eqb c "/") && slash_free r
  end.

(** [a] is a (non-strict) prefix of [b], for lists of path components. *)
Definition path_prefix (a b : list string) : Prop := exists r, b = a ++ r.
