(** Specification: when two floating point numbers compare equal. *)
From Coq Require Import ZArith.
From Verif Require Import M_Base M_Format M_Double S_Number.

(** IEEE 754: NaN is not equal to anything, the zeros are equal. *)
Definition equal_number (x y : dbl) : Prop :=
  match x, y with
  | DNan, _ | _, DNan => False
  | DZero _, DZero _ => True
  | _, _ => x = y
  end.
