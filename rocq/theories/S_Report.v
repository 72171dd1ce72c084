(** Specification vocabulary for what a dataset reports. *)
From Verif Require Import M_Base.

(** The sum of some numbers. *)
Definition total (l : list N) : N := fold_right N.add 0 l.
