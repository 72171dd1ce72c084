(** Specification vocabulary for byte strings, independent of the model. *)
From Verif Require Import M_Base.

(** Value of a byte string read least significant byte first. *)
Fixpoint value_le (bs : bytes) : N :=
  match bs with [] => 0 | b :: r => b + 256 * value_le r end.

(** Value of a byte string read most significant byte first. *)
Definition value_be (bs : bytes) : N := fold_left (fun acc b => acc * 256 + b) bs 0.

(** Every element is a byte. *)
Definition all_bytes (bs : bytes) : Prop := Forall is_byte bs.

(** [p] is a prefix of [l], and a different list. *)
Definition strict_prefix {A} (p l : list A) : Prop := exists x r, l = p ++ x :: r.

(** Chunk shapes and varlen sizes an n5 header can represent. *)
Definition header_ok (sh : shape) (v : N) : Prop :=
  lenN sh < 65536 /\ Forall (fun n => n < 2 ^ 32) sh /\ v < 2 ^ 32.
