(** Model of include/z5/util/file_mode.hxx. *)
From Verif Require Import M_Base.

(** FileMode::modes, include/z5/util/file_mode.hxx:23-27. *)
Inductive mode := Mode_r | Mode_r_p | Mode_w | Mode_w_m | Mode_a.

(** The bit flags, include/z5/util/file_mode.hxx:11-14, and the value of each mode
    (lines 23-27). *)
Definition bit_write : N := 1.
Definition bit_create : N := 2.
Definition bit_must_not_exist : N := 4.
Definition bit_truncate : N := 8.
Definition mode_bits (m : mode) : N :=
  match m with
  | Mode_r => 0
  | Mode_r_p => bit_write
  | Mode_w => N.lor (N.lor bit_write bit_truncate) bit_create
  | Mode_w_m => N.lor (N.lor bit_write bit_create) bit_must_not_exist
  | Mode_a => N.lor bit_write bit_create
  end.

(** canWrite, canCreate, mustNotExist, shouldTruncate,
    include/z5/util/file_mode.hxx:32-35. *)
Definition can_write (m : mode) : bool := negb (N.land (mode_bits m) bit_write =? 0).
Definition can_create (m : mode) : bool := negb (N.land (mode_bits m) bit_create =? 0).
Definition must_not_exist (m : mode) : bool := negb (N.land (mode_bits m) bit_must_not_exist =? 0).
Definition should_truncate (m : mode) : bool := negb (N.land (mode_bits m) bit_truncate =? 0).

(** The test mode().mode() == FileMode::modes::r of the create() functions,
    include/z5/filesystem/handle.hxx. *)
Definition is_mode_r (m : mode) : bool := match m with Mode_r => true | _ => false end.
