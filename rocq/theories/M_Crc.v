(** Model of include/z5/util/crc32c.hxx. *)
From Verif Require Import M_Base.

(** The reflected polynomial, include/z5/util/crc32c.hxx:24. *)
Definition crc_poly : N := 0x82F63B78.

(** One round of the table generator, include/z5/util/crc32c.hxx:24. *)
Definition crc_round (crc : N) : N :=
  if N.land crc 1 =? 0 then N.shiftr crc 1 else N.lxor (N.shiftr crc 1) crc_poly.

(** The inner loop (k < 8), include/z5/util/crc32c.hxx:23-25. *)
Fixpoint crc_rounds (k : nat) (crc : N) : N :=
  match k with O => crc | S k' => crc_rounds k' (crc_round crc) end.

(** crc32c_detail::table, include/z5/util/crc32c.hxx:18-31. *)
Definition crc_table : list N := map (fun i => crc_rounds 8 (N.of_nat i)) (seq 0 256).

(** Bitwise complement of a uint32_t, include/z5/util/crc32c.hxx:38,43. *)
Definition not32 (x : N) : N := N.lxor x 0xFFFFFFFF.

(** The update for one byte, include/z5/util/crc32c.hxx:41.  The index is masked
    to 0..255, so the table access is always in range. *)
Definition crc_update (crc p : N) : N :=
  N.lxor (nth (N.to_nat (N.land (N.lxor crc p) 0xFF)) crc_table 0) (N.shiftr crc 8).

(** crc32c(data, n, seed), include/z5/util/crc32c.hxx:36-44. *)
Definition crc32c (data : bytes) (seed : N) : N :=
  not32 (fold_left crc_update data (not32 seed)).
