(** Specification of CRC-32C by polynomial division over GF(2), independent of
    the table driven implementation. *)
From Verif Require Import M_Base.

(** The Castagnoli polynomial (coefficient of x^i is bit i), degree 32. *)
Definition castagnoli : N := 0x11EDC6F41.

(** Bits of a byte, least significant first (the transmission order). *)
Definition byte_bits (b : N) : list bool := map (N.testbit b) [0; 1; 2; 3; 4; 5; 6; 7].
Definition message_bits (bs : bytes) : list bool := flat_map byte_bits bs.

(** Long division: [r] is the remainder so far, the next coefficient is brought
    down, and the divisor subtracted if the degree reached 32. *)
Definition division_step (r : N) (bit : bool) : N :=
  let r' := 2 * r + N.b2n bit in
  if N.testbit r' 32 then N.lxor r' castagnoli else r'.

(** Remainder of the polynomial with the given coefficients (highest first)
    modulo the Castagnoli polynomial. *)
Definition poly_rem (bits : list bool) : N := fold_left division_step bits 0.

(** Complement the first 32 coefficients ("init all ones"). *)
Definition invert_first_32 (bits : list bool) : list bool :=
  map negb (firstn 32 bits) ++ skipn 32 bits.

(** The number whose bit i is the i-th entry of the list. *)
Fixpoint bits_value (bits : list bool) : N :=
  match bits with [] => 0 | b :: r => N.b2n b + 2 * bits_value r end.

(** Bit reversal of a 32 bit word. *)
Definition reflect32 (r : N) : N :=
  bits_value (map (fun i => N.testbit r (31 - N.of_nat i)) (seq 0 32)).

(** CRC-32C: remainder of message * x^32 with inverted leading coefficients,
    reflected and complemented. *)
Definition crc32c_spec (bs : bytes) : N :=
  N.lxor (reflect32 (poly_rem (invert_first_32 (message_bits bs ++ repeat false 32)))) 0xFFFFFFFF.
