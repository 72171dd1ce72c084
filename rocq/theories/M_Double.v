(** IEEE binary64 values and their conversions from and to integers, as used for
    the fill value (double fillValue, include/z5/metadata.hxx:390). *)
From Coq Require Import ZArith.
From Verif Require Import M_Base.

(** A double.  [DFin s m e] is (-1)^s * m * 2^e with m odd, so that every finite
    value has one representation.  Simplified: NaN payloads are not modelled. *)
Inductive dbl :=
| DNan
| DInf (neg : bool)
| DZero (neg : bool)
| DFin (neg : bool) (m : positive) (e : Z).

(** The values a double can hold: odd mantissa of at most 53 bits, exponent in
    range (subnormals down to 2^-1074, largest value below 2^1024). *)
Definition dbl_ok (x : dbl) : Prop :=
  match x with
  | DFin _ m e =>
      (exists n, m = xI n \/ m = xH) /\ (Zpos m < 2 ^ 53)%Z /\
      (-1074 <= e)%Z /\ (Zpos m * 2 ^ e < 2 ^ 1024)%Z
  | _ => True
  end.

(** Factor of two: p = fst * 2^snd with odd fst. *)
Fixpoint pstrip (p : positive) : positive * Z :=
  match p with
  | xO q => let r := pstrip q in (fst r, snd r + 1)%Z
  | _ => (p, 0%Z)
  end.

(** Conversion of an integer to double, round to nearest, ties to even (C++
    [conv.fpint]; used by static_cast<double>(json) of an integer number,
    include/z5/metadata.hxx:168,354). *)
Definition round_pos (neg : bool) (p : positive) : dbl :=
  let k := Z.max 0 (Z.log2 (Zpos p) + 1 - 53) in
  let q := (Zpos p / 2 ^ k)%Z in
  let r := (Zpos p mod 2 ^ k)%Z in
  let up := ((2 ^ k <? 2 * r) || ((2 ^ k =? 2 * r) && Z.odd q))%Z in
  match (if up then q + 1 else q)%Z with
  | Zpos q' => let s := pstrip q' in DFin neg (fst s) (snd s + k)
  | _ => DZero neg
  end.
Definition dbl_of_Z (z : Z) : dbl :=
  match z with
  | Z0 => DZero false
  | Zpos p => round_pos false p
  | Zneg p => round_pos true p
  end.

(** Conversion of a finite double to an integer: truncation (C++ [conv.fpint]). *)
Definition dbl_trunc (x : dbl) : option Z :=
  match x with
  | DNan | DInf _ => None
  | DZero _ => Some 0%Z
  | DFin s m e =>
      let a := if (0 <=? e)%Z then (Zpos m * 2 ^ e)%Z else (Zpos m / 2 ^ (- e))%Z in
      Some (if s then (- a)%Z else a)
  end.

(** static_cast of a double to an integer type with values lo..hi: undefined when
    the truncated value does not fit. *)
Definition dbl_to_int (lo hi : Z) (x : dbl) : outcome Z :=
  match dbl_trunc x with
  | Some z => if ((lo <=? z) && (z <=? hi))%Z then Ok z else UB
  | None => UB
  end.

(** std::isnan / std::isinf, include/z5/metadata.hxx:111-113. *)
Definition dbl_is_nan (x : dbl) : bool := match x with DNan => true | _ => false end.
Definition dbl_is_inf (x : dbl) : bool := match x with DInf _ => true | _ => false end.

(** Comparison of a double with a small integer (json == int), used by checkJson,
    include/z5/metadata.hxx:428. *)
Definition dbl_eq_int (x : dbl) (z : Z) : bool :=
  match x with
  | DZero _ => (z =? 0)%Z
  | DFin s m e => (0 <=? e)%Z && (z =? (if s then - 1 else 1) * (Zpos m * 2 ^ e))%Z
  | _ => false
  end.
