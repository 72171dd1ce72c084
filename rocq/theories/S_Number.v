(** Specification: which number an element of an array is. *)
From Coq Require Import ZArith.
From Verif Require Import M_Base M_Format M_Dataset M_Double M_Metadata M_Python M_Number S_Array S_Grid S_Bytes S_Dataset S_Access S_Python.
From Verif Require S_Document.
Import List ListNotations.

(** Integers: little endian, two's complement. *)
Definition unsigned_value (c : cell) : Z := Z.of_N (value_le c).
Definition integer_value (signed : bool) (c : cell) : Z :=
  let n := (8 * Z.of_nat (length c))%Z in
  if signed && (2 ^ (n - 1) <=? unsigned_value c)%Z then (unsigned_value c - 2 ^ n)%Z else unsigned_value c.

(** IEEE 754: sign, [eb] bits exponent, [mb] bits fraction. *)
Definition real_value (mb eb : Z) (c : cell) : dbl :=
  let n := unsigned_value c in
  let s := (0 <? n / 2 ^ (mb + eb))%Z in
  let e := ((n / 2 ^ mb) mod 2 ^ eb)%Z in
  let f := (n mod 2 ^ mb)%Z in
  let least := (2 - 2 ^ (eb - 1) - mb)%Z in
  let number (m e : Z) := match m with
                          | Zpos p => DFin s (S_Document.odd_part p) (e + S_Document.twos p)
                          | _ => DZero s
                          end in
  if (e =? 2 ^ eb - 1)%Z then (if (f =? 0)%Z then DInf s else DNan)
  else if (e =? 0)%Z then number f least
  else number (2 ^ mb + f)%Z (least + e - 1)%Z.

(** The types of integers with their sign, the ones of floating point numbers. *)
Definition integer_type (t : dtype) : option bool :=
  match t with
  | DT_int8 | DT_int16 | DT_int32 | DT_int64 => Some true
  | DT_uint8 | DT_uint16 | DT_uint32 | DT_uint64 => Some false
  | _ => None
  end.
Definition real_type (t : dtype) : option (Z * Z) :=
  match t with DT_float32 => Some (23, 8)%Z | DT_float64 => Some (52, 11)%Z | _ => None end.

(** The integer a number is; floating point numbers lose their fraction. *)
Definition whole (v : pynumber) : option Z :=
  match v with
  | PInt z | PIndex z => Some z
  | PFloat x | PNpFloat x =>
      match x with
      | DZero _ => Some 0%Z
      | DFin s m e => Some ((if s then -1 else 1) * (if (e <? 0)%Z then Zpos m / 2 ^ (- e) else Zpos m * 2 ^ e))%Z
      | _ => None
      end
  | PComplex _ _ => None
  end.
(** The integers of a type of [w] bytes. *)
Definition in_type (signed : bool) (w : N) (z : Z) : Prop :=
  if signed then (- 2 ^ (8 * Z.of_N w - 1) <= z < 2 ^ (8 * Z.of_N w - 1))%Z else (0 <= z < 2 ^ (8 * Z.of_N w))%Z.

(** The values of a floating point format. *)
Definition in_format (mb eb : Z) (x : dbl) : Prop :=
  match x with
  | DFin _ m e =>
      Z.Odd (Zpos m) /\ (Zpos m < 2 ^ (mb + 1))%Z /\ (2 - 2 ^ (eb - 1) - mb <= e)%Z /\
      (Z.log2 (Zpos m) + e < 2 ^ (eb - 1))%Z
  | _ => True
  end.
(** The real number a number is ([DFin s m e] is m * 2^e here, for every m). *)
Definition is_real (v : pynumber) (x : dbl) : Prop :=
  match v with
  | PInt z | PIndex z =>
      x = match z with Z0 => DZero false | Zpos m => DFin false m 0 | Zneg m => DFin true m 0 end
  | PFloat y | PNpFloat y => x = y
  | PComplex _ _ => False
  end.

(** Rounding.  [at_scale k x] is x / 2^k. *)
Definition at_scale (k : Z) (x : dbl) : Z :=
  match x with DFin s m e => ((if s then -1 else 1) * (Zpos m * 2 ^ (e - k)))%Z | _ => 0%Z end.
Definition scaled (k : Z) (x : dbl) : Prop := match x with DFin _ _ e => (k <= e)%Z | _ => True end.
Definition has_sign (s : bool) (x : dbl) : Prop := match x with DZero s' | DFin s' _ _ => s' = s | _ => False end.
Definition finite (x : dbl) : Prop := match x with DZero _ | DFin _ _ _ => True | _ => False end.
(** At least halfway from the largest value of the format to the power of two above. *)
Definition too_large (mb eb : Z) (x : dbl) : Prop :=
  let top := (2 ^ (eb - 1) - mb - 2)%Z in
  match x with
  | DFin _ m e => ((2 ^ (mb + 2) - 1) * 2 ^ (top - Z.min e top) <= Zpos m * 2 ^ (e - Z.min e top))%Z
  | _ => False
  end.
(** The last bit of the fraction is zero. *)
Definition even_in (mb eb : Z) (x : dbl) : Prop :=
  match x with
  | DFin _ m e => (Z.max (2 - 2 ^ (eb - 1) - mb) (Z.log2 (Zpos m) + e - mb) < e)%Z
  | _ => True
  end.
(** [y] is the value of the format nearest to [x], the even one of two. *)
Definition nearest (mb eb : Z) (x y : dbl) : Prop :=
  in_format mb eb y /\ finite y /\
  forall z k, in_format mb eb z -> finite z -> scaled k x -> scaled k y -> scaled k z ->
    (Z.abs (at_scale k x - at_scale k y) <= Z.abs (at_scale k x - at_scale k z))%Z /\
    (Z.abs (at_scale k x - at_scale k y) = Z.abs (at_scale k x - at_scale k z) -> at_scale k z = at_scale k y \/ even_in mb eb y).
Definition rounded (mb eb : Z) (x y : dbl) : Prop :=
  match x with
  | DFin s m e => too_large mb eb x /\ y = DInf s \/ ~ too_large mb eb x /\ has_sign s y /\ nearest mb eb x y
  | _ => y = x
  end%Z.

(** Real and imaginary part. *)
Definition is_complex (v : pynumber) (re im : dbl) : Prop :=
  match v with
  | PComplex a b => re = a /\ im = b
  | _ => is_real v re /\ im = DZero false
  end.
(** The real number [x] is a double, or an integer that is not too large for one. *)
Definition for_double (v : pynumber) (x : dbl) : Prop :=
  match v with PInt _ | PIndex _ => ~ too_large 52 11 x | _ => in_format 52 11 x end.
(** The double next to [x], in the given format. *)
Definition stored_as (mb eb : Z) (x y : dbl) : Prop := exists d, rounded 52 11 x d /\ rounded mb eb d y.
(** The format of both parts of a complex element. *)
Definition complex_type (t : dtype) : option (Z * Z) :=
  match t with DT_complex64 => Some (23, 8)%Z | DT_complex128 => Some (52, 11)%Z | _ => None end.

(** The element type [t] can hold the number [v] (rounded, if it is one of floating
    point numbers). *)
Definition holds (t : dtype) (v : pynumber) : Prop :=
  match integer_type t, real_type t with
  | Some signed, _ => exists z, whole v = Some z /\ in_type signed (dtype_size t) z
  | None, Some _ => exists x, is_real v x /\ for_double v x
  | None, None =>
      match complex_type t with
      | Some _ => exists re im, is_complex v re im /\ for_double v re /\ in_format 52 11 im
      | None => False
      end
  end.
(** The element [c] of type [t] is the number [v], or the one next to it. *)
Definition is_number (t : dtype) (v : pynumber) (c : cell) : Prop :=
  lenN c = dtype_size t /\
  match integer_type t, real_type t with
  | Some signed, _ => whole v = Some (integer_value signed c)
  | None, Some (mb, eb) => exists x, is_real v x /\ stored_as mb eb x (real_value mb eb c)
  | None, None =>
      match complex_type t with
      | Some (mb, eb) =>
          let half := Nat.div2 (length c) in
          exists re im, is_complex v re im /\
            stored_as mb eb re (real_value mb eb (firstn half c)) /\ stored_as mb eb im (real_value mb eb (skipn half c))
      | None => False
      end
  end.

(** Histories: assignments of numbers and all other operations. *)
Inductive num_op := NumSet (ix : index) (v : pynumber) | OtherOp (o : py_op).
Definition run_num_op (t : dtype) (p : py_dataset) (o : num_op) (st : store) : store * pyres unit :=
  match o with
  | NumSet ix v => py_set_number t p ix v st
  | OtherOp o => run_py_op p o st
  end.
Fixpoint run_num_ops (t : dtype) (p : py_dataset) (ops : list num_op) (st : store) : store * pyres unit :=
  match ops with
  | [] => (st, PyOk tt)
  | o :: r =>
      match run_num_op t p o st with
      | (st', PyOk _) => run_num_ops t p r st'
      | (st', e) => (st', e)
      end
  end.
Definition num_op_ok (t : dtype) (d : dataset) (o : num_op) : Prop :=
  match o with
  | NumSet ix v =>
      holds t v /\ exists ps, np_select (d_shape d) ix = Some ps /\ regular_index (d_shape d) ix /\
        small_request (d_chunks d) (np_count ps)
  | OtherOp o => py_op_ok d o
  end.
(** [o'] assigns the element that is the number of [o]. *)
Definition means (t : dtype) (o : num_op) (o' : py_op) : Prop :=
  match o with
  | NumSet ix v => exists c, is_number t v c /\ o' = PySet ix (PyScalar c)
  | OtherOp o => o' = o
  end.
