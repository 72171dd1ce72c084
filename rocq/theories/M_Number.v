(** Assignment of a number to a region from python, and of arrays of integers of
    another type (src/python/module/z5py/dataset.py:518-562, src/python/lib/dataset.cxx). *)
From Coq Require Import ZArith.
From Verif Require Import M_Base M_Bytes M_Format M_Dataset M_Double M_Metadata M_Python.
Import List ListNotations.

(** The numbers of python: an int, something that int() converts without loss (bool and
    the integer scalars of numpy), a float, a floating point scalar of numpy, a complex
    number.  Simplified: no longdouble, Fraction and Decimal. *)
Inductive pynumber :=
| PInt (z : Z)
| PIndex (z : Z)
| PFloat (x : dbl)
| PNpFloat (x : dbl)
| PComplex (re im : dbl).

(** nb::cast<std::int64_t> and nb::cast<std::uint64_t> (src/python/lib/dataset.cxx:93):
    ints in the range; everything else but a float goes through int() first. *)
Definition load_int (lo hi : Z) (v : pynumber) : option Z :=
  let within z := if ((lo <=? z) && (z <=? hi))%Z then Some z else None in
  match v with
  | PInt z | PIndex z => within z
  | PFloat _ => None
  | PNpFloat x => match dbl_trunc x with Some z => within z | None => None end
  | PComplex _ _ => None
  end.

(** nb::cast<double> (src/python/lib/dataset.cxx:93,95): float() of the value, which
    raises for an int that rounds to 2^1024 or more. *)
Definition load_double (v : pynumber) : option dbl :=
  match v with
  | PInt z | PIndex z =>
      match dbl_of_Z z with
      | DFin s m e => if (Zpos m * 2 ^ e <? 2 ^ 1024)%Z then Some (DFin s m e) else None
      | x => Some x
      end
  | PFloat x | PNpFloat x => Some x
  | PComplex _ _ => None
  end.

(** An element of an integer type: the value modulo 2^width, as
    static_cast<T>(int64_t) (src/python/lib/dataset.cxx:93) leaves it. *)
Definition int_cell (t : dtype) (z : Z) : cell :=
  le_bytes (N.to_nat (dtype_size t)) (Z.to_N (z mod 2 ^ (8 * Z.of_N (dtype_size t)))).

(** Rounding to a format with [mb] stored bits of the mantissa and [eb] bits of the
    exponent, to nearest, ties to even; static_cast<float>(double),
    src/python/lib/dataset.cxx:93.  Simplified: too large values become infinite, as
    IEC 60559 has it. *)
Definition narrow (mb eb : Z) (x : dbl) : dbl :=
  match x with
  | DFin s m e =>
      let least := (2 - 2 ^ (eb - 1) - mb)%Z in
      let k := Z.max 0 (Z.max (Z.log2 (Zpos m) - mb) (least - e)) in
      let q := (Zpos m / 2 ^ k)%Z in
      let r := (Zpos m mod 2 ^ k)%Z in
      let up := ((2 ^ k <? 2 * r) || ((2 ^ k =? 2 * r) && Z.odd q))%Z in
      match (if up then q + 1 else q)%Z with
      | Zpos q' =>
          let p := pstrip q' in
          if (2 ^ (eb - 1) <=? Z.log2 (Zpos q') + e + k)%Z then DInf s else DFin s (fst p) (snd p + e + k)
      | _ => DZero s
      end
  | _ => x
  end.

(** The bits of a value of such a format. *)
Definition float_bits (mb eb : Z) (x : dbl) : Z :=
  let top (s : bool) := if s then (2 ^ (mb + eb))%Z else 0%Z in
  match x with
  | DNan => ((2 ^ eb - 1) * 2 ^ mb + 2 ^ (mb - 1))%Z
  | DInf s => (top s + (2 ^ eb - 1) * 2 ^ mb)%Z
  | DZero s => top s
  | DFin s m e =>
      let l := Z.log2 (Zpos m) in
      let least := (2 - 2 ^ (eb - 1) - mb)%Z in
      if (least + mb <=? l + e)%Z
      then (top s + (l + e - least - mb + 1) * 2 ^ mb + (Zpos m * 2 ^ (mb - l) - 2 ^ mb))%Z
      else (top s + Zpos m * 2 ^ (e - least))%Z
  end.

(** An element of type float or double. *)
Definition float_cell (single : bool) (x : dbl) : cell :=
  if single then le_bytes 4 (Z.to_N (float_bits 23 8 (narrow 23 8 x)))
  else le_bytes 8 (Z.to_N (float_bits 52 11 x)).

(** writePyScalarCasted and the switch of write_scalar,
    src/python/lib/dataset.cxx:85-99,291-330: first the cast to the wide type, then the
    one to double. *)
Definition scalar_cell (t : dtype) (v : pynumber) : pyres cell :=
  match dtype_range t with
  | Some (lo, hi) =>
      let wide := if (lo <? 0)%Z then (- 2 ^ 63, 2 ^ 63 - 1)%Z else (0, 2 ^ 64 - 1)%Z in
      match load_int (fst wide) (snd wide) v with
      | Some z => PyOk (int_cell t z)
      | None =>
          match load_double v with
          | Some x => from_cpp (let! z := dbl_to_int lo hi x in Ok (int_cell t z))
          | None => PyRaise (CppError ERuntime)
          end
      end
  | None =>
      let complex single :=
        match v with
        | PComplex re im => PyOk (float_cell single re ++ float_cell single im)
        | _ => match load_double v with
               | Some x => PyOk (float_cell single x ++ float_cell single (DZero false))
               | None => PyRaise (CppError ERuntime)
               end
        end in
      let real single :=
        match load_double v with
        | Some x => PyOk (float_cell single x)
        | None => PyRaise (CppError ERuntime)
        end in
      match t with
      | DT_float32 => real true
      | DT_float64 => real false
      | DT_complex64 => complex true
      | DT_complex128 => complex false
      | _ => PyRaise (CppError ERuntime)
      end
  end.

(** Dataset.__setitem__ with a number, src/python/module/z5py/dataset.py:539-548: the
    region, the arguments of write_scalar, the value. *)
Definition py_set_number (t : dtype) (p : py_dataset) (ix : index) (v : pynumber) (st : store) : store * pyres unit :=
  match index_to_roi ix (map Z.of_N (d_shape (pd_base p))) with
  | PyRaise e => (st, PyRaise e)
  | PyUB => (st, PyUB)
  | PyOk (roi_begin, zn, _) =>
      if existsb (Z.eqb 0) zn then (st, PyOk tt)
      else
        match pbind (to_sizes roi_begin) (fun _ => pbind (to_sizes (map Some zn)) (fun _ => scalar_cell t v)) with
        | PyOk c => py_write_scalar p roi_begin zn c st
        | PyRaise e => (st, PyRaise e)
        | PyUB => (st, PyUB)
        end
  end.

(** Dataset.__setitem__ with an array of integers of any type,
    src/python/module/z5py/dataset.py:550-562: np.asarray(item, dtype) keeps the values
    modulo 2^width.  Simplified: datasets of integers only. *)
Definition py_set_integers (t : dtype) (p : py_dataset) (ix : index) (n : shape) (zs : list Z) (st : store)
    : store * pyres unit :=
  py_setitem p ix (PyArray n (map (int_cell t) zs)) st.
