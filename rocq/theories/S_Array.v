(** Specification vocabulary for n-dimensional arrays, independent of the
    model: boxes of coordinates, mathematical products, row-major positions. *)
From Verif Require Import M_Base.

(** Mathematical product of a shape (no wrap). *)
Fixpoint prod (l : list N) : N :=
  match l with [] => 1 | x :: r => x * prod r end.

(** [c] is an index into an array of shape [s]. *)
Definition in_shape (s c : list N) : Prop := Forall2 (fun x n => x < n) c s.

(** [c] lies in the box [off, off + sh). *)
Inductive in_box : list N -> list N -> list N -> Prop :=
| in_box_nil : in_box [] [] []
| in_box_cons o n x os ns xs :
    o <= x -> x < o + n -> in_box os ns xs -> in_box (o :: os) (n :: ns) (x :: xs).

(** Row-major position of index [c] in an array of shape [s]: the last axis
    varies fastest. *)
Fixpoint rowmajor (s c : list N) : N :=
  match s, c with
  | _ :: s', x :: c' => x * prod s' + rowmajor s' c'
  | _, _ => 0
  end.

(** Lexicographic order of coordinates (C order). *)
Inductive lex_lt : list N -> list N -> Prop :=
| lex_here x y xs ys : x < y -> lex_lt (x :: xs) (y :: ys)
| lex_next x xs ys : lex_lt xs ys -> lex_lt (x :: xs) (x :: ys).

(** Coordinate-wise difference / sum. *)
Definition vsub (a b : list N) : list N := map2 N.sub a b.
Definition vadd (a b : list N) : list N := map2 N.add a b.

(** Decidable version of [in_box], used to state what an array write does. *)
Fixpoint in_boxb (o n x : list N) : bool :=
  match o, n, x with
  | [], [], [] => true
  | o0 :: os, n0 :: ns, x0 :: xs => (o0 <=? x0) && (x0 <? o0 + n0) && in_boxb os ns xs
  | _, _, _ => false
  end.

(** Position of index [c] in a buffer for a view with base [o] and strides [st]. *)
Fixpoint lin (st c : list N) : N :=
  match st, c with
  | s0 :: sr, x :: cr => x * s0 + lin sr cr
  | _, _ => 0
  end.
