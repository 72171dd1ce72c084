(** Common vocabulary of the model: outcomes of C++ calls, size_t arithmetic,
    vectors and buffers. *)
From Coq Require Export List NArith ZArith Bool Lia.
From Coq Require Export ZifyBool ZifyNat ZifyN.
Export ListNotations.
Global Open Scope N_scope.
Global Set Implicit Arguments.
Global Unset Strict Implicit.

Ltac Zify.zify_post_hook ::= Z.div_mod_to_equations.
Global Arguments N.add : simpl never.
Global Arguments N.sub : simpl never.
Global Arguments N.mul : simpl never.
Global Arguments N.div : simpl never.
Global Arguments N.modulo : simpl never.
Global Arguments N.pow : simpl never.
Global Arguments N.of_nat : simpl never.
Global Arguments N.to_nat : simpl never.
Global Arguments N.leb : simpl never.
Global Arguments N.ltb : simpl never.
Global Arguments N.eqb : simpl never.
Global Arguments N.min : simpl never.
Global Arguments N.max : simpl never.

(** The exceptions thrown by the modelled functions, by C++ type.
    Models: std::runtime_error, std::invalid_argument, std::logic_error,
    fs::filesystem_error as thrown all over include/z5.  Simplified: the
    message text is dropped. *)
Inductive error :=
| ERuntime          (* std::runtime_error *)
| EInvalidArgument  (* std::invalid_argument *)
| ELogic            (* std::logic_error *)
| EFilesystem       (* fs::filesystem_error *)
| EJson.            (* nlohmann::json exceptions *)

(** Outcome of a C++ call.  [UB] is undefined behaviour: an access outside of a
    buffer, a division by zero, a conversion without defined result. *)
Inductive outcome (A : Type) :=
| Ok (a : A)
| Throw (e : error)
| UB.
Arguments Ok {A} a.
Arguments Throw {A} e.
Arguments UB {A}.

(** Sequencing of C++ statements (exceptions and UB end the call). *)
Definition bind {A B} (x : outcome A) (f : A -> outcome B) : outcome B :=
  match x with Ok a => f a | Throw e => Throw e | UB => UB end.
Notation "'let!' x ':=' a 'in' b" := (bind a (fun x => b))
  (at level 200, x pattern, a at level 100, b at level 200, right associativity).

(** Loop [for (x : xs) acc = f(acc, x)] whose body may throw. *)
Fixpoint foldM {A B} (f : B -> A -> outcome B) (xs : list A) (acc : B) : outcome B :=
  match xs with
  | [] => Ok acc
  | x :: r => let! acc' := f acc x in foldM f r acc'
  end.

(** std::size_t / uint64_t arithmetic (C++ [expr.unary.op]: modulo 2^64). *)
Definition W64 : N := 2 ^ 64.
Definition addw (a b : N) : N := (a + b) mod W64.
Definition mulw (a b : N) : N := (a * b) mod W64.
Definition subw (a b : N) : N := (a + W64 - b mod W64) mod W64.

(** types::ShapeType, include/z5/types/types.hxx: std::vector<std::size_t>. *)
Notation shape := (list N).

(** A byte (char / unsigned char) is its value 0..255. *)
Notation bytes := (list N).
Definition is_byte (b : N) : Prop := b < 256.

(** Element-wise binary loop over two vectors of equal size.  Simplified: where
    C++ indexes the second vector with the size of the first, callers establish
    equal sizes (or [UB]) before. *)
Fixpoint map2 {A B C} (f : A -> B -> C) (xs : list A) (ys : list B) : list C :=
  match xs, ys with
  | x :: xr, y :: yr => f x y :: map2 f xr yr
  | _, _ => []
  end.

(** vector.size() *)
Definition lenN {A} (l : list A) : N := N.of_nat (length l).

(** buf[i] for reading; out of bounds is undefined behaviour. *)
Definition getN {A} (l : list A) (i : N) : outcome A :=
  if i <? lenN l then
    match nth_error l (N.to_nat i) with Some a => Ok a | None => UB end
  else UB.

(** Replace the n-th element of a list. *)
Fixpoint set_nth {A} (n : nat) (l : list A) (v : A) : list A :=
  match n, l with
  | _, [] => []
  | O, _ :: r => v :: r
  | S m, x :: r => x :: set_nth m r v
  end.

(** buf[i] = v; out of bounds is undefined behaviour. *)
Definition setN {A} (l : list A) (i : N) (v : A) : outcome (list A) :=
  if i <? lenN l then Ok (set_nth (N.to_nat i) l v) else UB.

(** std::accumulate(begin, end, size_t(1), multiplies<size_t>()), modulo 2^64. *)
Definition prodw (l : list N) : N := fold_left mulw l 1.
