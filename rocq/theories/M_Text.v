(** Text: std::string, std::to_string and the helpers of include/z5/util/util.hxx. *)
From Coq Require Export Ascii String DecimalString.
From Coq Require Import DecimalN.
From Verif Require Import M_Base.
Export ListNotations.
Global Open Scope N_scope.
Global Open Scope list_scope.

(** std::to_string(size_t), as used in include/z5/util/util.hxx:16 and
    include/z5/handle.hxx:201: decimal digits without leading zeros. *)
Definition to_string (n : N) : string := NilZero.string_of_uint (N.to_uint n).

(** util::join, include/z5/util/util.hxx:10-18: the delimiter is only inserted
    when the output is not empty yet. *)
Definition join (ids : list N) (out delimiter : string) : string :=
  fold_left (fun out i =>
    (match out with EmptyString => out | _ => out ++ delimiter end ++ to_string i)%string)
    ids out.
