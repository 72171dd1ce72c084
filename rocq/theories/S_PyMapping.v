(** Specification vocabulary for Python groups as mappings. *)
From Coq Require Import ZArith Ascii String.
From Verif Require Import M_Base M_Fs M_Container M_PyGroup S_PyGroup.
Import ListNotations.

(** No dataset is in the group or in a group below it. *)
Definition only_groups (s : fsys) (g : pygroup) : Prop :=
  forall k x, member s g k x -> exists u, x = PGroup u.

(** The same names [k1]/[k2]/... exist in the two groups. *)
Definition same_names (s : fsys) (g g' : pygroup) : Prop :=
  forall k, (exists x, member s g k x) <-> (exists x, member s g' k x).
