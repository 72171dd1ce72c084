(** What a file, group or dataset just made holds. *)
From Coq Require Import ZArith String.
From Verif Require Import M_Base M_Json M_Mode M_Fs M_Attributes M_Container S_Container.
Import ListNotations.
Local Open Scope list_scope.
Local Open Scope N_scope.

(** The node a call makes: its kind and place. *)
Definition new_node (c : ccall) : option (hkind * path) :=
  match c with
  | CCreateFile p _ _ => Some (HFile, p)
  | CCreateGroup r k _ => Some (HGroup, r ++ k)
  | CCreateDatasetMd r k _ => Some (HDataset, r ++ k)
  | CCreateDataset r k _ _ _ _ _ _ _ _ _ _ => Some (HDataset, r ++ k)
  | _ => None
  end.

(** No attributes: an empty object, or none. *)
Definition no_attributes (j : json) : Prop := j = JNull \/ j = JObj [].

(** Below [p] there is at most one document, directly in it: no groups, no
    datasets, no chunks. *)
Definition bare (s : fsys) (p : path) : Prop :=
  s p = Some NDir /\
  exists name, forall x r n, s (p ++ x :: r) = Some n -> x = name /\ r = [] /\ exists j, n = NDoc j.
