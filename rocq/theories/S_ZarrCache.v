(** Specification vocabulary for the format that a dataset handle remembers. *)
From Verif Require Import M_Base M_Text M_Pool M_Store M_S3 M_ZarrCache.

(** [y] is the handle [h], or was made from it by copying (several times). *)
Inductive copy_of (log : list happened) (h : nat) : nat -> Prop :=
| copy_self : copy_of log h h
| copy_step t x y : copy_of log h x -> In (LCopy t x y) log -> copy_of log h y.

(** The objects that make a dataset a zarr dataset: .zarray or zarr.json, or anything below
    these names. *)
Definition zarr_object (dataset key : string) : Prop :=
  exists name, (name = ".zarray" \/ name = "zarr.json")%string /\
  (key = join_key dataset name \/ exists r, key = join_key dataset name ++ "/" ++ r)%string.
(** Two states of the bucket with the same ones. *)
Definition same_format (dataset : string) (a b : list (string * bytes)) : Prop :=
  forall k, zarr_object dataset k -> (In k (map fst a) <-> In k (map fst b)).
