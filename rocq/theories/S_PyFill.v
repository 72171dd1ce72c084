(** Specification vocabulary for fill values given from python. *)
From Coq Require Import ZArith String.
From Verif Require Import M_Base M_Format M_Double M_Mode M_Dataset M_Sharded M_Access M_Metadata M_Container M_Python M_Number
  S_Container S_Number M_PyFill.
Import ListNotations.

(** The number is a double. *)
Definition exact_double (v : pynumber) : Prop :=
  match v with
  | PInt z | PIndex z => exists m e, (z = m * 2 ^ e /\ Z.abs m < 2 ^ 53 /\ 0 <= e <= 971)%Z
  | PFloat x | PNpFloat x => in_format 52 11 x
  | PComplex _ _ => False
  end.
(** Floats are doubles. *)
Definition well_formed (v : pynumber) : Prop :=
  match v with PFloat x | PNpFloat x => in_format 52 11 x | _ => True end.

(** The python object for a dataset object, for any elements and codecs. *)
Definition python_object (T : dtype -> elem_type) (C : codec_config -> codec) (o : opened) (p : py_dataset) : Prop :=
  let d := dataset_of T fill_cell C o in
  match op_shard o with
  | [] => p = PyPlain d
  | sh => exists sd, open_sharded d sh = Ok sd /\ p = PyShards sd
  end.
