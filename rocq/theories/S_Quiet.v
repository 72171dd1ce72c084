(** Specification of clients that cannot change a dataset. *)
From Verif Require Import M_Base M_Text M_Key M_Blocking M_View M_Bytes M_Format
  M_Mode M_Shard M_Dataset M_Sharded M_Access M_Pool M_Parallel M_Lock M_Clients
  S_Array S_Grid S_Bytes S_Dataset S_Access S_Sharded S_Lock S_Clients.

(** A call through some object of a dataset, plain or sharded; different calls may use
    different objects, of one dataset or of several. *)
Definition any_call : Type := (dataset + sharded) * client_call.
Definition base_of (h : dataset + sharded) : dataset := match h with inl d => d | inr sd => sd_base sd end.
Definition any_body (c : any_call) : call_body :=
  match fst c with
  | inl d => plain_body d (snd c)
  | inr sd => sharded_body sd (snd c)
  end.
Definition any_ok (h : dataset + sharded) : Prop :=
  match h with inl d => dataset_ok d | inr sd => sharded_ok sd end.

(** The call reads, or the object was opened without the permission to write. *)
Definition harmless (c : any_call) : Prop :=
  can_write (d_mode (base_of (fst c))) = false \/ exists ov off out, snd c = KRead ov off out.

(** The list without the entries of the clients in [quiet] (from number [i] on). *)
Fixpoint silenced {A} (e : A) (quiet : nat -> bool) (i : nat) (l : list A) : list A :=
  match l with
  | [] => []
  | x :: r => (if quiet i then e else x) :: silenced e quiet (S i) r
  end.
