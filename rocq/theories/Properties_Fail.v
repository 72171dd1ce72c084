(** Property C62: sub-array writes that fail. *)
From Verif Require Import M_Base M_Text M_Key M_Blocking M_View M_Bytes M_N5Header M_Format
  M_Mode M_Shard M_Dataset M_Sharded M_Access M_Pool M_Parallel
  S_Array S_Grid S_Bytes S_Text S_Format S_Dataset S_Access S_File S_Pool S_Parallel S_Fail
  P_Base P_Blocking P_Roi P_View P_Bytes P_Key P_Format P_Dataset P_Access P_Read P_File P_Pool P_Foreach P_Parallel P_ParWrite
  P_ParSharded P_ParFail Properties_File Properties_Parallel.
Import List ListNotations.
Local Open Scope list_scope.
Local Open Scope N_scope.

(** C62: a partly covered chunk whose file cannot be decoded, or has a variable
    length, makes the write fail and is kept. *)
Theorem C62_unreadable_kept d : dataset_ok d -> forall threads est src off n st st1 r,
  region_ok d off n -> source_ok (t_width (d_type d)) n src ->
  (forall c file, overlaps (d_shape d) (d_chunks d) off n c ->
     st (chunk_key (d_key d) c) = Some file -> overwritable d c file) ->
  write_run d threads est src off n st st1 r ->
  forall c file, overlaps (d_shape d) (d_chunks d) off n c -> must_merge d off n c ->
  st (chunk_key (d_key d) c) = Some file -> file_cells d c file = None ->
  (exists e, r = Throw e) /\ st1 (chunk_key (d_key d) c) = Some file.
Proof. intros H threads est src off n st st1 r Hr Hs HF HR c file. exact (@unreadable_kept d H threads est src off n st st1 r Hr Hs HF HR c file). Qed.
Print Assumptions C62_unreadable_kept.

(** C62: whatever happens, every covered chunk is untouched or has the file that the
    write makes of it (stated with a directory in which no other chunk can make the
    write fail). *)
Theorem C62_chunk_atomic d : dataset_ok d -> forall threads est src off n st st1 r,
  region_ok d off n -> source_ok (t_width (d_type d)) n src ->
  (forall c file, overlaps (d_shape d) (d_chunks d) off n c ->
     st (chunk_key (d_key d) c) = Some file -> overwritable d c file) ->
  write_run d threads est src off n st st1 r ->
  forall c, overlaps (d_shape d) (d_chunks d) off n c ->
  st1 (chunk_key (d_key d) c) = st (chunk_key (d_key d) c) \/
  exists st', write_request d src off n (only_file d c st) = (st', Ok tt) /\
    st1 (chunk_key (d_key d) c) = st' (chunk_key (d_key d) c).
Proof. intros H threads est src off n st st1 r. exact (@chunk_atomic d H threads est src off n st st1 r). Qed.
Print Assumptions C62_chunk_atomic.

(** A write to elements 1..2 of the dataset of C35_case whose first chunk has a
    variable length (one element): three threads, every schedule. *)
Definition ex_varlen : store := fun k =>
  if String.eqb k "0" then Some ([0; 1; 0; 1; 0; 0; 0; 2; 0; 0; 0; 1] ++ [1; 1]) else None.
Example C62_case : dataset_ok ex_file /\ region_ok ex_file [1] [2] /\
  overlaps [5] [2] [1] [2] [0] /\ must_merge ex_file [1] [2] [0] /\
  (forall c file, overlaps [5] [2] [1] [2] c -> ex_varlen (chunk_key (d_key ex_file) c) = Some file -> overwritable ex_file c file) /\
  file_cells ex_file [0] ([0; 1; 0; 1; 0; 0; 0; 2; 0; 0; 0; 1] ++ [1; 1]) = None /\
  exists st1 e, write_run ex_file 3 1 (FromScalar [9; 9]) [1] [2] ex_varlen st1 (Throw e).
Proof.
  assert (Hr : region_ok ex_file [1] [2]) by (split; cbn; lia).
  assert (Hs : source_ok (t_width (d_type ex_file)) [2] (FromScalar [9; 9])) by (split; [reflexivity|repeat constructor]).
  assert (HO : overlaps [5] [2] [1] [2] [0]) by (exists [1]; split; [repeat constructor; lia|unfold in_chunk; cbn; lia]).
  assert (HM : must_merge ex_file [1] [2] [0]) by (left; exists [0]; split; [unfold in_chunk; cbn; lia|intros Hx; inversion Hx; lia]).
  assert (HF : forall c file, overlaps [5] [2] [1] [2] c -> ex_varlen (chunk_key (d_key ex_file) c) = Some file -> overwritable ex_file c file).
  { intros c file (x & Hb & Hc) E. destruct c as [|k [|k1 c]], x as [|x [|x1 xs]]; cbn in Hc; try tauto.
    assert (K : k = 0 \/ k = 1) by (inversion Hb; lia). clear Hb Hc.
    destruct K as [-> | ->]; vm_compute in E; injection E as <- || discriminate E.
    split; [intros sz payload H; vm_compute in H; discriminate H|]. split; [intros sz payload H; vm_compute in H; discriminate H|].
    intros _ sz len H. vm_compute in H. injection H as <- <-. split; [vm_compute; discriminate|discriminate]. }
  split; [exact ex_file_ok|]. split; [exact Hr|]. split; [exact HO|]. split; [exact HM|]. split; [exact HF|]. split; [vm_compute; reflexivity|].
  destruct (C36_runs_exist ex_file_ok 3 1 Hr) as [_ X]. destruct (X _ ex_varlen Hs HF) as (st1 & r & R).
  destruct (C62_unreadable_kept ex_file_ok Hr Hs HF R HO HM eq_refl eq_refl) as [(e & ->) _]. eauto.
Qed.
