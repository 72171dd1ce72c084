(** Proofs about clients that cannot change a dataset in an object store. *)
From Verif Require Import M_Base M_Text M_Key M_Blocking M_View M_Bytes M_N5Header M_Format
  M_Mode M_Shard M_Dataset M_Sharded M_Access M_Pool M_Parallel M_Lock M_Clients M_S3Clients
  S_Array S_Grid S_Bytes S_Text S_Format S_Shard S_Dataset S_Sharded S_Access S_Lock S_Clients S_Quiet
  S_Readers S_S3Clients S_S3Quiet P_Base P_Pool P_Access P_Clients P_Quiet.
From Coq Require Import Lia.
Import List ListNotations.
Local Open Scope list_scope.
Local Open Scope N_scope.

Section ReadOnly.
  Variable d : dataset.
  Hypothesis RO : can_write (d_mode d) = false.

  Lemma s3_looks_write_chunk c data k : only_looks (s3_write_chunk_code d c data k).
  Proof using RO. unfold s3_write_chunk_code. rewrite RO. constructor. Qed.
  Lemma s3_looks_op o : only_looks (cb_code (s3_body d (KOp o))).
  Proof using RO.
    destruct o as [off n src|c data|c]; cbn [s3_body].
    - cbn [s3_write_call no_output cb_code]. apply looks_plet. intros reqs. apply looks_foreach. intros _ c b.
      unfold s3_write_unit_code.
      apply looks_plet. intros h. apply looks_pread. intros f1. apply looks_pread. intros f2. apply looks_plet. intros b'.
      apply s3_looks_write_chunk.
    - apply s3_looks_write_chunk.
    - cbn [s3_remove_chunk_call remove_chunk_call no_output cb_code]. apply looks_plet. intros h. rewrite RO. constructor.
  Qed.
End ReadOnly.

Section ShardedReadOnly.
  Variable sd : sharded.
  Hypothesis RO : can_write (d_mode (sd_base sd)) = false.

  Lemma s3_looks_inner ids blob : only_looks (s3_inner_blob_code sd ids blob).
  Proof using RO.
    unfold s3_inner_blob_code. apply looks_plet. intros coord. apply looks_plet. intros slot. apply looks_plet. intros h.
    apply looks_pread. intros f. apply looks_plet. intros bl. apply looks_plet. intros bl'.
    unfold s3_write_blobs_code. rewrite RO. constructor.
  Qed.
  Lemma s3_looks_sh_op o : only_looks (cb_code (s3_sharded_body sd (KOp o))).
  Proof using RO.
    destruct o as [off n src|c data|c]; cbn [s3_sharded_body].
    - unfold s3_sh_write_call. rewrite RO. cbn [negb no_output cb_code].
      destruct (begin_request _ _ _); cbn [bind plet]; constructor.
    - unfold s3_sh_write_chunk_call. rewrite RO. cbn [negb plet no_output cb_code]. constructor.
    - cbn [s3_sh_remove_chunk_call no_output cb_code]. apply s3_looks_inner.
  Qed.
End ShardedReadOnly.

Lemma s3_harmless_looks c : harmless c -> only_looks (cb_code (s3_any_body c)).
Proof.
  destruct c as [[d|sd] c]; intros [H|(ov & off & out & H)]; unfold s3_any_body; cbn [fst snd base_of] in *.
  - destruct c; [apply looks_read|now apply s3_looks_op].
  - subst c. apply looks_read.
  - destruct c; [apply looks_sh_read|now apply s3_looks_sh_op].
  - subst c. apply looks_sh_read.
Qed.

(** ** Refused calls *)
Theorem s3_any_fails h o : any_ok h -> can_write (d_mode (base_of h)) = false -> array_op_ok (base_of h) o ->
  ends not_ok (cb_code (s3_any_body (h, KOp o))).
Proof.
  intros O RO A. destruct h as [d|sd]; unfold s3_any_body; cbn [fst snd base_of any_ok] in *.
  - destruct o as [off n src|c data|c]; cbn [s3_body].
    + cbn [s3_write_call no_output cb_code].
      destruct (begin_request_ok O (proj1 A)) as (l & E & _ & NE & _). rewrite E. cbn [plet].
      destruct l as [|c l]; [congruence|]. unfold foreach_sequential. cbn [batch_prog]. apply fails_pbind.
      unfold s3_write_unit_code. apply fails_plet. intros h. apply fails_pread. intros f1. apply fails_pread. intros f2.
      apply fails_plet. intros b. unfold s3_write_chunk_code. rewrite RO. now constructor.
    + cbn [s3_write_chunk_call no_output cb_code]. unfold s3_write_chunk_code. rewrite RO. now constructor.
    + cbn [s3_remove_chunk_call remove_chunk_call no_output cb_code]. apply fails_plet. intros h. rewrite RO. now constructor.
  - destruct o as [off n src|c data|c]; cbn [s3_sharded_body].
    + unfold s3_sh_write_call. rewrite RO. cbn [negb no_output cb_code].
      destruct (begin_request _ _ _); cbn [bind plet]; now constructor.
    + unfold s3_sh_write_chunk_call. rewrite RO. cbn [negb plet no_output cb_code]. now constructor.
    + cbn [s3_sh_remove_chunk_call no_output cb_code]. unfold s3_inner_blob_code.
      apply fails_plet. intros coord. apply fails_plet. intros slot. apply fails_plet. intros h.
      apply fails_pread. intros f. apply fails_plet. intros bl. apply fails_plet. intros bl'.
      unfold s3_write_blobs_code. rewrite RO. now constructor.
Qed.

Lemma s3_chunk_refused h c data : can_write (d_mode (base_of h)) = false ->
  ends (fun r => r = Throw EInvalidArgument) (cb_code (s3_any_body (h, KOp (AChunk c data)))).
Proof.
  intros RO. destruct h as [d|sd]; unfold s3_any_body; cbn [fst snd base_of] in *.
  - cbn [s3_body s3_write_chunk_call no_output cb_code]. unfold s3_write_chunk_code. rewrite RO. now constructor.
  - cbn [s3_sharded_body]. unfold s3_sh_write_chunk_call. rewrite RO. cbn [negb plet no_output cb_code]. now constructor.
Qed.
