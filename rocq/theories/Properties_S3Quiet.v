(** Property C119: clients of an object store that only read, or cannot write. *)
From Verif Require Import M_Base M_Text M_Key M_Blocking M_View M_Bytes M_N5Header M_Format
  M_Mode M_Shard M_Dataset M_Sharded M_Access M_Pool M_Parallel M_Lock M_Clients M_S3Clients
  S_Array S_Grid S_Bytes S_Text S_Format S_Shard S_Dataset S_Sharded S_Access S_Lock S_Clients S_Quiet
  S_Readers S_S3Clients S_S3Quiet
  P_Base P_Pool P_Lock P_Clients P_Quiet P_S3Quiet
  Properties_Dataset Properties_Access Properties_Sharded Properties_Clients Properties_Quiet.
Import List ListNotations.
Local Open Scope list_scope.
Local Open Scope N_scope.

(** Clients make any calls, valid or not, on any datasets in an object store, without
    coordination; the clients in [quiet] only read, or have only objects that were
    opened without the permission to write.  For every execution there is one of the
    other clients alone with the same objects in which they get the same answers in the
    same order. *)
Theorem C119_no_trace st calls quiet y :
  (forall t cs, quiet t = true -> nth_error calls t = Some cs -> Forall harmless cs) ->
  reach (clients_step s3_any_body) (clients_init st calls) y ->
  exists y', reach (clients_step s3_any_body) (clients_init st (silenced [] quiet 0 calls)) y' /\
    k_files y' = k_files y /\
    k_log y' = filter (fun e => negb (quiet (fst (fst e)))) (k_log y).
Proof.
  intros Q R. exists (left_out quiet y). split; [|now split]. refine (@leave_out _ s3_any_body quiet st calls y _ R).
  intros t cs H E. eapply Forall_impl; [|exact (Q t cs H E)]. exact s3_harmless_looks.
Qed.
Print Assumptions C119_no_trace.

(** If all clients are of this kind, the bucket never changes. *)
Theorem C119_unchanged st calls y : Forall (Forall harmless) calls ->
  reach (clients_step s3_any_body) (clients_init st calls) y -> k_files y = st.
Proof.
  intros Q R.
  destruct (@C119_no_trace st calls (fun _ => true) y) as (y' & R' & E & _); [|exact R|].
  { intros t cs _ H. apply nth_error_In in H. now apply (proj1 (Forall_forall _ _) Q). }
  rewrite <- E. clear R E y.
  assert (X : forall i t x, nth_error (silenced [] (fun _ => true) i calls) t = Some x -> x = @nil any_call).
  { intros i t x H. rewrite silenced_nth in H. destruct (nth_error calls t); inversion H; reflexivity. }
  enough (k_files y' = st /\ forall t x, nth_error (k_clients y') t = Some x -> x = (KIdle, [])) by tauto.
  induction R' as [|a b R' [IH1 IH2] [t S]].
  - split; [reflexivity|]. intros t x H. cbn [clients_init k_clients] in H. rewrite nth_error_map in H.
    destruct (nth_error (silenced _ _ _ _) t) eqn:N; inversion H. now rewrite (X _ _ _ N).
  - exfalso. destruct S as [c rest H|c rest out f H|c rest out o H]; apply IH2 in H; discriminate H.
Qed.
Print Assumptions C119_unchanged.

(** Calls that would change a dataset through an object without the permission to
    write are never answered with success, whatever else happens; writing a chunk is
    always answered with invalid_argument. *)
Theorem C119_refused st calls y t h o r :
  (forall u cs h o, nth_error calls u = Some cs -> In (h, KOp o) cs ->
     can_write (d_mode (base_of h)) = false -> any_ok h /\ array_op_ok (base_of h) o) ->
  reach (clients_step s3_any_body) (clients_init st calls) y ->
  In (t, (h, KOp o), r) (k_log y) -> can_write (d_mode (base_of h)) = false ->
  (forall v, r <> Ok v) /\ (forall c data, o = AChunk c data -> r = Throw EInvalidArgument).
Proof.
  intros V R I RO.
  set (P := fun (c : any_call) (r : outcome (list cell)) =>
    match c with
    | (h, KOp o) => can_write (d_mode (base_of h)) = false ->
        not_ok r /\ (forall c data, o = AChunk c data -> r = Throw EInvalidArgument)
    | _ => True
    end).
  assert (L : P (h, KOp o) r).
  { refine (@log_ends _ s3_any_body P st calls y _ R _ t _ _ I).
    - intros [h' [ov' off' out'|o']] size oo r' H; cbn in *; [exact Logic.I|]. intros W. destruct (H W) as [N E]. split; [now destruct r'|].
      intros c data Ho. now rewrite (E _ _ Ho).
    - intros u cs [h' [ov off out|o']] Hu Hi.
      + enough (forall p, ends (P (h', KRead ov off out)) p) by auto. fix IH 1. intros [x|f]; constructor; [exact Logic.I|intros m; apply IH].
      + destruct (can_write (d_mode (base_of h'))) eqn:W.
        * enough (forall p, ends (P (h', KOp o')) p) by auto. fix IH 1. intros [x|f]; constructor; [cbn; congruence|intros m; apply IH].
        * destruct (V u cs h' o' Hu Hi W) as [A B]. destruct o' as [off n src|c data|c].
          -- eapply ends_weaken; [|exact (@s3_any_fails h' _ A W B)]. intros x N _. split; [exact N|discriminate].
          -- eapply ends_weaken; [|exact (@s3_chunk_refused h' c data W)]. intros x -> _. split; [exact Logic.I|reflexivity].
          -- eapply ends_weaken; [|exact (@s3_any_fails h' _ A W B)]. intros x N _. split; [exact N|discriminate]. }
  destruct (L RO) as [N E]. split; [|exact E]. intros v ->. exact N.
Qed.
Print Assumptions C119_refused.

(** The clients of the example of C115, in an object store. *)
Example C119_case :
  (forall t cs, ex_quiet t = true -> nth_error ex_group t = Some cs -> Forall harmless cs) /\
  any_ok (inl ex_ro) /\ any_ok (inr ex_locked) /\
  exists y, reach (clients_step s3_any_body) (clients_init (fun _ => None) ex_group) y /\ all_answered y /\
    map (fun t => answers_to t (k_log y)) [0; 2; 3]%nat =
      [[Ok []]; [Throw EInvalidArgument; Throw EInvalidArgument]; [Throw EInvalidArgument; Throw EInvalidArgument]].
Proof.
  split; [|split; [|split]].
  - intros t cs Q E. destruct t as [|[|[|[|t]]]]; cbn in Q, E; try discriminate; try (destruct t; discriminate E);
      apply (f_equal (fun o => match o with Some x => x | None => [] end)) in E; subst cs.
    + constructor; [|constructor]. right. do 3 eexists. cbn. reflexivity.
    + repeat (constructor; [left; reflexivity|]). constructor.
    + repeat (constructor; [left; reflexivity|]). constructor.
  - apply C28_case.
  - cbn [any_ok]. destruct ex_sharded_ok as [H1 H2 H3 H4]. destruct ex_zarr_ok as [G1 G2 G3 G4 G5 G6 G7 G8].
    split; [|reflexivity|exact H3|exact H4]. split; auto; left; reflexivity.
  - exists (kexec s3_any_body (clients_init (fun _ => None) ex_group) (List.concat (repeat [0; 1; 2; 3]%nat 60))).
    split; [apply kexec_reach, reach_refl|]. split; [|vm_compute; reflexivity].
    assert (E : k_clients (kexec s3_any_body (clients_init (fun _ => None) ex_group) (List.concat (repeat [0; 1; 2; 3]%nat 60)))
      = repeat (KIdle, []) 4) by (vm_compute; reflexivity).
    unfold all_answered. rewrite E. repeat constructor.
Qed.
