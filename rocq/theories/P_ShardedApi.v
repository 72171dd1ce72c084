(** Further properties of sharded datasets: chunk operations, scalar writes,
    read-only handles and corrupt shards. *)
From Verif Require Import M_Base M_Text M_Key M_Blocking M_View M_Bytes M_N5Header M_Format M_Mode M_Shard
  M_Dataset M_Sharded M_Access
  S_Array S_Grid S_Bytes S_Crc S_Text S_Format S_Shard S_Dataset S_Access S_Sharded
  P_Base P_Blocking P_Roi P_View P_Bytes P_Key P_Format P_Shard P_Dataset P_Access P_Read P_History P_Sharded.
Import List ListNotations.
From Coq Require Import Permutation Sorted.
Local Open Scope list_scope.
Local Open Scope N_scope.

(** ** Scalar writes *)
Theorem scalar_sharded sd off n src x : sharded_ok sd -> region_ok (sd_base sd) off n -> const_source n src x ->
  forall st, sh_write_request sd src off n st = sh_write_request sd (FromScalar x) off n st.
Proof.
  intros sok Hreg Hc st. pose proof (so_base sok) as ok. destruct (so_blob sok) as (m & M1 & M2).
  destruct (begin_request_ok ok Hreg) as (l & E & ND & _ & HI).
  destruct (@groups_ok sd sok off n l ND HI) as (g & Eg & G1 & _).
  unfold sh_write_request, write_sharded, sbind, pure. rewrite E.
  destruct (negb (can_write (d_mode (sd_base sd)))); [reflexivity|]. rewrite (cps_ok sok), Eg.
  rewrite (@foldS_ext _ _ (shard_write_unit sd src off n) (shard_write_unit sd (FromScalar x) off n) g); [reflexivity|].
  intros [k cs] Hin acc st'. unfold shard_write_unit, sbind, reading. cbn [fst snd].
  destruct (read_shard_blobs sd st' k) as [blobs| |]; cbn [bind]; try reflexivity.
  rewrite (@foldM_ext _ _ (shard_write_chunk sd src off n) (shard_write_chunk sd (FromScalar x) off n) cs); [reflexivity|].
  intros c Hc' [bf bs]. unfold shard_write_chunk. destruct (shard_slot c (sd_cps sd)); cbn [bind]; try reflexivity.
  destruct (getN bs a); cbn [bind]; try reflexivity.
  rewrite (@prepare_const _ ok off n c src x); [reflexivity|exact Hreg| |exact Hc]. apply (G1 _ _ Hin), Hc'.
Qed.

(** ** Read-only handles *)
Lemma ro_sharded_call sd call st : can_write (d_mode (sd_base sd)) = false ->
  fst (run_sharded_call sd call st) = st /\ snd (run_sharded_call sd call st) <> Ok tt.
Proof.
  intros Hm. destruct call as [off n src|ids data vl|ids]; cbn [run_sharded_call].
  - unfold sh_write_request, write_sharded, sbind, pure. rewrite Hm.
    destruct (begin_request (sd_base sd) off n); cbn; split; congruence.
  - unfold sh_write_chunk, pure. rewrite Hm. cbn. split; congruence.
  - unfold sh_remove_chunk, write_inner_blob, write_shard_blobs, sbind, pure, reading. rewrite Hm.
    destruct (shard_id ids (sd_cps sd)); cbn; [|split; congruence..].
    destruct (shard_slot ids (sd_cps sd)); cbn; [|split; congruence..].
    destruct (read_shard_blobs sd st a); cbn; [|split; congruence..].
    destruct (setN a1 a0 []); cbn; split; congruence.
Qed.
Theorem readonly_sharded sd calls st : can_write (d_mode (sd_base sd)) = false ->
  fst (run_caught (map (run_sharded_call sd) calls) st) = st /\
  Forall (fun o => o <> Ok tt) (snd (run_caught (map (run_sharded_call sd) calls) st)).
Proof.
  intros Hm. revert st. induction calls as [|c calls IH]; intros st; cbn; [auto|].
  destruct (ro_sharded_call c st Hm) as [H1 H2].
  destruct (run_sharded_call sd c st) as [st1 o]. cbn in *. subst st1.
  specialize (IH st). destruct (run_caught (map (run_sharded_call sd) calls) st) as [st2 os]. cbn in *.
  split; [apply IH|]. constructor; [exact H2|apply IH].
Qed.

(** ** Chunk operations *)
Section Chunks.
Variable sd : sharded.
Hypothesis sok : sharded_ok sd.
Variable m : N.
Hypothesis m_total : prod (sd_cps sd) * m < W64 - 1.
Hypothesis m_blob : forall data, buffer_of (t_width (d_type (sd_base sd))) (prod (d_chunks (sd_base sd))) data ->
      forall e, stored_as (d_codec (sd_base sd)) (concat data) e -> 0 < lenN e /\ lenN e <= m.
Variable G : shape -> Prop.
Notation d := (sd_base sd).
Notation w := (t_width (d_type (sd_base sd))).
Notation b := (d_chunks (sd_base sd)).
Notation cps := (sd_cps sd).
Notation valid := (valid_chunk (d_shape (sd_base sd)) (d_chunks (sd_base sd))).

Lemma read_shard_ok st c blobs x : length c = length b -> shard_state sd m own_shard st (shard_of cps c) blobs ->
  getN blobs (slot_of sd c) = Ok x ->
  sh_chunk_exists sd st c = Ok (match x with [] => false | _ => true end) /\
  sh_read_raw_chunk sd st c = Ok x.
Proof.
  intros L S Hx. pose proof (shard_of_len sok L) as Lc. destruct (shard_handle_ok sok Lc) as [bs E].
  destruct (slot_ok sok m_total m_blob L) as [S4 S5].
  unfold sh_chunk_exists, sh_read_raw_chunk, read_shard. rewrite shard_id_spec by (try apply (cps_pos sok); rewrite (cps_len sok); exact L).
  cbn [bind]. rewrite E. cbn [bind ch_key]. unfold store_read.
  destruct S as (S1 & S2 & S3).
  destruct (slots_small sok m_total m_blob) as [-> _]. destruct (st (chunk_key (d_key d) (shard_of cps c))) as [file|].
  2:{ cbn [bind]. rewrite (all_empty_at S3 Hx). auto. }
  - destruct S3 as (_ & es & P & X & F2). rewrite P. cbn [bind]. rewrite S4. cbn [bind].
    assert (LE : lenN es = lenN blobs) by (apply lenN_length; now apply Forall2_len in F2).
    destruct (@getN_in _ es (slot_of sd c)) as [e He]; [lia|]. rewrite He. cbn [bind].
    destruct (extract_getN X He) as (x' & Hx' & Hr). rewrite Hx in Hx'. injection Hx' as <-.
    assert (HE : entry_empty e = true <-> x = []).
    { revert He Hx F2. clear. rewrite !getN_ok. generalize (N.to_nat (slot_of sd c)). intros k He Hx F2.
      revert k He Hx. induction F2 as [|e0 x0 es' bl' H0 F2 IH]; intros [|k]; cbn; try discriminate; [|apply IH].
      intros [= ->] [= ->]. exact H0. }
    destruct (entry_empty e) eqn:Ee.
    + rewrite (proj1 HE eq_refl). auto.
    + split; [|exact Hr]. destruct x; [|reflexivity]. destruct HE as [_ HE]. discriminate (HE eq_refl).
Qed.

Lemma sh_chunk_view st c C : valid c -> G (shard_of cps c) -> holds_sh sd m (own_blob sd) own_shard G st C ->
  sh_chunk_exists sd st c = Ok (match C c with None => false | Some _ => true end) /\
  (forall data, C c = Some data -> forall out, buffer_of w (prod b) out -> sh_read_chunk sd st c out = Ok (false, data)) /\
  (C c = None -> forall out, sh_read_chunk sd st c out =
     (let! o := decompress (d_codec d) w [] out (prod b) in Ok (false, o))).
Proof.
  intros Hc HG HC. pose proof (so_base sok) as ok. destruct (HC c Hc HG) as (blobs & S & _ & _ & R3).
  destruct (R3 c Hc eq_refl) as (x & Gx & Bx).
  destruct (read_shard_ok (valid_len Hc) S Gx) as [E1 E2]. rewrite E1. unfold sh_read_chunk. rewrite E2. cbn [bind].
  rewrite (prodw_small (prod_chunks_small ok)). destruct (C c) as [data|]; cbn [blob_rel] in Bx.
  - destruct Bx as (B1 & B2 & B3 & _). destruct x as [|x0 x']; [congruence|]. split; [reflexivity|]. split; [|discriminate].
    intros data' [= <-] out Ho. rewrite B3 by exact Ho. reflexivity.
  - subst x. split; [reflexivity|]. split; [discriminate|]. reflexivity.
Qed.

(** Contents after a history of chunk operations. *)
Definition content_is (C : shape -> option (list cell)) (r : shape -> option (bool * list cell)) : Prop :=
  forall c, valid c -> r c = option_map (fun data => (false, data)) (C c).
Lemma run_shard_ops_spec ops : (forall k, G k) -> can_write (d_mode d) = true ->
  Forall (fun o => op_ok d o /\ fixed_op o) ops -> forall st C init, holds_sh sd m (own_blob sd) own_shard G st C -> content_is C init ->
  exists st' C', run_shard_ops sd ops st = (st', Ok tt) /\ holds_sh sd m (own_blob sd) own_shard G st' C' /\
    content_is C' (fun c => last_result d ops c (init c)) /\
    (forall k, (forall o, In o ops -> k <> shard_key sd (op_chunk o)) -> st' k = st k).
Proof.
  intros HG Hm. unfold run_shard_ops. induction 1 as [|o ops [Ho Hf] Hops IH]; intros st C init HC HI.
  - exists st, C. cbn. auto.
  - assert (X : exists v, run_shard_op sd o st = (set_key st (shard_key sd (op_chunk o)) v, Ok tt) /\
        holds_sh sd m (own_blob sd) own_shard G (set_key st (shard_key sd (op_chunk o)) v)
          (upd C (op_chunk o) (match op_result d o with None => None | Some (_, data) => Some data end))).
    { destruct o as [c data|c data|c]; cbn [fixed_op] in Hf; [|contradiction|]; cbn [run_shard_op op_chunk op_result op_ok] in *.
      - destruct Ho as [Hc Hd]. rewrite (stored_b sok) in Hd.
        destruct (sh_write_chunk_spec sok m_total m_blob (@own_blob_ok sd) (@own_shard_ok sd) Hm Hc Hd (HG _) HC) as (v & E & H). exists v. split; [exact E|].
        destruct (all_fill d data); exact H.
      - exact (sh_remove_spec sok m_total m_blob (@own_blob_ok sd) (@own_shard_ok sd) Hm Ho (HG _) HC). }
    destruct X as (v & E & H).
    destruct (IH _ _ (fun c => if list_eq_dec N.eq_dec (op_chunk o) c then op_result d o else init c) H) as (st' & C' & E' & H' & HI' & F').
    { intros c Hc. unfold upd. destruct (list_eq_dec N.eq_dec (op_chunk o) c) as [<-|Hn].
      - destruct (list_eq_dec N.eq_dec (op_chunk o) (op_chunk o)); [|congruence].
        destruct o as [c' data|c' data|c']; cbn [fixed_op] in Hf; [|contradiction|]; cbn [op_result]; [|reflexivity].
        destruct (all_fill d data); reflexivity.
      - destruct (list_eq_dec N.eq_dec c (op_chunk o)); [congruence|]. now apply HI. }
    exists st', C'. split; [cbn [foldS]; unfold sbind at 1; rewrite E; exact E'|]. split; [exact H'|]. split; [exact HI'|].
    intros k Hk. rewrite F' by (intros o' Ho'; apply Hk; cbn; auto). apply set_key_other, Hk. cbn. auto.
Qed.
End Chunks.

Theorem shard_chunk_map sd ops st : sharded_ok sd -> can_write (d_mode (sd_base sd)) = true ->
  Forall (fun o => op_ok (sd_base sd) o /\ fixed_op o) ops ->
  (forall c, valid_chunk (d_shape (sd_base sd)) (d_chunks (sd_base sd)) c -> st (shard_key sd c) = None) ->
  exists st', run_shard_ops sd ops st = (st', Ok tt) /\
    (forall c, valid_chunk (d_shape (sd_base sd)) (d_chunks (sd_base sd)) c ->
      let r := last_result (sd_base sd) ops c None in
      sh_chunk_exists sd st' c = Ok (match r with None => false | Some _ => true end) /\
      (forall vl data, r = Some (vl, data) ->
         forall out, buffer_of (t_width (d_type (sd_base sd))) (prod (d_chunks (sd_base sd))) out ->
         vl = false /\ sh_read_chunk sd st' c out = Ok (false, data))) /\
    (forall k, (forall o, In o ops -> k <> shard_key sd (op_chunk o)) -> st' k = st k).
Proof.
  intros sok Hm Hops Hst. destruct (so_blob sok) as (m & M1 & M2).
  set (G := fun _ : shape => True). assert (HG : forall k, G k) by (intros; exact I).
  destruct (@run_shard_ops_spec sd sok m M1 M2 G ops HG Hm Hops st _ (fun _ => None) (@holds_sh_empty sd sok m M1 M2 (own_blob sd) (@own_blob_ok sd) own_shard (@own_shard_ok sd) G st Hst))
    as (st' & C' & E & HC & HI & F); [intros c _; reflexivity|].
  exists st'. split; [exact E|]. split; [|exact F]. intros c Hc r. specialize (HI c Hc). cbv beta in HI. fold r in HI.
  destruct (@sh_chunk_view sd sok m M1 M2 G st' c C' Hc (HG _) HC) as (V1 & V2 & _). rewrite V1, HI.
  destruct (C' c) as [data|] eqn:EC; cbn [option_map]; split; try reflexivity; [|discriminate].
  intros vl data' [= <- <-] out Ho. split; [reflexivity|]. now apply V2.
Qed.

(** ** Invalid ids *)
Theorem shard_invalid_write sd ids : sharded_ok sd ->
  ~ valid_chunk (d_shape (sd_base sd)) (d_chunks (sd_base sd)) ids ->
  (length (d_chunks (sd_base sd)) <= length ids)%nat ->
  forall data vl st, exists e, sh_write_chunk sd ids data vl st = (st, Throw e).
Proof.
  intros sok Hn L data vl st. pose proof (so_base sok) as ok. unfold sh_write_chunk.
  destruct (can_write (d_mode (sd_base sd))); cbn [negb]; [|eexists; reflexivity].
  unfold sbind at 1, pure at 1. unfold chunk_handle_of.
  assert (lenN ids <? lenN (d_chunks (sd_base sd)) = false) as -> by (apply N.ltb_ge; unfold lenN; lia).
  assert (lenN (d_shape (sd_base sd)) <? lenN (d_chunks (sd_base sd)) = false) as ->
    by (apply N.ltb_ge; unfold lenN; rewrite (dim_len sok); lia).
  unfold sbind at 1, pure at 1. destruct (blocking_ok ok) as (bl & Eb & HB). rewrite Eb. cbn [ch_ids].
  destruct (check_block bl ids) eqn:Ec; [exfalso; apply Hn, HB, Ec|]. cbn. eexists; reflexivity.
Qed.

(** ** Corrupt shards *)
Section Corrupt.
Variable sd : sharded.
Hypothesis sok : sharded_ok sd.
Notation d := (sd_base sd).
Notation w := (t_width (d_type (sd_base sd))).
Notation b := (d_chunks (sd_base sd)).
Notation s := (d_shape (sd_base sd)).
Notation cps := (sd_cps sd).
Notation valid := (valid_chunk (d_shape (sd_base sd)) (d_chunks (sd_base sd))).

Lemma slots_eq : sd_slots sd = prod cps.
Proof. destruct (so_blob sok) as (m & M1 & M2). apply (slots_small sok M1 M2). Qed.

Definition bad (st : store) (k : shape) : Prop :=
  exists bytes, st (chunk_key (d_key d) k) = Some bytes /\ parse_shard_index bytes (prod cps) = Ok None.

Lemma bad_blobs st k : length k = length b -> bad st k -> read_shard_blobs sd st k = Throw ERuntime.
Proof.
  intros L (bytes & Hb & P). destruct (shard_handle_ok sok L) as [bs E]. unfold read_shard_blobs, store_read.
  rewrite E. cbn [bind ch_key]. rewrite Hb, slots_eq, P. reflexivity.
Qed.
Lemma bad_raw st k : length k = length b -> bad st k -> read_shard_raw sd st k = Throw ERuntime.
Proof.
  intros L (bytes & Hb & P). destruct (shard_handle_ok sok L) as [bs E]. unfold read_shard_raw, store_read.
  rewrite E. cbn [bind ch_key]. rewrite Hb, slots_eq, P. reflexivity.
Qed.
Lemma bad_shard st c : valid c -> corrupt sd st c -> read_shard sd st c = Throw ERuntime.
Proof.
  intros Hc (bytes & Hb & P). pose proof (valid_len Hc) as L. destruct (shard_handle_ok sok (shard_of_len sok L)) as [bs E].
  unfold read_shard, store_read. rewrite shard_id_spec by (try apply (cps_pos sok); rewrite (cps_len sok); exact L).
  cbn [bind]. rewrite E. cbn [bind ch_key]. unfold shard_key in Hb. rewrite Hb, slots_eq, P. reflexivity.
Qed.
Lemma bad_inner st c blob : valid c -> corrupt sd st c -> write_inner_blob sd c blob st = (st, Throw ERuntime).
Proof.
  intros Hc Hb. pose proof (valid_len Hc) as L. destruct (so_blob sok) as (m & M1 & M2).
  unfold write_inner_blob, sbind, pure, reading.
  rewrite shard_id_spec by (try apply (cps_pos sok); rewrite (cps_len sok); exact L).
  rewrite (proj1 (slot_ok sok M1 M2 L)). rewrite bad_blobs; [reflexivity|now apply shard_of_len|exact Hb].
Qed.

Theorem corrupt_chunks st c : valid c -> corrupt sd st c ->
  (forall out, sh_read_chunk sd st c out = Throw ERuntime) /\
  sh_read_raw_chunk sd st c = Throw ERuntime /\
  sh_chunk_exists sd st c = Throw ERuntime /\
  (can_write (d_mode d) = true -> forall data, buffer_of w (prod b) data ->
     sh_write_chunk sd c data false st = (st, Throw ERuntime)) /\
  sh_remove_chunk sd c st = (st, Throw ERuntime).
Proof.
  intros Hc Hb. pose proof (so_base sok) as ok. pose proof (bad_shard Hc Hb) as E.
  unfold sh_read_chunk, sh_read_raw_chunk, sh_chunk_exists. rewrite E. repeat split.
  - intros Hm data Hd. destruct (so_blob sok) as (m & M1 & M2). destruct (make_blob_ok sok M2 (@own_blob_ok sd) Hc Hd) as (o & Eo & _).
    unfold sh_write_chunk. rewrite Hm. cbn [negb]. unfold sbind at 1, pure at 1. rewrite (handle_ok ok Hc).
    unfold sbind at 1, pure at 1. destruct (blocking_ok ok) as (bl & Eb & HB). rewrite Eb. cbn [ch_ids].
    rewrite (proj2 (HB c) Hc). cbn [negb]. unfold sbind at 1, pure at 1. rewrite Eo. now apply bad_inner.
  - now apply bad_inner.
Qed.

Lemma blobs_frame k blobs st key : key <> chunk_key (d_key d) k -> fst (write_shard_blobs sd k blobs st) key = st key.
Proof.
  intros Hn. unfold write_shard_blobs. destruct (can_write (d_mode d)); cbn [negb]; [|reflexivity].
  unfold sbind, pure. destruct (shard_handle sd k) as [h| |] eqn:E; try reflexivity.
  assert (ch_key h = chunk_key (d_key d) k) as Ek.
  { unfold shard_handle, chunk_handle_of in E. destruct (_ <? _); [discriminate|]. destruct (_ <? _); [discriminate|].
    injection E as <-. reflexivity. }
  destruct (all_slots_empty blobs).
  - cbn. rewrite Ek. now apply set_key_other.
  - unfold store_write. destruct (_ && _); cbn; [reflexivity|]. rewrite Ek. now apply set_key_other.
Qed.
Lemma bad_no_blobs st k blobs : bad st k -> read_shard_blobs sd st k <> Ok blobs.
Proof.
  intros (bytes & Hb & P). unfold read_shard_blobs. destruct (shard_handle sd k) as [h| |] eqn:E; cbn [bind]; try discriminate.
  assert (ch_key h = chunk_key (d_key d) k) as ->.
  { unfold shard_handle, chunk_handle_of in E. destruct (_ <? _); [discriminate|]. destruct (_ <? _); [discriminate|].
    injection E as <-. reflexivity. }
  unfold store_read. rewrite Hb, slots_eq, P. discriminate.
Qed.
Lemma bad_kept k blobs k0 st : bad st k0 -> read_shard_blobs sd st k = Ok blobs -> forall blobs',
  fst (write_shard_blobs sd k blobs' st) (chunk_key (d_key d) k0) = st (chunk_key (d_key d) k0).
Proof.
  intros Hb E blobs'. apply blobs_frame. intros Ek. apply (key_inj (so_base sok)) in Ek. subst k0.
  exact (bad_no_blobs Hb E).
Qed.
Lemma unit_kept src off n buf g k0 st : bad st k0 ->
  fst (shard_write_unit sd src off n buf g st) (chunk_key (d_key d) k0) = st (chunk_key (d_key d) k0).
Proof.
  intros Hb. unfold shard_write_unit, sbind, reading. destruct (read_shard_blobs sd st (fst g)) as [blobs| |] eqn:E; cbn [bind]; try reflexivity.
  destruct (foldM _ (snd g) (buf, blobs)) as [r| |]; try reflexivity.
  pose proof (bad_kept Hb E (snd r)) as K. destruct (write_shard_blobs sd (fst g) (snd r) st) as [st1 [u| |]]; exact K.
Qed.
Lemma fold_kept src off n g k0 : forall buf st, bad st k0 ->
  fst (foldS (shard_write_unit sd src off n) g buf st) (chunk_key (d_key d) k0) = st (chunk_key (d_key d) k0).
Proof.
  induction g as [|x g IH]; intros buf st Hb; [reflexivity|]. cbn [foldS]. unfold sbind at 1.
  pose proof (unit_kept src off n buf x Hb) as K. destruct (shard_write_unit sd src off n buf x st) as [st1 [r| |]]; cbn [fst] in *; try exact K.
  rewrite IH; [exact K|]. destruct Hb as (bytes & Hb1 & P). exists bytes. split; [congruence|exact P].
Qed.
Lemma call_kept call k0 st : bad st k0 ->
  fst (run_sharded_call sd call st) (chunk_key (d_key d) k0) = st (chunk_key (d_key d) k0).
Proof.
  intros Hb.
  assert (IN : forall ids blob, fst (write_inner_blob sd ids blob st) (chunk_key (d_key d) k0) = st (chunk_key (d_key d) k0)).
  { intros ids blob. unfold write_inner_blob, sbind, pure, reading.
    destruct (shard_id ids cps) as [k| |]; try reflexivity. destruct (shard_slot ids cps) as [sl| |]; try reflexivity.
    destruct (read_shard_blobs sd st k) as [blobs| |] eqn:E; try reflexivity.
    destruct (setN blobs sl _) as [blobs'| |]; try reflexivity. exact (bad_kept Hb E blobs'). }
  destruct call as [off n src|ids data vl|ids]; cbn [run_sharded_call].
  - unfold sh_write_request, write_sharded, sbind, pure. destruct (begin_request d off n) as [l| |]; try reflexivity.
    destruct (negb (can_write (d_mode d))); [reflexivity|].
    destruct (chunks_per_shard _ _) as [cp| |]; try reflexivity. destruct (group_chunks cp l) as [g| |]; try reflexivity.
    pose proof (fold_kept src off n g (repeat (d_fill d) (N.to_nat (prodw b))) Hb) as K.
    destruct (foldS _ g _ st) as [st1 [r| |]]; exact K.
  - unfold sh_write_chunk. destruct (negb (can_write (d_mode d))); [reflexivity|]. unfold sbind, pure.
    destruct (chunk_handle_of d b ids) as [h| |]; try reflexivity. destruct (d_blocking d) as [bl| |]; try reflexivity.
    destruct (negb (check_block bl (ch_ids h))); [reflexivity|]. destruct vl; [reflexivity|].
    destruct (make_chunk_blob sd ids data) as [o| |]; try reflexivity. apply IN.
  - apply IN.
Qed.
Theorem corrupt_kept calls st c : corrupt sd st c ->
  fst (run_caught (map (run_sharded_call sd) calls) st) (shard_key sd c) = st (shard_key sd c).
Proof.
  revert st. induction calls as [|x calls IH]; intros st Hb; [reflexivity|]. cbn.
  pose proof (call_kept x Hb) as K. destruct (run_sharded_call sd x st) as [st1 o]. cbn [fst] in K.
  specialize (IH st1). destruct (run_caught (map (run_sharded_call sd) calls) st1) as [st2 os]. cbn [fst] in *.
  unfold shard_key in *. rewrite IH; [exact K|]. destruct Hb as (bytes & Hb1 & P). exists bytes. split; [unfold shard_key in *; congruence|exact P].
Qed.

(** Sub-array access that meets a corrupt shard. *)
Section Healthy.
Variable m : N.
Hypothesis m_total : prod (sd_cps sd) * m < W64 - 1.
Hypothesis m_blob : forall data, buffer_of (t_width (d_type (sd_base sd))) (prod (d_chunks (sd_base sd))) data ->
      forall e, stored_as (d_codec (sd_base sd)) (concat data) e -> 0 < lenN e /\ lenN e <= m.
Variable G : shape -> Prop.

Lemma fold_fails src off n g : can_write (d_mode d) = true -> region_ok d off n -> source_ok w n src ->
  NoDup (map fst g) ->
  (forall k cs, In (k, cs) g -> cs <> [] /\ forall c, In c cs -> overlaps s b off n c /\ shard_of cps c = k) ->
  NoDup (concat (map snd g)) ->
  forall buf st C, any_buffer d buf -> holds_sh sd m (own_blob sd) own_shard G st C ->
  (forall k cs, In (k, cs) g -> G k \/ bad st k) -> (exists k cs, In (k, cs) g /\ bad st k) ->
  snd (foldS (shard_write_unit sd src off n) g buf st) = Throw ERuntime.
Proof.
  intros Hm Hreg Hsrc. induction g as [|[k cs] g IH]; intros NK HG ND buf st C Hbuf HC HB (k0 & cs0 & Hin & Hb).
  { destruct Hin. }
  cbn [map snd fst concat] in *. inversion NK as [|? ? K1 K2]; subst. destruct (HG k cs (or_introl eq_refl)) as [NE HO].
  assert (exists c0, In c0 cs) as [c0 H0] by (destruct cs as [|c0 cs']; [congruence|exists c0; cbn; auto]).
  destruct (HO c0 H0) as [Ho0 Hs0]. pose proof (overlaps_valid Ho0) as Hv0.
  assert (L : length k = length b) by (rewrite <- Hs0; apply (shard_of_len sok), (@valid_len sd), Hv0).
  destruct (HB k cs (or_introl eq_refl)) as [Hg|Hbk].
  - assert (N1 : NoDup cs) by (revert ND; clear; induction cs; cbn; [constructor|]; inversion 1; subst; constructor; auto; rewrite in_app_iff in *; tauto).
    assert (N2 : NoDup (concat (map snd g))) by (revert ND; clear; induction cs; cbn; auto; inversion 1; auto).
    destruct (@shard_unit_spec sd sok m m_total m_blob (own_blob sd) (@own_blob_ok sd) own_shard (@own_shard_ok sd) G src off n k cs buf st C) as (buf1 & v & C1 & E1 & B1 & H1 & W1); auto.
    cbn [foldS]. unfold sbind at 1. rewrite E1.
    assert (KEEP : forall k', In k' (map fst g) -> bad st k' -> bad (set_key st (chunk_key (d_key d) k) v) k').
    { intros k' Hk' (bytes & X1 & X2). exists bytes. split; [|exact X2]. rewrite set_key_other; [exact X1|].
      intros Ek. apply (key_inj (so_base sok)) in Ek. subst k'. contradiction. }
    destruct Hin as [Hin|Hin].
    + injection Hin as <- <-. exfalso. revert E1. unfold shard_write_unit, sbind, reading. cbn [fst snd].
      rewrite (bad_blobs L Hb). discriminate.
    + apply (IH K2 (fun k' cs' H => HG k' cs' (or_intror H)) N2 buf1 _ C1 B1 H1).
      * intros k' cs' Hin'. destruct (HB k' cs' (or_intror Hin')) as [|X]; [auto|right].
        apply KEEP; [apply in_map_iff; exists (k', cs'); auto|exact X].
      * exists k0, cs0. split; [exact Hin|]. apply KEEP; [apply in_map_iff; exists (k0, cs0); auto|exact Hb].
  - cbn [foldS]. unfold sbind at 1. unfold shard_write_unit, sbind, reading. cbn [fst snd]. rewrite (bad_blobs L Hbk). reflexivity.
Qed.

Lemma read_fails ov off st C g : region_ok d off (v_shape ov) -> holds_sh sd m (own_blob sd) own_shard G st C ->
  (forall k cs, In (k, cs) g -> cs <> [] /\ forall c, In c cs -> overlaps s b off (v_shape ov) c /\ shard_of cps c = k) ->
  (forall k cs, In (k, cs) g -> G k \/ bad st k) -> (exists k cs, In (k, cs) g /\ bad st k) ->
  forall buf out, out_view_ok ov (lenN out) -> any_buffer d buf ->
  foldM (shard_read_unit sd st ov off (v_shape ov)) g (buf, out) = Throw ERuntime.
Proof.
  intros Hreg HC. induction g as [|[k cs] g IH]; intros HG HB (k0 & cs0 & Hin & Hb) buf out Hov Hbuf; [destruct Hin|].
  destruct (HG k cs (or_introl eq_refl)) as [NE HO].
  assert (exists c0, In c0 cs) as [c0 H0] by (destruct cs as [|c0 cs']; [congruence|exists c0; cbn; auto]).
  destruct (HO c0 H0) as [Ho0 Hs0]. pose proof (overlaps_valid Ho0) as Hv0.
  assert (L : length k = length b) by (rewrite <- Hs0; apply (shard_of_len sok), (@valid_len sd), Hv0).
  destruct Hin as [Hin|Hin].
  { injection Hin as -> ->. cbn [foldM]. unfold shard_read_unit at 1. cbn [fst]. rewrite (bad_raw L Hb). reflexivity. }
  destruct (HB k cs (or_introl eq_refl)) as [Hg|Hbk].
  - destruct (@sh_read_groups sd sok m m_total m_blob (own_blob sd) (@own_blob_ok sd) own_shard (@own_shard_ok sd) G ov off st C [(k, cs)] Hreg HC) with (buf := buf) (out := out)
      as (buf1 & out1 & E1 & B1 & D1); auto.
    { intros k' cs' [X|[]]. injection X as <- <-. exact Hg. }
    { intros k' cs' [X|[]]. injection X as <- <-. split; [exact NE|exact HO]. }
    cbn [foldM] in E1 |- *. destruct (shard_read_unit sd st ov off (v_shape ov) (buf, out) (k, cs)) as [r| |]; cbn [bind] in E1; try discriminate.
    injection E1 as ->. cbn [bind]. apply IH; auto.
    + intros; eapply HG; right; eauto.
    + intros; eapply HB; right; eauto.
    + exists k0, cs0; auto.
    + destruct D1 as [-> _]. exact Hov.
  - cbn [foldM]. unfold shard_read_unit at 1. cbn [fst]. rewrite (bad_raw L Hbk). reflexivity.
Qed.
End Healthy.
End Corrupt.

Theorem corrupt_regions sd ops st st1 st2 : sharded_ok sd -> can_write (d_mode (sd_base sd)) = true ->
  Forall (array_op_ok (sd_base sd)) ops ->
  (forall c, valid_chunk (d_shape (sd_base sd)) (d_chunks (sd_base sd)) c -> st (shard_key sd c) = None) ->
  run_sharded_ops sd ops st = (st1, Ok tt) -> damaged sd st1 st2 ->
  forall off n, region_ok (sd_base sd) off n ->
  (exists c, overlaps (d_shape (sd_base sd)) (d_chunks (sd_base sd)) off n c /\ corrupt sd st2 c) ->
  (forall ov out, v_shape ov = n -> out_view_ok ov (lenN out) ->
     sh_read_subarray sd st2 ov off out = Throw ERuntime) /\
  (forall src, source_ok (t_width (d_type (sd_base sd))) n src ->
     snd (sh_write_request sd src off n st2) = Throw ERuntime /\
     forall c, corrupt sd st2 c -> fst (sh_write_request sd src off n st2) (shard_key sd c) = st2 (shard_key sd c)).
Proof.
  intros sok Hm Hops Hst Hrun HD off n Hreg (c & Hov & Hbad). destruct (so_blob sok) as (m & M1 & M2). pose proof (so_base sok) as ok.
  set (T := fun _ : shape => True). assert (HT : forall k, T k) by (intros; exact I).
  destruct (@run_sharded_ops_spec sd sok m M1 M2 (own_blob sd) (@own_blob_ok sd) own_shard (@own_shard_ok sd) T ops HT Hm Hops st _ _ (@holds_sh_empty sd sok m M1 M2 (own_blob sd) (@own_blob_ok sd) own_shard (@own_shard_ok sd) T st Hst) (@represents_empty (sd_base sd)))
    as (st1' & C & E & HC & _ & _). rewrite Hrun in E. injection E as <-.
  set (G := fun k => st2 (chunk_key (d_key (sd_base sd)) k) = st1 (chunk_key (d_key (sd_base sd)) k)).
  assert (HC2 : holds_sh sd m (own_blob sd) own_shard G st2 C).
  { intros c' Hc' HG. destruct (HC c' Hc' I) as (blobs & (S1 & S2 & S3) & R). exists blobs. split; [|exact R].
    split; [exact S1|]. split; [exact S2|]. rewrite HG. exact S3. }
  destruct (begin_request_ok ok Hreg) as (l & El & ND & _ & HI).
  destruct (@groups_ok sd sok off n l ND HI) as (g & Eg & G1 & G2 & G3 & G5).
  assert (HB : forall k cs, In (k, cs) g -> G k \/ bad sd st2 k).
  { intros k cs Hin. destruct (G1 _ _ Hin) as [NE HO]. destruct cs as [|c' cs]; [congruence|].
    destruct (HO c' (or_introl eq_refl)) as [Ho' <-]. apply (HD c'), (overlaps_valid Ho'). }
  assert (HX : exists k cs, In (k, cs) g /\ bad sd st2 k).
  { apply G3, in_concat in Hov. destruct Hov as (cs & Hcs & Hin). apply in_map_iff in Hcs. destruct Hcs as ([k cs'] & <- & Hg).
    exists k, cs'. split; [exact Hg|]. destruct (G1 _ _ Hg) as [_ HO]. destruct (HO c Hin) as [_ <-]. exact Hbad. }
  split.
  - intros ov out <- Ho. unfold sh_read_subarray. rewrite El. cbn [bind]. rewrite (cps_ok sok). cbn [bind]. rewrite Eg. cbn [bind].
    rewrite (@read_fails sd sok m M1 M2 G ov off st2 C g); auto.
    eexists. split; [reflexivity|]. apply Forall_forall. intros e He. apply repeat_spec in He. subst e.
    unfold zero_cell. split; [unfold lenN; rewrite repeat_length; lia|].
    apply Forall_forall. intros x Hx. apply repeat_spec in Hx. subst x. unfold is_byte. lia.
  - intros src Hsrc. split.
    + unfold sh_write_request, write_sharded, sbind, pure. rewrite El, Hm. cbn [negb]. rewrite (cps_ok sok), Eg.
      pose proof (@fold_fails sd sok m M1 M2 G src off n g Hm Hreg Hsrc G5 G1 G2 _ st2 C (fill_buffer ok) HC2 HB HX) as F.
      destruct (foldS _ g _ st2) as [st3 o]. cbn [snd] in F. subst o. reflexivity.
    + intros c' Hc'. exact (call_kept sok (SCallWrite off n src) Hc').
Qed.

(** Regions that meet no corrupt shard still read correctly. *)
Theorem intact_regions sd ops st st1 st2 : sharded_ok sd -> can_write (d_mode (sd_base sd)) = true ->
  Forall (array_op_ok (sd_base sd)) ops ->
  (forall c, valid_chunk (d_shape (sd_base sd)) (d_chunks (sd_base sd)) c -> st (shard_key sd c) = None) ->
  run_sharded_ops sd ops st = (st1, Ok tt) -> damaged sd st1 st2 ->
  forall ov off out, region_ok (sd_base sd) off (v_shape ov) -> out_view_ok ov (lenN out) ->
  (forall c, overlaps (d_shape (sd_base sd)) (d_chunks (sd_base sd)) off (v_shape ov) c -> ~ corrupt sd st2 c) ->
  exists out', sh_read_subarray sd st2 ov off out = Ok out' /\
    forall i, in_shape (v_shape ov) i -> exists v,
      getN out' (v_off ov + lin (v_strides ov) i) = Ok v /\
      same_value (sd_base sd) v (apply_ops (sd_base sd) ops (fun _ => d_fill (sd_base sd)) (vadd off i)).
Proof.
  intros sok Hm Hops Hst Hrun HD ov off out Hreg Hout Hok. destruct (so_blob sok) as (m & M1 & M2). pose proof (so_base sok) as ok.
  set (T := fun _ : shape => True). assert (HT : forall k, T k) by (intros; exact I).
  destruct (@run_sharded_ops_spec sd sok m M1 M2 (own_blob sd) (@own_blob_ok sd) own_shard (@own_shard_ok sd) T ops HT Hm Hops st _ _ (@holds_sh_empty sd sok m M1 M2 (own_blob sd) (@own_blob_ok sd) own_shard (@own_shard_ok sd) T st Hst) (@represents_empty (sd_base sd)))
    as (st1' & C & E & HC & HR & _). rewrite Hrun in E. injection E as <-.
  set (G := fun k => st2 (chunk_key (d_key (sd_base sd)) k) = st1 (chunk_key (d_key (sd_base sd)) k)).
  assert (HC2 : holds_sh sd m (own_blob sd) own_shard G st2 C).
  { intros c' Hc' HG. destruct (HC c' Hc' I) as (blobs & (S1 & S2 & S3) & R). exists blobs. split; [|exact R].
    split; [exact S1|]. split; [exact S2|]. rewrite HG. exact S3. }
  destruct (@sh_read_subarray_spec sd sok m M1 M2 (own_blob sd) (@own_blob_ok sd) own_shard (@own_shard_ok sd) G ov off st2 C out Hreg) as (out' & E2 & L & A & O); auto.
  { intros c Hov. destruct (HD c (overlaps_valid Hov)) as [X|X]; [exact X|]. exfalso. exact (Hok c Hov X). }
  exists out'. split; [exact E2|]. intros i Hi. eexists. split; [apply A, Hi|]. apply HR.
  eapply region_in_shape; [apply Hreg|]. apply sub_in_box; [|exact Hi].
  destruct Hreg as [Hr _]. unfold valid_region in Hr; apply all3_length in Hr; lia.
Qed.

(** ** Layouts *)
Lemma layout_theorem l ops st : layout_ok l -> can_write (d_mode (base l)) = true ->
  Forall (array_op_ok (base l)) ops -> layout_empty l st ->
  exists st', run_layout l ops st = (st', Ok tt) /\
    forall ov off out, region_ok (base l) off (v_shape ov) -> out_view_ok ov (lenN out) ->
      exists out', read_layout l st' ov off out = Ok out' /\ lenN out' = lenN out /\
        (forall i, in_shape (v_shape ov) i -> exists v,
           getN out' (v_off ov + lin (v_strides ov) i) = Ok v /\
           same_value (base l) v (apply_ops (base l) ops (fun _ => d_fill (base l)) (vadd off i)) /\
           (t_float (d_type (base l)) = false -> v = apply_ops (base l) ops (fun _ => d_fill (base l)) (vadd off i))) /\
        (forall a, (forall i, in_shape (v_shape ov) i -> a <> v_off ov + lin (v_strides ov) i) ->
           getN out' a = getN out a).
Proof.
  destruct l as [d|sd]; cbn [layout_ok base run_layout read_layout]; intros ok Hm Hops Hst.
  - destruct (@array_theorem d ok ops st Hm Hops Hst) as (st' & E & R & _). eauto.
  - destruct (@sharded_theorem sd ops st ok Hm Hops Hst) as (st' & E & R & _). eauto.
Qed.
Lemma apply_region_ops d1 d2 ops : Forall region_op ops -> forall a1 a2, (forall x, a1 x = a2 x) ->
  forall x, apply_ops d1 ops a1 x = apply_ops d2 ops a2 x.
Proof.
  induction 1 as [|o ops Ho Hops IH]; intros a1 a2 Ha x; cbn [apply_ops]; [apply Ha|].
  apply IH. intros y. destruct o as [off n src|c data|c]; cbn [region_op] in Ho; try contradiction.
  cbn [apply_op]. destruct (in_boxb off n y); auto.
Qed.
Lemma same_value_sym d u v : same_value d u v -> same_value d v u.
Proof. intros [->|[H1 H2]]; [now left|right; auto]. Qed.

Lemma classic_addr ov a : (exists i, in_shape (v_shape ov) i /\ a = v_off ov + lin (v_strides ov) i) \/
  (forall i, in_shape (v_shape ov) i -> a <> v_off ov + lin (v_strides ov) i).
Proof.
  destruct (Exists_dec (fun i => a = v_off ov + lin (v_strides ov) i) (coords (v_shape ov))) as [H|H].
  - intros i. apply N.eq_dec.
  - left. apply Exists_exists in H as (i & Hi & E). exists i. split; [now apply coords_In|exact E].
  - right. intros i Hi E. apply H, Exists_exists. exists i. split; [now apply coords_In|exact E].
Qed.
Theorem layout_unobservable l1 l2 ops st1 st2 :
  layout_ok l1 -> layout_ok l2 ->
  d_shape (base l1) = d_shape (base l2) -> d_type (base l1) = d_type (base l2) -> d_fill (base l1) = d_fill (base l2) ->
  can_write (d_mode (base l1)) = true -> can_write (d_mode (base l2)) = true ->
  Forall region_op ops -> Forall (array_op_ok (base l1)) ops -> Forall (array_op_ok (base l2)) ops ->
  layout_empty l1 st1 -> layout_empty l2 st2 ->
  exists st1' st2', run_layout l1 ops st1 = (st1', Ok tt) /\ run_layout l2 ops st2 = (st2', Ok tt) /\
    forall ov off out, region_ok (base l1) off (v_shape ov) -> region_ok (base l2) off (v_shape ov) ->
      out_view_ok ov (lenN out) ->
      exists out1 out2, read_layout l1 st1' ov off out = Ok out1 /\ read_layout l2 st2' ov off out = Ok out2 /\
        (forall i, in_shape (v_shape ov) i -> exists v1 v2,
           getN out1 (v_off ov + lin (v_strides ov) i) = Ok v1 /\
           getN out2 (v_off ov + lin (v_strides ov) i) = Ok v2 /\ same_value (base l1) v1 v2) /\
        (t_float (d_type (base l1)) = false -> out1 = out2).
Proof.
  intros ok1 ok2 Es Et Ef M1 M2 Hr H1 H2 E1 E2.
  destruct (layout_theorem ok1 M1 H1 E1) as (st1' & R1 & T1). destruct (layout_theorem ok2 M2 H2 E2) as (st2' & R2 & T2).
  exists st1', st2'. split; [exact R1|]. split; [exact R2|]. intros ov off out Q1 Q2 Ho.
  destruct (T1 ov off out Q1 Ho) as (out1 & O1 & L1 & A1 & F1). destruct (T2 ov off out Q2 Ho) as (out2 & O2 & L2 & A2 & F2).
  exists out1, out2. split; [exact O1|]. split; [exact O2|].
  assert (EQ : forall x, apply_ops (base l1) ops (fun _ => d_fill (base l1)) x = apply_ops (base l2) ops (fun _ => d_fill (base l2)) x)
    by (apply apply_region_ops; auto).
  split.
  - intros i Hi. destruct (A1 i Hi) as (v1 & G1 & S1 & _). destruct (A2 i Hi) as (v2 & G2 & S2 & _).
    exists v1, v2. split; [exact G1|]. split; [exact G2|]. eapply same_value_trans; [exact S1|]. rewrite EQ.
    apply same_value_sym. unfold same_value in *. rewrite Et, Ef. exact S2.
  - intros Hf. apply list_eq_getN; [lia|]. intros a Ha.
    destruct (classic_addr ov a) as [(i & Hi & ->)|Hn].
    + destruct (A1 i Hi) as (v1 & G1 & _ & S1). destruct (A2 i Hi) as (v2 & G2 & _ & S2).
      rewrite G1, G2, S1, S2 by congruence. now rewrite EQ.
    + now rewrite F1, F2.
Qed.
