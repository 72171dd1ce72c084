(** removeTrivialChunks and removeDataset of sharded datasets with several threads. *)
From Coq Require Import String Permutation.
From Verif Require Import M_Base M_Text M_Key M_Blocking M_View M_Bytes M_N5Header M_Format M_Mode M_Shard
  M_Dataset M_Sharded M_Access M_Pool M_Parallel M_ForEach M_Functions M_Lock M_ShardRemove M_RemoveCrash
  S_Array S_Grid S_Bytes S_Crc S_Text S_Format S_Shard S_Dataset S_Access S_Sharded S_Functions S_ShardRemove
  P_Base P_Blocking P_Roi P_View P_Bytes P_Key P_Format P_Shard P_Dataset P_Access P_Read P_History P_Sharded P_ShardedApi
  P_Foreach P_ForEach P_Collect P_Functions P_LockedLoop.
Import List ListNotations.
Local Open Scope list_scope.
Local Open Scope N_scope.

Section Remove.
Variable sd : sharded.
Hypothesis sok : sharded_ok sd.
Variable m : N.
Hypothesis m_total : prod (sd_cps sd) * m < W64 - 1.
Hypothesis m_blob : forall data, buffer_of (t_width (d_type (sd_base sd))) (prod (d_chunks (sd_base sd))) data ->
      forall e, stored_as (d_codec (sd_base sd)) (concat data) e -> 0 < lenN e /\ lenN e <= m.
Hypothesis wr : can_write (d_mode (sd_base sd)) = true.
Notation d := (sd_base sd).
Notation w := (t_width (d_type (sd_base sd))).
Notation b := (d_chunks (sd_base sd)).
Notation cps := (sd_cps sd).
Notation valid := (valid_chunk (d_shape (sd_base sd)) (d_chunks (sd_base sd))).
Notation holds G st C := (holds_sh sd m (own_blob sd) own_shard G st C).
Variables (C0 : shape -> option (list cell)) (st0 : store) (alone : bool) (to_remove : shape -> bool).
Hypothesis start : holds (fun _ => True) st0 C0.

Definition minus (R : list shape) (c : shape) : option (list cell) := if in_dec (list_eq_dec N.eq_dec) c R then None else C0 c.
Definition framed (st : store) : Prop := forall k, (forall c, valid c -> k <> shard_key sd c) -> st k = st0 k.
Definition whole (R : list shape) (st : store) : Prop := holds (fun _ => True) st (minus R) /\ framed st.
Definition torn (R : list shape) (x : shape) (st : store) : Prop :=
  valid x /\ st (shard_key sd x) = Some [] /\ holds (fun k => k <> shard_of cps x) st (minus R) /\ framed st.

Lemma minus_out R c : ~ In c R -> minus R c = C0 c.
Proof using Type. intros H. unfold minus. destruct (in_dec _ c R); [contradiction|reflexivity]. Qed.
Lemma minus_in R c : In c R -> minus R c = None.
Proof using Type. intros H. unfold minus. destruct (in_dec _ c R); [reflexivity|contradiction]. Qed.
Lemma minus_cons R x c : upd (minus R) x None c = minus (x :: R) c.
Proof using Type.
  unfold upd, minus. destruct (list_eq_dec N.eq_dec c x) as [->|Ne].
  - destruct (in_dec _ x (x :: R)) as [_|H]; [reflexivity|]. destruct H. now left.
  - destruct (in_dec _ c R) as [H|H], (in_dec _ c (x :: R)) as [H'|H']; auto.
    + destruct H'. now right.
    + destruct H' as [E|H']; [congruence|contradiction].
Qed.

Lemma holds_ext (G : shape -> Prop) st st' C C' : (forall c, valid c -> G (shard_of cps c) -> st' (shard_key sd c) = st (shard_key sd c)) ->
  (forall c, C' c = C c) -> holds G st C -> holds G st' C'.
Proof using Type.
  intros E EC H c V Hg. destruct (H c V Hg) as (blobs & (S1 & S2 & S3) & R). exists blobs. split.
  - split; [exact S1|]. split; [exact S2|]. specialize (E c V Hg). unfold shard_key in E. now rewrite E.
  - eapply shard_rel_ext; [|exact R]. auto.
Qed.

Lemma blob_length (G : shape -> Prop) st C c data : valid c -> G (shard_of cps c) -> holds G st C -> C c = Some data -> buffer_of w (prod b) data.
Proof using Type.
  intros V Hg H E. destruct (H c V Hg) as (blobs & _ & (_ & _ & R)). destruct (R c V eq_refl) as (x & _ & Bx).
  rewrite E in Bx. apply Bx.
Qed.

(** A thread that looks at a chunk sees it as it is, or sees a truncated file. *)
Lemma seen_chunk R st c : valid c -> ~ In c R -> seen whole torn alone R st ->
  readable (sharded_calls sd) st c (C0 c) \/
  (alone = false /\ cc_key (sharded_calls sd) c = Ok (shard_key sd c) /\
   cc_exists (sharded_calls sd) (st (shard_key sd c)) c = Throw ERuntime /\
   forall out, cc_read (sharded_calls sd) (st (shard_key sd c)) c out = Throw ERuntime).
Proof using sok m_total m_blob to_remove.
  intros V Hn S.
  assert (Good : forall G : shape -> Prop, G (shard_of cps c) -> holds G st (minus R) -> readable (sharded_calls sd) st c (C0 c)).
  { intros G Hg H. destruct (@sh_chunk_view sd sok m m_total m_blob G st c (minus R) V Hg H) as (E1 & E2 & _).
    rewrite minus_out in E1, E2 by exact Hn.
    replace (C0 c) with (option_map snd (option_map (fun data => (false, data)) (C0 c))) by (destruct (C0 c); reflexivity).
    apply sharded_readable; auto.
    - rewrite E1. now destruct (C0 c).
    - intros vl data. destruct (C0 c) as [data'|] eqn:E; [|discriminate]. intros [= <- <-].
      split; [|split; [reflexivity|intros out; now apply E2]].
      eapply (@blob_length G st (minus R) c data'); eauto. now rewrite minus_out. }
  destruct S as [[S _]|[A (x & Vx & Ex & S & _)]]; [left; now apply (Good (fun _ => True))|].
  destruct (list_eq_dec N.eq_dec (shard_of cps c) (shard_of cps x)) as [E|Ne]; [|left; now apply (Good (fun k => k <> shard_of cps x))].
  right. split; [exact A|].
  assert (Lc : length c = length b) by (exact (valid_len V)).
  assert (Sid : shard_id c cps = Ok (shard_of cps c)) by (apply shard_id_spec; [exact (cps_pos sok)|rewrite (cps_len sok); exact Lc]).
  destruct (shard_handle_ok sok (shard_of_len sok Lc)) as (bs & Eh).
  assert (Ek : shard_key sd c = shard_key sd x) by (unfold shard_key; now rewrite E).
  assert (Cr : corrupt sd st c).
  { exists []. rewrite Ek. split; [exact Ex|]. unfold parse_shard_index. rewrite lenN_nil.
    destruct (N.ltb_spec 0 (16 * prod cps + 4)); [reflexivity|lia]. }
  destruct (@corrupt_chunks sd sok st c V Cr) as (R1 & R2 & R3 & _).
  assert (Rd : read_shard sd (only (st (shard_key sd c))) c = read_shard sd st c).
  { unfold read_shard. rewrite Sid. cbn [bind]. rewrite Eh. cbn [bind ch_key]. reflexivity. }
  cbn [sharded_calls cc_key cc_exists cc_read]. rewrite Sid. cbn [bind]. rewrite Eh. cbn [bind ch_key]. split; [reflexivity|].
  split.
  - unfold sh_chunk_exists in *. now rewrite Rd.
  - intros out. specialize (R1 out). unfold sh_read_chunk, sh_read_raw_chunk in *. now rewrite Rd.
Qed.

(** The critical section of removeChunk. *)
Lemma remove_crit R x own k (mm : pmem) : valid x -> whole R (fst mm) -> safe to_remove whole torn alone (shard_key sd) own k ->
  crit to_remove whole torn alone (shard_key sd) R x own false mm (lseq (guarded (inner_blob_code sd x None)) k).
Proof using sok m_total m_blob wr.
  intros V [W Fr] K. pose proof (so_base sok) as ok.
  assert (Lc : length x = length b) by (exact (valid_len V)).
  assert (Lco : length (shard_of cps x) = length b) by now apply (shard_of_len sok).
  destruct (shard_handle_ok sok Lco) as (bs & Eh).
  destruct (slot_ok sok m_total m_blob Lc) as [S1 S2].
  destruct (W x V I) as (blobs & St & R0). pose proof R0 as (R1 & R2 & R3).
  pose proof (read_blobs_ok sok m_total m_blob Lco St) as Rb.
  assert (Sid : shard_id x cps = Ok (shard_of cps x)) by (apply shard_id_spec; [exact (cps_pos sok)|rewrite (cps_len sok); exact Lc]).
  destruct (@inner_blob_spec sd sok m m_total m_blob (own_blob sd) (@own_blob_ok sd) own_shard (@own_shard_ok sd) (fun _ => True) x None None (fst mm) (minus R) wr V I W) as (v & Ev & Hv).
  { rewrite lenN_nil. lia. }
  { reflexivity. }
  set (blobs' := set_nth (N.to_nat (slot_of sd x)) blobs []).
  assert (Ev2 : v = if all_slots_empty blobs' then None else Some (build_shard blobs')).
  { unfold write_inner_blob, sbind, pure, reading in Ev. rewrite Sid, S1, Rb in Ev. rewrite setN_ok in Ev by lia. fold blobs' in Ev.
    rewrite (write_blobs_ok sok m_total m_blob _ _ wr Lco) in Ev. injection Ev as Ev. apply (f_equal (fun f => f (shard_key sd x))) in Ev.
    unfold shard_key in Ev at 2. rewrite !set_key_same in Ev. symmetry. exact Ev. }
  assert (Fin : forall st1, (forall kk, st1 kk = set_key (fst mm) (shard_key sd x) v kk) -> whole (x :: R) st1).
  { intros st1 E. split.
    - eapply holds_ext; [| |exact Hv]; [intros c _ _; apply E|]. intros c. symmetry. apply minus_cons.
    - intros kk Hk. rewrite E, set_key_other by (now apply Hk). now apply Fr. }
  unfold inner_blob_code. rewrite Sid. cbn [plet]. rewrite S1. cbn [plet]. rewrite Eh. cbn [plet ch_key].
  unfold pread. cbn [guarded lseq]. apply crit_act with (b' := false).
  { reflexivity. }
  { cbn. left. split; [exact W|exact Fr]. }
  cbn [fst snd].
  assert (ER : read_shard_blobs sd (only (fst mm (chunk_key (d_key d) (shard_of cps x)))) (shard_of cps x) = Ok blobs).
  { rewrite <- Rb. unfold read_shard_blobs. rewrite Eh. reflexivity. }
  rewrite ER. cbn [plet]. rewrite setN_ok by lia. cbn [plet]. fold blobs'.
  unfold write_blobs_code. rewrite wr. cbn [negb]. rewrite Eh. cbn [plet ch_key].
  destruct (all_slots_empty blobs') eqn:Ea.
  - unfold pset. cbn [guarded lseq]. apply crit_act with (b' := true); cbn [fst snd].
    + intros kk Hk. now apply set_key_other.
    + cbn. apply Fin. intros kk. rewrite Ev2. reflexivity.
    + cbn [guarded lseq ended]. constructor. exact K.
  - unfold write_code. assert (Eg : k_zarr (d_key d) && negb (String.eqb (k_delim (d_key d)) "/") && slash_in (chunk_key (d_key d) (shard_of cps x)) = false).
    { destruct (k_zarr (d_key d)) eqn:Z; cbn; [|reflexivity]. destruct (String.eqb_spec (k_delim (d_key d)) "/"); cbn; [reflexivity|].
      destruct (do_path ok) as [P|P]; [contradiction|]. apply (slash_in_free (chunk_key_slash_free _ Z P)). }
    rewrite Eg. unfold pset. cbn [guarded lseq]. apply crit_act with (b' := false); cbn [fst snd].
    { intros kk Hk. now apply set_key_other. }
    { cbn. right. split; [exact V|]. split; [apply set_key_same|]. split.
      - eapply (holds_ext (st := fst mm) (C := minus R)); [|reflexivity|].
        + intros c Vc Hg. apply set_key_other. unfold shard_key. intros E. apply Hg. now apply (key_inj ok).
        + intros c Vc _. exact (W c Vc I).
      - intros kk Hk. rewrite set_key_other by (now apply Hk). now apply Fr. }
    apply crit_act with (b' := true); cbn [fst snd].
    + intros kk Hk. now apply set_key_other.
    + cbn. apply Fin. intros kk. rewrite Ev2. unfold set_key, shard_key. now destruct (kk =? chunk_key (d_key d) (shard_of cps x))%string.
    + cbn [guarded lseq ended]. constructor. exact K.
Qed.

Lemma locked_safe x own k : valid x -> to_remove x = true -> safe to_remove whole torn alone (shard_key sd) own k ->
  safe to_remove whole torn alone (shard_key sd) (x :: own) (lseq (locked_remove sd x) k).
Proof using sok m_total m_blob wr.
  intros V T K. unfold locked_remove. cbn [lseq]. constructor; [exact T|]. intros R mm W _ _. now apply remove_crit.
Qed.

Lemma key_ok c : valid c -> cc_key (sharded_calls sd) c = Ok (shard_key sd c).
Proof using sok.
  intros V. assert (Lc : length c = length b) by (exact (valid_len V)). cbn [sharded_calls cc_key].
  rewrite shard_id_spec; [|exact (cps_pos sok)|rewrite (cps_len sok); exact Lc]. cbn [bind].
  destruct (shard_handle_ok sok (shard_of_len sok Lc)) as (bs & Eh). rewrite Eh. reflexivity.
Qed.

Lemma drop_safe c own k : (to_remove c = match C0 c with Some _ => true | None => false end) -> valid c ->
  safe to_remove whole torn alone (shard_key sd) own k -> safe to_remove whole torn alone (shard_key sd) (c :: own) (lseq (sh_drop_visit sd c) k).
Proof using sok m_total m_blob wr.
  intros T V K. unfold sh_drop_visit. rewrite (key_ok V). cbn [llift]. unfold lread. cbn [lseq].
  constructor; [reflexivity|]. cbn [snd]. intros R mm Ap S.
  destruct (seen_chunk V (Ap c (or_introl eq_refl)) S) as [(key & Ek & H)|(A & _ & H & _)].
  2:{ rewrite H. cbn [llift lseq]. now constructor. }
  rewrite (key_ok V) in Ek. injection Ek as <-. destruct (C0 c) as [data|].
  - destruct H as [H _]. rewrite H. cbn [llift negb]. now apply locked_safe.
  - rewrite H. cbn [llift negb lseq]. now apply safe_skip.
Qed.

Lemma trivial_safe value c own k :
  to_remove c = match C0 c with Some data => trivial (d_type d) value data | None => false end -> valid c ->
  safe to_remove whole torn alone (shard_key sd) own k -> safe to_remove whole torn alone (shard_key sd) (c :: own) (lseq (sh_trivial_visit sd value c) k).
Proof using sok m_total m_blob wr.
  intros T V K. unfold sh_trivial_visit. rewrite (key_ok V). cbn [llift]. unfold lread at 1. cbn [lseq].
  constructor; [reflexivity|]. cbn [snd]. intros R mm Ap S.
  destruct (seen_chunk V (Ap c (or_introl eq_refl)) S) as [(key & Ek & H)|(A & _ & H & _)].
  2:{ rewrite H. cbn [llift lseq]. now constructor. }
  rewrite (key_ok V) in Ek. injection Ek as <-. destruct (C0 c) as [data|] eqn:Ec.
  2:{ rewrite H. cbn [llift negb lseq]. now apply safe_skip. }
  destruct H as (H & vl & Hv & Hs & _). rewrite H. cbn [llift negb]. rewrite Hv. cbn [llift].
  assert (Hv' : forall f, cc_varlen (sharded_calls sd) f c = Ok vl) by (intros f; exact Hv).
  destruct (prepare_read_buffer (cc_data (sharded_calls sd)) vl) as [size buf] eqn:Ep. cbn [fst] in Hs.
  unfold lread. cbn [lseq]. constructor; [reflexivity|]. cbn [snd]. intros R2 mm2 Ap2 S2'.
  destruct (seen_chunk V (Ap2 c (or_introl eq_refl)) S2') as [(key & Ek & H2)|(A & _ & _ & H2)].
  2:{ rewrite H2. cbn [llift lseq]. now constructor. }
  rewrite (key_ok V) in Ek. injection Ek as <-. rewrite Ec in H2. destruct H2 as (_ & vl2 & Hv2 & _ & bb & rest & Hr).
  rewrite Hv' in Hv2. injection Hv2 as <-. rewrite Ep in Hr. cbn [snd] in Hr. rewrite Hr. cbn [llift snd].
  assert (Ef : firstn (N.to_nat size) (data ++ rest) = data).
  { rewrite Hs. unfold lenN. rewrite Nat2N.id, firstn_app, Nat.sub_diag, firstn_all. cbn. apply app_nil_r. }
  rewrite Ef. rewrite <- T. destruct (to_remove c) eqn:Et; [now apply locked_safe|]. cbn [lseq]. now apply safe_skip.
Qed.

(** *** The loops *)
Variable est : Z.
Hypothesis small : prod (chunk_counts (d_shape (sd_base sd)) (d_chunks (sd_base sd))) < W64.

Lemma tasks_concat threads k : concat (loop_tasks threads est k) = seq 0 k.
Proof using Type.
  clear. unfold loop_tasks. destruct (threads <=? 1); [apply app_nil_r|]. apply batches_concat; [unfold chunked_work; lia|]. now rewrite seq_length.
Qed.

Lemma whole_start : whole [] st0.
Proof using start. split; [|intros k _; reflexivity]. eapply holds_ext; [| |exact start]; auto. Qed.

Lemma steps_of bl visit y0 y : mk_blocking (d_shape (sd_base sd)) (d_chunks (sd_base sd)) = Ok bl ->
  reach (shard_step sd visit) y0 y -> reach (any_lstep (fun i => llift (id_to_coord (b_strides bl) (N.of_nat i)) visit)) y0 y.
Proof using Type.
  intros E. induction 1 as [|y y' _ IH [bl' E' St]]; [apply reach_refl|]. assert (bl' = bl) as -> by congruence. eapply reach_step; eauto.
Qed.
Section Visit.
Variable visit : shape -> lcode.
Hypothesis visit_ok : forall c own k, valid c -> safe to_remove whole torn alone (shard_key sd) own k ->
  safe to_remove whole torn alone (shard_key sd) (c :: own) (lseq (visit c) k).
Variable threads : N.
Hypothesis alone_ok : alone = (threads <=? 1).

Lemma loop_setup y : shard_loop sd threads est visit st0 y ->
  (lfinal y -> (lresult (loop_count sd threads est) y = Ok tt \/ alone = false /\ lresult (loop_count sd threads est) y = Throw ERuntime) /\
   exists R, whole R (fst (l_mem y)) /\ (forall x, In x R -> valid x /\ to_remove x = true) /\
     (lresult (loop_count sd threads est) y = Ok tt -> forall x, valid x -> to_remove x = true -> In x R)) /\
  (lfinal y \/ exists y', shard_step sd visit y y') /\
  (forall st', cut_short (l_workers y) (l_mem y) st' ->
   exists R, (forall x, In x R -> valid x /\ to_remove x = true) /\
     ((whole R (fst (l_mem y)) /\ forall k, st' k = fst (l_mem y) k) \/
      exists x, valid x /\ to_remove x = true /\ (whole R (fst (l_mem y)) \/ torn R x (fst (l_mem y))) /\
        forall k, k <> shard_key sd x -> st' k = fst (l_mem y) k)).
Proof using sok start small visit_ok alone_ok m_total m_blob.
  intros [bl Eb Hr]. pose proof (so_base sok) as ok.
  destruct (@chunks_by_id _ _ bl (do_dims ok) Eb small) as (l & Ll & Nd & Hi & Hc).
  set (vis := fun i => llift (id_to_coord (b_strides bl) (N.of_nat i)) visit) in *.
  apply (steps_of Eb) in Hr. fold vis in Hr.
  set (item := fun i => nth i l (@nil N)).
  assert (Count : loop_count sd threads est = length (loop_tasks threads est (N.to_nat (b_number bl)))).
  { unfold loop_count. now rewrite Eb. }
  (* only numbers of chunks are visited: [item] of a larger number is not a chunk *)
  set (item' := fun i => if (i <? length l)%nat then nth i l (@nil N) else repeat 0 (S (length b))).
  assert (Vs : forall i own k, valid (item' i) -> safe to_remove whole torn alone (shard_key sd) own k ->
     safe to_remove whole torn alone (shard_key sd) (item' i :: own) (lseq (vis i) k)).
  { intros i own k V K. unfold item' in *. destruct (Nat.ltb_spec i (length l)) as [Li|Li].
    - unfold vis. rewrite (Hc i Li). cbn [llift]. now apply visit_ok.
    - pose proof (valid_len V) as Lv. rewrite repeat_length in Lv. clear - Lv. lia. }
  assert (Mi : map item' (concat (loop_tasks threads est (N.to_nat (b_number bl)))) = l).
  { rewrite tasks_concat, <- Ll. clear. unfold item'. transitivity (map (fun i => nth i l []) (seq 0 (length l))).
    - apply map_ext_in. intros i H. apply in_seq in H. destruct (Nat.ltb_spec i (length l)); [reflexivity|lia].
    - induction l as [|a l IH]; [reflexivity|]. cbn [length seq map nth]. f_equal. rewrite <- seq_shift, map_map. exact IH. }
  assert (T1 : NoDup (map item' (concat (loop_tasks threads est (N.to_nat (b_number bl)))))) by now rewrite Mi.
  assert (T2 : forall x, In x (map item' (concat (loop_tasks threads est (N.to_nat (b_number bl))))) <-> valid x) by (rewrite Mi; exact Hi).
  assert (T3 : (0 < loop_threads threads)%nat) by (unfold loop_threads; destruct (N.leb_spec threads 1); lia).
  assert (T4 : alone = true -> loop_threads threads = 1%nat) by (rewrite alone_ok; unfold loop_threads; intros ->; reflexivity).
  split; [|split].
  - intros F. destruct (@loop_final _ item' valid to_remove whole torn alone (shard_key sd) vis _ Vs st0 _ _ (Logic.eq_sym Count) T1 T2 T3 T4 whole_start y Hr F)
      as (A & R & B1 & _ & B2 & B3). split; [exact A|]. exists R. auto.
  - destruct (@loop_progress _ item' valid to_remove whole torn alone (shard_key sd) vis _ Vs st0 _ _ (Logic.eq_sym Count) T1 T2 T3 T4 whole_start y Hr) as [F|(y' & St)]; [now left|].
    right. exists y'. econstructor; eauto.
  - intros st' Hc'. exact (@loop_halted _ item' valid to_remove whole torn alone (shard_key sd) vis _ Vs st0 _ _ (Logic.eq_sym Count) T1 T2 T3 T4 whole_start y st' Hr Hc').
Qed.
End Visit.
End Remove.

(** ** After a history *)
Definition picked (t : elem_type) (value : option cell) (C : shape -> option (list cell)) (c : shape) : bool :=
  match C c with Some data => trivial t value data | None => false end.
Definition present (C : shape -> option (list cell)) (c : shape) : bool := match C c with Some _ => true | None => false end.

Section General.
Variable sd : sharded.
Hypothesis sok : sharded_ok sd.
Hypothesis wr : can_write (d_mode (sd_base sd)) = true.
Hypothesis small : prod (chunk_counts (d_shape (sd_base sd)) (d_chunks (sd_base sd))) < W64.
Variable m : N.
Hypothesis m_total : prod (sd_cps sd) * m < W64 - 1.
Hypothesis m_blob : forall data, buffer_of (t_width (d_type (sd_base sd))) (prod (d_chunks (sd_base sd))) data ->
      forall e, stored_as (d_codec (sd_base sd)) (concat data) e -> 0 < lenN e /\ lenN e <= m.
Notation d := (sd_base sd).
Notation valid := (valid_chunk (d_shape (sd_base sd)) (d_chunks (sd_base sd))).
Variables (C : shape -> option (list cell)) (st : store).
Hypothesis start : holds_sh sd m (own_blob sd) own_shard (fun _ => True) st C.

Lemma trivial_loop threads est value y : shard_loop sd threads est (sh_trivial_visit sd value) st y ->
  (lfinal y -> (lresult (loop_count sd threads est) y = Ok tt \/ 1 < threads /\ lresult (loop_count sd threads est) y = Throw ERuntime) /\
   exists R, whole sd m C st R (fst (l_mem y)) /\ (forall x, In x R -> valid x /\ picked (d_type d) value C x = true) /\
     (lresult (loop_count sd threads est) y = Ok tt -> forall x, valid x -> picked (d_type d) value C x = true -> In x R)) /\
  (lfinal y \/ exists y', shard_step sd (sh_trivial_visit sd value) y y').
Proof.
  intros L. destruct (@loop_setup sd sok m m_total m_blob C st (threads <=? 1) (picked (d_type d) value C) start est small (sh_trivial_visit sd value)
    (fun c own k V K => @trivial_safe sd sok m m_total m_blob wr C st (threads <=? 1) (picked (d_type d) value C) value c own k eq_refl V K) threads eq_refl y L) as (A & B & _).
  split; [|exact B]. intros F. destruct (A F) as [A1 A2]. split; [|exact A2]. destruct A1 as [A1|[Q A1]]; [now left|right]. split; [lia|exact A1].
Qed.
Lemma drop_loop threads est y : shard_loop sd threads est (sh_drop_visit sd) st y ->
  (lfinal y -> (lresult (loop_count sd threads est) y = Ok tt \/ 1 < threads /\ lresult (loop_count sd threads est) y = Throw ERuntime) /\
   exists R, whole sd m C st R (fst (l_mem y)) /\ (forall x, In x R -> valid x /\ present C x = true) /\
     (lresult (loop_count sd threads est) y = Ok tt -> forall x, valid x -> present C x = true -> In x R)) /\
  (lfinal y \/ exists y', shard_step sd (sh_drop_visit sd) y y').
Proof.
  intros L. destruct (@loop_setup sd sok m m_total m_blob C st (threads <=? 1) (present C) start est small (sh_drop_visit sd)
    (fun c own k V K => @drop_safe sd sok m m_total m_blob wr C st (threads <=? 1) (present C) c own k eq_refl V K) threads eq_refl y L) as (A & B & _).
  split; [|exact B]. intros F. destruct (A F) as [A1 A2]. split; [|exact A2]. destruct A1 as [A1|[Q A1]]; [now left|right]. split; [lia|exact A1].
Qed.

Lemma trivial_sharded hw nThreads est value st1 r : sh_remove_trivial sd hw nThreads est value st st1 r ->
  (r = Ok tt \/ 1 < actual_threads hw nThreads /\ r = Throw ERuntime) /\
  exists R, whole sd m C st R st1 /\ (forall x, In x R -> valid x /\ picked (d_type d) value C x = true) /\
    (r = Ok tt -> forall x, valid x -> picked (d_type d) value C x = true -> In x R).
Proof.
  intros H. destruct H as [Hw|y Hw L F ->]; [congruence|]. exact (proj1 (trivial_loop L) F).
Qed.

(** Some execution of a loop that is never stuck ends. *)
Lemma shard_terminates visit y : Acc (fun a b => shard_step sd visit b a) y.
Proof using sok.
  destruct (blocking_ok (so_base sok)) as (bl & Eb & _).
  induction (loop_terminates (fun i => llift (id_to_coord (b_strides bl) (N.of_nat i)) visit) y) as [y _ IH].
  constructor. intros y' [bl' E' St]. apply IH. assert (bl' = bl) as -> by (unfold d_blocking in Eb; congruence). exact St.
Qed.
Lemma loop_ends threads est visit :
  (forall y, shard_loop sd threads est visit st y -> lfinal y \/ exists y', shard_step sd visit y y') ->
  exists y, shard_loop sd threads est visit st y /\ lfinal y.
Proof using sok.
  intros P. destruct (blocking_ok (so_base sok)) as (bl & Eb & _).
  assert (L0 : shard_loop sd threads est visit st (linit st (loop_threads threads) (loop_tasks threads est (N.to_nat (b_number bl))))).
  { econstructor; [exact Eb|apply reach_refl]. }
  revert L0. generalize (linit st (loop_threads threads) (loop_tasks threads est (N.to_nat (b_number bl)))). intros y.
  induction (shard_terminates visit y) as [y _ IH]. intros L0. destruct (P y L0) as [F|(y' & St)]; [exists y; auto|].
  apply (IH y' St). destruct L0 as [bl' E' Hr]. econstructor; [exact E'|]. eapply reach_step; eauto.
Qed.
Lemma trivial_returns hw nThreads est value : exists st1 r, sh_remove_trivial sd hw nThreads est value st st1 r.
Proof.
  destruct (@loop_ends (actual_threads hw nThreads) est (sh_trivial_visit sd value)) as (y & L & F).
  { intros y L. exact (proj2 (trivial_loop L)). }
  eexists _, _. eapply sh_trivial_done; eauto.
Qed.
Lemma drop_returns hw nThreads est : exists st1 r, sh_remove_dataset sd hw nThreads est st st1 r.
Proof.
  destruct (@loop_ends (actual_threads hw nThreads) est (sh_drop_visit sd)) as (y & L & F).
  { intros y L. exact (proj2 (drop_loop L)). }
  destruct (proj1 (drop_loop L) F) as [[E|[_ E]] _]; eexists _, _.
  - eapply sh_removal_done; eauto.
  - eapply sh_removal_failed; eauto.
Qed.

(** What readers see of the chunks. *)
Lemma whole_shows R st1 c : whole sd m C st R st1 -> valid c ->
  shows sd st1 c (if in_dec (list_eq_dec N.eq_dec) c R then None else option_map (fun data => (false, data)) (C c)).
Proof.
  intros [H _] V. destruct (@sh_chunk_view sd sok m m_total m_blob (fun _ => True) st1 c (minus C R) V I H) as (E1 & E2 & _).
  unfold minus in E1, E2. destruct (in_dec _ c R); cbn; [exact E1|]. destruct (C c) as [data|]; cbn; [|exact E1]. split; [exact E1|]. now apply E2.
Qed.
End General.

Lemma history_start sd ops st : shard_history sd ops st -> exists m C,
  prod (sd_cps sd) * m < W64 - 1 /\
  (forall data, buffer_of (t_width (d_type (sd_base sd))) (prod (d_chunks (sd_base sd))) data ->
      forall e, stored_as (d_codec (sd_base sd)) (concat data) e -> 0 < lenN e /\ lenN e <= m) /\
  holds_sh sd m (own_blob sd) own_shard (fun _ => True) st C /\
  forall c, valid_chunk (d_shape (sd_base sd)) (d_chunks (sd_base sd)) c ->
    last_result (sd_base sd) ops c None = option_map (fun data => (false, data)) (C c).
Proof.
  intros [sok Ho _ (wr & st0 & He & Hr)]. destruct (so_blob sok) as (m & M1 & M2).
  destruct (@run_shard_ops_spec sd sok m M1 M2 (fun _ => True) ops (fun _ => I) wr Ho st0 (fun _ => None) (fun _ => None)
    (@holds_sh_empty sd sok m M1 M2 (own_blob sd) (@own_blob_ok sd) own_shard (@own_shard_ok sd) (fun _ => True) st0 He))
    as (st' & C & E & H & HC & _); [intros c _; reflexivity|].
  rewrite Hr in E. injection E as <-. exists m, C. auto.
Qed.

Lemma shows_kept sd st1 c r (R : list shape) (b : bool) : (In c R -> b = true) ->
  shows sd st1 c (if in_dec (list_eq_dec N.eq_dec) c R then None else r) -> b = false -> shows sd st1 c r.
Proof. intros H S E. destruct (in_dec _ c R) as [i|i]; [rewrite (H i) in E; discriminate|exact S]. Qed.

Theorem trivial_sharded_history sd ops st : shard_history sd ops st ->
  (forall c, valid_chunk (d_shape (sd_base sd)) (d_chunks (sd_base sd)) c ->
     comparable (d_type (sd_base sd)) (stored_values (last_result (sd_base sd) ops c None))) ->
  forall hw nThreads est value st1 r, sh_remove_trivial sd hw nThreads est value st st1 r ->
  (r = Ok tt \/ 1 < actual_threads hw nThreads /\ r = Throw ERuntime) /\
  (forall k, (forall c, valid_chunk (d_shape (sd_base sd)) (d_chunks (sd_base sd)) c -> k <> shard_key sd c) -> st1 k = st k) /\
  forall c, valid_chunk (d_shape (sd_base sd)) (d_chunks (sd_base sd)) c ->
    (~ single_value (d_type (sd_base sd)) value (stored_values (last_result (sd_base sd) ops c None)) ->
       shows sd st1 c (last_result (sd_base sd) ops c None)) /\
    (single_value (d_type (sd_base sd)) value (stored_values (last_result (sd_base sd) ops c None)) ->
       shows sd st1 c None \/ (r = Throw ERuntime /\ shows sd st1 c (last_result (sd_base sd) ops c None))).
Proof.
  intros Hh Cm hw nThreads est value st1 r H. destruct (history_start Hh) as (m & C & M1 & M2 & S & HC).
  pose proof (sh_ok Hh) as sok. destruct (sh_run Hh) as (wr & _).
  destruct (@trivial_sharded sd sok wr (sh_small Hh) m M1 M2 C st S hw nThreads est value st1 r H) as (Hr & R & W & HR & All).
  split; [exact Hr|]. split; [apply W|]. intros c V. pose proof (@whole_shows sd sok m M1 M2 C st R st1 c W V) as Sc. rewrite <- (HC c V) in Sc.
  specialize (Cm c V).
  assert (Pk : picked (d_type (sd_base sd)) value C c = true <-> single_value (d_type (sd_base sd)) value (stored_values (last_result (sd_base sd) ops c None))).
  { unfold picked. rewrite (HC c V) in Cm |- *. destruct (C c) as [data|]; cbn [option_map stored_values] in *; [now apply trivial_spec|].
    split; [discriminate|]. intros [Q _]. now destruct Q. }
  split.
  - intros N. eapply shows_kept; [|exact Sc|]; [intros i; apply HR, i|]. destruct (picked _ _ _ c) eqn:E; [|reflexivity]. destruct N. now apply Pk.
  - intros Y. destruct (in_dec _ c R) as [i|i]; [left; exact Sc|right]. split; [|exact Sc].
    destruct Hr as [->|[_ ->]]; [|reflexivity]. destruct i. apply All; auto. now apply Pk.
Qed.

Theorem drop_sharded_history sd ops st : shard_history sd ops st ->
  forall hw nThreads est st1 r, sh_remove_dataset sd hw nThreads est st st1 r ->
  (r = Ok tt /\ forall k, st1 k = None) \/
  (1 < actual_threads hw nThreads /\ r = Throw ERuntime /\
   (forall k, (forall c, valid_chunk (d_shape (sd_base sd)) (d_chunks (sd_base sd)) c -> k <> shard_key sd c) -> st1 k = st k) /\
   forall c, valid_chunk (d_shape (sd_base sd)) (d_chunks (sd_base sd)) c ->
     shows sd st1 c None \/ shows sd st1 c (last_result (sd_base sd) ops c None)).
Proof.
  intros Hh hw nThreads est st1 r H. destruct (history_start Hh) as (m & C & M1 & M2 & S & HC).
  pose proof (sh_ok Hh) as sok. destruct (sh_run Hh) as (wr & _).
  destruct H as [Hw|y e Hw L F E|y Hw L F E]; [congruence| |left; auto].
  destruct (proj1 (@drop_loop sd sok wr (sh_small Hh) m M1 M2 C st S _ _ y L) F) as (Hr & R & W & HR & All).
  destruct Hr as [Hr|[T Hr]]; [congruence|]. right. rewrite Hr in E. injection E as <-. split; [exact T|]. split; [reflexivity|]. split; [apply W|].
  intros c V. pose proof (@whole_shows sd sok m M1 M2 C st R _ c W V) as Sc. rewrite <- (HC c V) in Sc. destruct (in_dec _ c R); auto.
Qed.

(** If only chunks of the fill value are removed, the array reads as before. *)
Theorem trivial_sharded_array sd ops st0 st : sharded_ok sd -> can_write (d_mode (sd_base sd)) = true -> Forall (array_op_ok (sd_base sd)) ops ->
  (forall c, valid_chunk (d_shape (sd_base sd)) (d_chunks (sd_base sd)) c -> st0 (shard_key sd c) = None) ->
  run_sharded_ops sd ops st0 = (st, Ok tt) -> prod (chunk_counts (d_shape (sd_base sd)) (d_chunks (sd_base sd))) < W64 ->
  (forall c out data, valid_chunk (d_shape (sd_base sd)) (d_chunks (sd_base sd)) c ->
     buffer_of (t_width (d_type (sd_base sd))) (prod (d_chunks (sd_base sd))) out -> sh_chunk_exists sd st c = Ok true ->
     sh_read_chunk sd st c out = Ok (false, data) -> comparable (d_type (sd_base sd)) data) ->
  forall hw nThreads est v st1 r, elem_eq (d_type (sd_base sd)) v (d_fill (sd_base sd)) = true ->
  sh_remove_trivial sd hw nThreads est (Some v) st st1 r ->
  forall ov off out, region_ok (sd_base sd) off (v_shape ov) -> out_view_ok ov (lenN out) ->
    exists out', sh_read_subarray sd st1 ov off out = Ok out' /\
      forall i, in_shape (v_shape ov) i -> exists x,
        getN out' (v_off ov + lin (v_strides ov) i) = Ok x /\
        same_value (sd_base sd) x (apply_ops (sd_base sd) ops (fun _ => d_fill (sd_base sd)) (vadd off i)).
Proof.
  intros sok wr Ho He Hr Sm Cm hw nThreads est v st1 r Hv H ov off out Hreg Hov.
  pose proof (so_base sok) as ok. destruct (so_blob sok) as (m & M1 & M2).
  destruct (@run_sharded_ops_spec sd sok m M1 M2 (own_blob sd) (@own_blob_ok sd) own_shard (@own_shard_ok sd) (fun _ => True) ops (fun _ => I) wr Ho st0 _ _
    (@holds_sh_empty sd sok m M1 M2 (own_blob sd) (@own_blob_ok sd) own_shard (@own_shard_ok sd) (fun _ => True) st0 He) (@represents_empty (sd_base sd)))
    as (st' & C & E & HC & HR & _).
  rewrite Hr in E. injection E as <-.
  destruct (@trivial_sharded sd sok wr Sm m M1 M2 C st HC hw nThreads est (Some v) st1 r H) as (_ & R & (W & _) & Hp & _).
  destruct (@sh_read_subarray_spec sd sok m M1 M2 (own_blob sd) (@own_blob_ok sd) own_shard (@own_shard_ok sd) (fun _ => True) ov off st1 (minus C R) out Hreg (fun c _ => I) W Hov) as (out' & E2 & _ & A & _).
  exists out'. split; [exact E2|]. intros i Hi. eexists. split; [apply (A i Hi)|].
  assert (Hin : in_shape (d_shape (sd_base sd)) (vadd off i)).
  { destruct Hreg as [Hr1 _]. apply (region_in_shape Hr1). pose proof (in_shape_len Hi).
    assert (length off = length (v_shape ov)) by (unfold valid_region in Hr1; apply all3_length in Hr1; lia). now apply sub_in_box. }
  set (x := vadd off i) in *. eapply same_value_trans; [|apply (HR x Hin)].
  destruct (elem_chunk ok Hin) as (V & _). unfold val. set (c := chunk_of (d_chunks (sd_base sd)) x) in *.
  unfold minus. destruct (in_dec _ c R) as [i0|_]; [|apply same_value_refl]. apply same_fill.
  destruct (Hp c i0) as [_ T]. unfold picked in T. destruct (C c) as [data|] eqn:Ec; [|discriminate]. cbn [chunk_val].
  destruct (@sh_chunk_view sd sok m M1 M2 (fun _ => True) st c C V I HC) as (V1 & V2 & _). rewrite Ec in V1.
  pose proof (@blob_length sd m (fun _ => True) st C c data V I HC Ec) as Hb.
  assert (Cd : comparable (d_type (sd_base sd)) data).
  { apply (Cm c (repeat (zero_cell (t_width (d_type (sd_base sd)))) (N.to_nat (prod (d_chunks (sd_base sd))))) data V); auto using zeros_buffer. }
  apply (trivial_spec (Some v) Cd) in T. destruct T as (_ & _ & T). eapply P_Functions.eq_trans; [|exact Hv]. apply T.
  pose proof (elem_stored ok Hin) as Hs. fold c in Hs. apply rowmajor_lt in Hs. apply nth_In.
  destruct Hb as [Lb _]. unfold stored_shape in *. rewrite (so_zarr sok) in *. unfold lenN in Lb. lia.
Qed.
