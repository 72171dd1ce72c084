(** Writes to a failing disk, and repeating them. *)
From Verif Require Import M_Base M_Text M_Key M_Blocking M_View M_Bytes M_N5Header M_Format
  M_Mode M_Shard M_Dataset M_Sharded M_Access M_Pool M_Parallel M_Crash M_Store M_S3 M_Disk
  S_Array S_Grid S_Bytes S_Text S_Format S_Shard S_Dataset S_Access S_Sharded S_File S_Pool S_Parallel S_Crash S_S3 S_Disk
  P_Base P_Blocking P_Roi P_View P_Bytes P_Key P_Format P_Dataset P_Access P_Shard P_Sharded P_Pool P_Foreach P_Parallel P_ParWrite P_ParSharded
  P_Crash P_Store P_S3 P_S3Sim P_Disk.
From Coq Require Import Sorted.
Import List ListNotations.
Set Implicit Arguments.

Lemma fs_wr kc key b (st : store) k : k <> key -> fst (p_write fs_policy kc key b st) k = st k.
Proof. intros N. cbn [p_write fs_policy]. unfold store_write. destruct (_ && _); [reflexivity|]. now apply set_key_off. Qed.
Lemma fs_er key (st : store) k : k <> key -> fst (p_erase fs_policy key st) k = st k.
Proof. intros N. now apply set_key_off. Qed.

Lemma access_files A e (an : store -> A) s : disk_files (fst (access e an s)) = disk_files s.
Proof. unfold access. pose proof (next_files s) as N. destruct (next_fate s) as [s' []]; exact N. Qed.
Lemma disk_rd key s : disk_files (fst (p_read disk_policy key s)) = disk_files s.
Proof.
  cbn [p_read disk_policy]. unfold disk_read. apply (@keeps_bind _ disk_files); [intros t; apply access_files|]. intros []; [|intros t; reflexivity].
  cbn [negb]. apply (@keeps_bind _ disk_files); [|intros b t; reflexivity]. unfold read_file.
  repeat (apply (@keeps_bind _ disk_files); [intros t; apply access_files|intros _]). intros t; apply access_files.
Qed.
Lemma disk_ex key s : disk_files (fst (p_exists disk_policy key s)) = disk_files s.
Proof. apply access_files. Qed.
Lemma disk_rm key s k : k <> key -> disk_files (fst (p_remove disk_policy key s)) k = disk_files s k.
Proof.
  intros N. cbn [p_remove disk_policy]. unfold disk_remove. rewrite <- (next_files s). destruct (next_fate s) as [s' []]; cbn [fst put_file disk_files]; auto; now apply set_key_off.
Qed.
Lemma disk_er key s k : k <> key -> disk_files (fst (p_erase disk_policy key s)) k = disk_files s k.
Proof.
  intros N. cbn [p_erase disk_policy]. unfold disk_erase. revert N. apply (@frames_bind _ disk_files).
  - apply keeps_frames. intros t. apply access_files.
  - intros [] t k' N; [now apply disk_rm|]. cbn. now apply set_key_off.
Qed.
Lemma disk_wr kc key b s k : k <> key -> disk_files (fst (p_write disk_policy kc key b s)) k = disk_files s k.
Proof.
  assert (W : frames disk_files key (write_file key b)).
  { unfold write_file. apply frames_bind; [apply keeps_frames; intros t; apply access_files|]. intros _ t k' N.
    rewrite <- (next_files t). destruct (next_fate t) as [t1 f1]. cbn [fst]. rewrite <- (next_files t1).
    destruct f1; cbn [fst put_file disk_files]; destruct (next_fate t1) as [t2 []] eqn:E; cbn [fst put_file disk_files]; try now apply set_key_off.
    all: rewrite set_key_off by exact N; pose proof (next_files t1) as X; rewrite E in X; cbn [fst] in X; now rewrite X. }
  intros N. cbn [p_write disk_policy]. unfold disk_write. destruct (_ && _).
  - destruct (slash_in key); [reflexivity|now apply W].
  - revert N. apply (@frames_bind _ disk_files); [apply keeps_frames; intros t; apply access_files|]. intros _. exact W.
Qed.

Lemma unit_result key A (a1 : act store A) a2 s : unit_call key a1 a2 -> saves_all s ->
  let '(s', r) := a2 s in let '(st1, r1) := a1 (disk_files s) in
  (r = r1 /\ disk_files s' = st1) \/ (exists e, disk_error e /\ r = Throw e /\ interrupted [key] (disk_files s) st1 (disk_files s')).
Proof.
  intros H Hs. specialize (H s Hs). destruct (a2 s) as [s' r], (a1 (disk_files s)) as [st1 r1]. cbn [fst snd] in H.
  destruct H as [(X & Y & _)|(e & De & E & F & T)]; [left; auto|]. right. exists e. split; [exact De|]. split; [exact E|]. now apply torn_interrupted.
Qed.

Theorem chunk_write_failure d ids c s : changes_chunk ids c -> saves_all s ->
  let '(s', r) := call disk_policy d c s in let '(st1, r1) := fs_call d c (disk_files s) in
  (r = r1 /\ disk_files s' = st1) \/
  (exists e, disk_error e /\ r = Throw e /\ interrupted [chunk_key (d_key d) ids] (disk_files s) st1 (disk_files s')).
Proof.
  intros Hc Hs. rewrite <- fs_call_eq. apply unit_result; [|exact Hs].
  destruct c; cbn [changes_chunk] in Hc; try contradiction; subst; cbn [call]; apply unit_map; auto using unit_write_chunk, unit_remove_chunk.
Qed.
Theorem chunk_write_frame d ids c s k : changes_chunk ids c -> k <> chunk_key (d_key d) ids ->
  disk_files (fst (call disk_policy d c s)) k = disk_files s k.
Proof.
  intros Hc N. destruct c; cbn [changes_chunk] in Hc; try contradiction; subst; cbn [call]; unfold amap; cbn [fst].
  - apply (@frames_write_chunk _ disk_files disk_policy disk_wr disk_er d ids data false 0 s k N).
  - apply (@frames_write_chunk _ disk_files disk_policy disk_wr disk_er d ids data true n s k N).
  - apply (@frames_remove_chunk _ disk_files disk_policy disk_rm d ids s k N).
Qed.

(** ** A disk without failures *)
Definition calm (st : store) (s : disk) : Prop := all_works s /\ disk_files s = st.
Notation relC := (rel calm (fun _ => False) (fun _ => True)).

Lemma next_works s : all_works s -> all_works (fst (next_fate s)) /\ snd (next_fate s) = Works.
Proof.
  unfold all_works, next_fate. destruct (disk_fates s) as [|f r] eqn:E; cbn [fst snd disk_fates]; [rewrite E; auto|].
  intros H. inversion H; subst; auto.
Qed.
Lemma access_calm A e (an : store -> A) : relC (fun st => (st, Ok (an st))) (access e an).
Proof.
  intros st s [W <-]. left. unfold access. destruct (next_works W) as [W' F]. pose proof (next_files s) as N.
  destruct (next_fate s) as [s' f]. cbn [fst snd] in *. subst f. cbn [fst snd]. unfold calm. now rewrite N.
Qed.
Lemma calm_eq A (a1 a1' : act store A) (a2 : act disk A) : (forall st, a1 st = a1' st) -> relC a1 a2 -> relC a1' a2.
Proof. intros E H st s Hs. rewrite <- E. now apply H. Qed.
Lemma exists_calm key : relC (p_exists fs_policy key) (p_exists disk_policy key).
Proof. apply access_calm. Qed.
Lemma read_calm key : relC (p_read fs_policy key) (p_read disk_policy key).
Proof.
  cbn [p_read fs_policy disk_policy]. unfold disk_read, read_file.
  apply (@calm_eq _ (abind (fun st => (st, Ok (match st key with None => false | Some _ => true end)))
    (fun ex => if negb ex then aret (Ok None) else
       abind (abind (fun st => (st, Ok tt)) (fun _ => abind (fun st => (st, Ok tt)) (fun _ => fun st => (st, Ok (match st key with None => [] | Some b => b end)))))
         (fun b => aret (Ok (Some b)))))).
  { intros st. unfold abind, aret, store_read. destruct (st key) eqn:E; cbn [negb]; [rewrite E|]; reflexivity. }
  apply rel_bind; [apply exists_calm|]. intros []; cbn [negb]; [|apply rel_ret].
  apply rel_bind; [|intros b; apply rel_ret].
  apply rel_bind; [apply access_calm|intros _]. apply rel_bind; [apply access_calm|intros _]. apply access_calm.
Qed.
Lemma remove_calm key : relC (p_remove fs_policy key) (p_remove disk_policy key).
Proof.
  intros st s [W <-]. left. cbn [p_remove fs_policy disk_policy]. unfold disk_remove, store_erase. destruct (next_works W) as [W' F]. pose proof (next_files s) as N.
  destruct (next_fate s) as [s' f]. cbn [fst snd] in *. subst f. cbn [fst snd]. unfold calm, put_file. cbn [disk_files]. now rewrite N.
Qed.
Lemma erase_calm key : relC (p_erase fs_policy key) (p_erase disk_policy key).
Proof.
  cbn [p_erase fs_policy disk_policy]. unfold disk_erase.
  apply (@calm_eq _ (abind (p_exists fs_policy key) (fun _ => store_erase key))); [reflexivity|].
  apply rel_bind; [apply exists_calm|]. intros []; [apply remove_calm|]. intros st s [W <-]. left. split; [split; [exact W|reflexivity]|reflexivity].
Qed.
Lemma write_file_calm key b : relC (fun st => (set_key st key (Some b), Ok tt)) (write_file key b).
Proof.
  unfold write_file. apply (@calm_eq _ (abind (fun st => (st, Ok tt)) (fun _ st => (set_key st key (Some b), Ok tt)))); [reflexivity|].
  apply rel_bind; [apply access_calm|intros _]. intros st s [W <-]. left. destruct (next_works W) as [W' F]. pose proof (next_files s) as N.
  destruct (next_fate s) as [s' f]. cbn [fst snd] in *. subst f. destruct (next_works W') as [W'' F']. pose proof (next_files s') as N'.
  destruct (next_fate s') as [s'' f']. cbn [fst snd] in *. subst f'. cbn [fst snd]. unfold calm, put_file. cbn [disk_files]. now rewrite N', N.
Qed.
Lemma write_calm k key b : relC (p_write fs_policy k key b) (p_write disk_policy k key b).
Proof.
  cbn [p_write fs_policy disk_policy]. unfold store_write, disk_write. destruct (k_zarr k && negb (String.eqb (k_delim k) "/")); cbn [andb].
  - destruct (slash_in key); [apply (@rel_ret _ _ calm (fun _ => False) (fun _ => True) unit (Throw ERuntime))|apply write_file_calm].
  - apply (@calm_eq _ (abind (fun st => (st, Ok tt)) (fun _ st => (set_key st key (Some b), Ok tt)))); [reflexivity|].
    apply rel_bind; [apply access_calm|intros _; apply write_file_calm].
Qed.

Theorem calm_call d c s : all_works s ->
  let '(s', r) := call disk_policy d c s in (disk_files s', r) = fs_call d c (disk_files s).
Proof.
  intros W. rewrite <- fs_call_eq.
  destruct (@rel_call _ _ calm (fun _ => False) (fun _ => True) fs_policy disk_policy (d_key d) (fun ids => read_calm _) (fun ids b => write_calm _ _ _)
    (fun ids => erase_calm _) (fun ids => remove_calm _) d eq_refl (fun ids => exists_calm _) c (disk_files s) s (conj W eq_refl)) as [[[_ E1] E2]|(? & [] & _)].
  destruct (call disk_policy d c s) as [s' r], (call fs_policy d c (disk_files s)) as [st1 r1]. cbn [fst snd] in *. now subst.
Qed.
Theorem calm_sh_call sd c s : all_works s ->
  let '(s', r) := sh_call disk_policy sd c s in (disk_files s', r) = fs_sh_call sd c (disk_files s).
Proof.
  intros W. rewrite <- fs_sh_call_eq.
  destruct (@rel_sh_call _ _ calm (fun _ => False) (fun _ => True) fs_policy disk_policy (d_key (sd_base sd)) (fun ids => read_calm _) (fun ids b => write_calm _ _ _)
    (fun ids => erase_calm _) (fun ids => remove_calm _) sd eq_refl c (disk_files s) s (conj W eq_refl)) as [[[_ E1] E2]|(? & [] & _)].
  destruct (sh_call disk_policy sd c s) as [s' r], (sh_call fs_policy sd c (disk_files s)) as [st1 r1]. cbn [fst snd] in *. now subst.
Qed.

(** ** Arrays *)
Section Plain.
Variable d : dataset.
Hypothesis ok : dataset_ok d.
Notation s := (d_shape d).
Notation b := (d_chunks d).
Notation valid := (valid_chunk (d_shape d) (d_chunks d)).
Notation key := (chunk_key (d_key d)).

Theorem array_write_failure src off n t : region_ok d off n -> saves_all t ->
  let '(t', r) := call disk_policy d (KWriteArray src off n) t in let '(st1, r1) := fs_call d (KWriteArray src off n) (disk_files t) in
  (r = r1 /\ disk_files t' = st1) \/
  (exists e, disk_error e /\ r = Throw e /\ exists cs, StronglySorted lex_lt cs /\ (forall c, In c cs <-> overlaps s b off n c) /\
     interrupted (map key cs) (disk_files t) st1 (disk_files t')).
Proof.
  intros Hr Ht. rewrite <- fs_call_eq. destruct (begin_request_sorted ok Hr) as (l & E & ND & _ & HI & SO).
  cbn [call]. unfold amap, g_write_request. unfold abind, aret. rewrite E.
  pose proof (@fold_units _ _ (g_write_unit fs_policy d src off n) (g_write_unit disk_policy d src off n) key l) as FU.
  assert (NK : NoDup (map key l)). { apply FinFun.Injective_map_NoDup; [intros c c'; apply (key_inj ok)|exact ND]. }
  specialize (FU (fun x b0 _ => unit_write_unit d src off n b0 x)
    (fun x b0 _ => @frames_write_unit _ (fun st => st) fs_policy (fun _ _ => eq_refl) (fun _ _ => eq_refl) fs_wr fs_er d src off n b0 x) NK
    (repeat (d_fill d) (N.to_nat (prodw b))) t Ht).
  destruct (afold (g_write_unit fs_policy d src off n) l _ (disk_files t)) as [t1 r1], (afold (g_write_unit disk_policy d src off n) l _ t) as [t2 r2].
  cbn [fst snd] in FU. destruct FU as [[X ->]|(e & De & -> & I)]; [left; destruct r1; auto|].
  right. exists e. split; [exact De|]. split; [reflexivity|]. exists l. split; [exact SO|]. split; [exact HI|]. destruct r1; exact I.
Qed.

Theorem array_write_frame src off n t k : region_ok d off n -> (forall c, overlaps s b off n c -> k <> key c) ->
  disk_files (fst (call disk_policy d (KWriteArray src off n) t)) k = disk_files t k.
Proof.
  intros Hr Hk. destruct (begin_request_sorted ok Hr) as (l & E & ND & _ & HI & SO).
  cbn [call]. unfold amap, g_write_request. unfold abind, aret. rewrite E.
  pose proof (@fold_frames _ disk_files _ _ (g_write_unit disk_policy d src off n) key l
    (fun x b0 _ => @frames_write_unit _ disk_files disk_policy disk_rd disk_ex disk_wr disk_er d src off n b0 x)
    (repeat (d_fill d) (N.to_nat (prodw b))) t k) as F.
  destruct (afold (g_write_unit disk_policy d src off n) l _ t) as [t2 r2]. cbn [fst] in *.
  assert (~ In k (map key l)) as Nk. { intros Hi. apply in_map_iff in Hi as (c & <- & Hc). apply (Hk c); [now apply HI|reflexivity]. }
  specialize (F Nk). destruct r2; exact F.
Qed.

(** What readers see after a failing write. *)
Theorem array_after_failure ops src off n st t t' e : can_write (d_mode d) = true -> Forall (array_op_ok d) ops ->
  array_op_ok d (AWrite off n src) -> (forall c, valid c -> st (key c) = None) ->
  run_array_ops d ops st = (disk_files t, Ok tt) -> saves_all t ->
  call disk_policy d (KWriteArray src off n) t = (t', Throw e) ->
  exists (fresh : shape -> bool) (cut : option shape),
    (forall c, cut = Some c -> overlaps s b off n c) /\ (forall c, fresh c = true -> overlaps s b off n c) /\
    forall ov off' out, region_ok d off' (v_shape ov) -> out_view_ok ov (lenN out) ->
      (forall c, cut = Some c -> ~ overlaps s b off' (v_shape ov) c) ->
      exists out', read_subarray d (disk_files t') ov off' out = Ok out' /\ lenN out' = lenN out /\
        forall i, in_shape (v_shape ov) i -> exists v,
          let expected := apply_ops d (ops ++ if fresh (chunk_of b (vadd off' i)) then [AWrite off n src] else [])
                            (fun _ => d_fill d) (vadd off' i) in
          getN out' (v_off ov + lin (v_strides ov) i) = Ok v /\ same_value d v expected /\
          (t_float (d_type d) = false -> v = expected).
Proof.
  intros Hm Hops Hop Hst Hrun Ht E. apply (@interrupted_array d ok ops src off n st (disk_files t) (disk_files t') Hm Hops Hop Hst Hrun).
  destruct (run_array_ops_spec ok Hm Hops (holds_empty Hst) (@represents_empty d)) as (st1' & C & E1 & HO & HR & _).
  rewrite Hrun in E1. injection E1 as <-.
  destruct (run_array_op_spec ok (o := AWrite off n src) Hm Hop HO HR) as (st3 & C' & E2 & _). cbn [run_array_op] in E2.
  pose proof (@array_write_failure src off n t (proj1 Hop) Ht) as F. rewrite E in F. cbn [fs_call] in F. unfold amap in F. rewrite E2 in F. cbn [fst snd omap bind] in F.
  destruct F as [[X _]|(e' & _ & _ & cs & F)]; [discriminate X|]. exists cs. rewrite E2. exact F.
Qed.

(** *** Repeating the write *)
Lemma replaced_prepare off n c src rd rd' buf : region_ok d off n -> overlaps s b off n c -> replaced d off n c ->
  prepare_chunk d off n c src rd buf = prepare_chunk d off n c src rd' buf.
Proof.
  intros Hreg Hov [H1 H2]. pose proof (overlaps_valid Hov) as Hc.
  destruct (coords_in_roi_exact (do_dims ok) (proj1 Hreg) (proj2 Hreg) Hov) as (r & Er & R).
  unfold prepare_chunk. rewrite Er. cbn [bind]. rewrite (chunk_shape_ok ok Hc). cbn [bind].
  rewrite (proj2 (re_complete R) H1). cbn [andb].
  destruct (d_zarr d) eqn:Z; [|rewrite andb_false_r; reflexivity]. rewrite (H2 eq_refl), N.eqb_refl. reflexivity.
Qed.

Lemma replaced_unit src off n c buf st st' : region_ok d off n -> overlaps s b off n c -> replaced d off n c ->
  snd (write_unit d src off n buf c st) = snd (write_unit d src off n buf c st') /\
  (forall e, snd (write_unit d src off n buf c st) = Ok e -> fst (write_unit d src off n buf c st) (key c) = fst (write_unit d src off n buf c st') (key c)).
Proof.
  intros Hreg Hov HR. unfold write_unit, sbind, reading. rewrite (@replaced_prepare off n c src (plain_existing d st c) (plain_existing d st' c) buf) by assumption.
  destruct (prepare_chunk _ _ _ _ _ _ _) as [buf'|e|]; cbn [fst snd]; [|split; [reflexivity|discriminate]..].
  unfold write_chunk. destruct (negb _); [cbn; split; [reflexivity|discriminate]|]. unfold sbind, pure. rewrite (handle_ok ok (overlaps_valid Hov)).
  destruct (check_chunk _ _ _) as [u|e|]; cbn [fst snd]; [|split; [reflexivity|discriminate]..].
  destruct (data_to_buffer _ _ _ _ _ _ _ _ _) as [[v|]|e|]; cbn [fst snd ch_key]; [| |split; [reflexivity|discriminate]..].
  - unfold store_write. destruct (_ && _); [cbn; split; [reflexivity|discriminate]|]. cbn [fst snd]. split; [reflexivity|]. intros _ _. now rewrite !set_key_at.
  - cbn. split; [reflexivity|]. intros _ _. now rewrite !set_key_at.
Qed.

Lemma unit_frame_fs src off n c buf st k : k <> key c -> fst (write_unit d src off n buf c st) k = st k.
Proof.
  intros N. rewrite <- fs_write_unit.
  exact (@frames_write_unit _ (fun st => st) fs_policy (fun _ _ => eq_refl) (fun _ _ => eq_refl) fs_wr fs_er d src off n buf c st k N).
Qed.

Lemma replaced_fold src off n l : region_ok d off n -> NoDup (map key l) -> (forall c, In c l -> overlaps s b off n c /\ replaced d off n c) ->
  forall buf st st' st1 r1 st2 r2, (forall k, ~ In k (map key l) -> st k = st' k) ->
  foldS (write_unit d src off n) l buf st = (st1, r1) -> foldS (write_unit d src off n) l buf st' = (st2, r2) ->
  r1 = r2 /\ (forall x, r1 = Ok x -> forall k, st1 k = st2 k).
Proof.
  intros Hreg. induction l as [|c l IH]; intros ND Hl buf st st' st1 r1 st2 r2 Hk; cbn [foldS map] in *.
  - intros [= <- <-] [= <- <-]. split; [reflexivity|]. intros _ _ k. apply Hk. tauto.
  - inversion ND as [|? ? NI ND']; subst. destruct (Hl c (or_introl eq_refl)) as [Ho HR].
    destruct (@replaced_unit src off n c buf st st' Hreg Ho HR) as [E F].
    pose proof (@unit_frame_fs src off n c buf st) as F1. pose proof (@unit_frame_fs src off n c buf st') as F2.
    unfold sbind. destruct (write_unit d src off n buf c st) as [t1 o1], (write_unit d src off n buf c st') as [t2 o2]. cbn [fst snd] in *. subst o2.
    destruct o1 as [buf'|e|]; [|intros [= <- <-] [= <- <-]; split; [reflexivity|discriminate]..].
    apply IH; [exact ND'|intros c' Hc'; apply Hl; now right|].
    intros k Nk. destruct (string_dec k (key c)) as [->|Ne]; [now apply F with (e := buf')|]. rewrite F1, F2 by exact Ne. apply Hk. intros [Ek|Hi]; [now apply Ne|auto].
Qed.

Theorem repeated src off n st st' : region_ok d off n -> (forall c, overlaps s b off n c -> replaced d off n c) ->
  (forall k, (forall c, overlaps s b off n c -> k <> key c) -> st k = st' k) ->
  snd (write_request d src off n st) = snd (write_request d src off n st') /\
  (snd (write_request d src off n st) = Ok tt -> forall k, fst (write_request d src off n st) k = fst (write_request d src off n st') k).
Proof.
  intros Hr HR Hk. destruct (begin_request_sorted ok Hr) as (l & E & ND & _ & HI & SO). unfold write_request, sbind, pure. rewrite E. unfold write_plain, sbind.
  assert (NK : NoDup (map key l)). { apply FinFun.Injective_map_NoDup; [intros c c'; apply (key_inj ok)|exact ND]. }
  destruct (foldS _ l _ st) as [st1 r1] eqn:E1, (foldS _ l _ st') as [st2 r2] eqn:E2.
  destruct (@replaced_fold src off n l Hr NK (fun c Hc => conj (proj1 (HI c) Hc) (HR c (proj1 (HI c) Hc))) _ _ _ _ _ _ _
    (fun k Nk => Hk k (fun c Ho => fun Ek => Nk (eq_ind_r (fun k => In k (map key l)) (in_map key l c (proj2 (HI c) Ho)) Ek))) E1 E2) as [X Y].
  subst r2. destruct r1; cbn; split; auto; try discriminate. intros _. now apply Y with (x := a).
Qed.

(** An interrupted write can be repeated. *)
Theorem interrupted_repeated cs src off n st st' : region_ok d off n -> (forall c, overlaps s b off n c -> replaced d off n c) ->
  (forall c, In c cs <-> overlaps s b off n c) -> interrupted (map key cs) st (fst (write_request d src off n st)) st' ->
  snd (write_request d src off n st') = snd (write_request d src off n st) /\
  (snd (write_request d src off n st) = Ok tt -> forall k, fst (write_request d src off n st') k = fst (write_request d src off n st) k).
Proof.
  intros Hr HR HI I. destruct (@repeated src off n st st' Hr HR) as [X Y].
  - intros k Hk. destruct I as (be & cu & af & _ & _ & _ & _ & _ & I). symmetry. apply I. intros Hi. apply in_map_iff in Hi as (c & <- & Hc).
    apply (Hk c); [now apply HI|reflexivity].
  - split; [now symmetry|]. intros H k. symmetry. now apply Y.
Qed.
Theorem crash_repeated src off n st st' : region_ok d off n -> (forall c, overlaps s b off n c -> replaced d off n c) ->
  write_crash d src off n st st' ->
  snd (write_request d src off n st') = snd (write_request d src off n st) /\
  (snd (write_request d src off n st) = Ok tt -> forall k, fst (write_request d src off n st') k = fst (write_request d src off n st) k).
Proof. intros Hr HR HC. destruct (crash_files ok Hr HC) as (cs & _ & HI & I). now apply interrupted_repeated with (cs := cs). Qed.
Theorem failure_repeated src off n t t' r : region_ok d off n -> (forall c, overlaps s b off n c -> replaced d off n c) ->
  call disk_policy d (KWriteArray src off n) t = (t', r) ->
  snd (write_request d src off n (disk_files t')) = snd (write_request d src off n (disk_files t)) /\
  (snd (write_request d src off n (disk_files t)) = Ok tt ->
   forall k, fst (write_request d src off n (disk_files t')) k = fst (write_request d src off n (disk_files t)) k).
Proof.
  intros Hr HR E. pose proof (@array_write_frame src off n t) as F. rewrite E in F. cbn [fst] in F.
  destruct (@repeated src off n (disk_files t) (disk_files t') Hr HR) as [X Y]; [intros k Hk; symmetry; now apply F|].
  split; [now symmetry|]. intros H k. symmetry. now apply Y.
Qed.
End Plain.

(** ** Sharded datasets *)
Section Sharded.
Variable sd : sharded.
Hypothesis sok : sharded_ok sd.
Notation d := (sd_base sd).
Notation s := (d_shape (sd_base sd)).
Notation b := (d_chunks (sd_base sd)).
Notation cps := (sd_cps sd).
Notation ok := (so_base sok).
Notation key := (chunk_key (d_key (sd_base sd))).

Theorem sh_chunk_write_failure ids c t : changes_chunk ids c -> List.length ids = List.length b -> saves_all t ->
  let '(t', r) := sh_call disk_policy sd c t in let '(st1, r1) := fs_sh_call sd c (disk_files t) in
  (r = r1 /\ disk_files t' = st1) \/
  (exists e, disk_error e /\ r = Throw e /\ interrupted [key (shard_of cps ids)] (disk_files t) st1 (disk_files t')).
Proof using sok.
  intros Hc L Hs. rewrite <- fs_sh_call_eq. apply unit_result; [|exact Hs].
  assert (Eid : shard_id ids cps = Ok (shard_of cps ids)) by (apply shard_id_spec; [apply (cps_pos sok)|rewrite (cps_len sok); exact L]).
  destruct c; cbn [changes_chunk] in Hc; try contradiction; subst; cbn [sh_call]; apply unit_map; [apply unit_sh_write|apply unit_sh_write|apply unit_inner]; exact Eid.
Qed.
Theorem sh_chunk_write_frame ids c t k : changes_chunk ids c -> List.length ids = List.length b -> k <> key (shard_of cps ids) ->
  disk_files (fst (sh_call disk_policy sd c t)) k = disk_files t k.
Proof using sok.
  intros Hc L N.
  assert (Eid : shard_id ids cps = Ok (shard_of cps ids)) by (apply shard_id_spec; [apply (cps_pos sok)|rewrite (cps_len sok); exact L]).
  pose proof (fun bl => @frames_inner _ disk_files disk_policy disk_rd disk_wr disk_er sd ids _ bl Eid) as F.
  assert (W : forall data vl, frames disk_files (key (shard_of cps ids)) (g_sh_write_chunk disk_policy sd ids data vl)).
  { intros data vl. unfold g_sh_write_chunk. destruct (negb _); [apply frames_ret|]. apply frames_bind_ret. intros h _. apply frames_bind_ret. intros bl _.
    destruct (negb _); [apply frames_ret|]. destruct vl; [apply frames_ret|]. apply frames_bind_ret. intros x _. apply F. }
  destruct c; cbn [changes_chunk] in Hc; try contradiction; subst; cbn [sh_call]; unfold amap; cbn [fst]; [now apply W|now apply W|now apply F].
Qed.

Theorem sh_array_write_failure src off n t : region_ok d off n -> saves_all t ->
  let '(t', r) := sh_call disk_policy sd (KWriteArray src off n) t in let '(st1, r1) := fs_sh_call sd (KWriteArray src off n) (disk_files t) in
  (r = r1 /\ disk_files t' = st1) \/
  (exists e, disk_error e /\ r = Throw e /\ exists ks, NoDup ks /\
     (forall k, In k ks <-> exists c, overlaps s b off n c /\ shard_of cps c = k) /\
     interrupted (map key ks) (disk_files t) st1 (disk_files t')).
Proof using sok.
  intros Hr Ht. rewrite <- fs_sh_call_eq. destruct (request_groups sok Hr) as (reqs & gs & E1 & E2 & E3 & HG & ND1 & HM & ND).
  cbn [sh_call]. unfold amap, g_sh_write_request. unfold abind, aret. rewrite E1. destruct (negb _); [left; auto|]. rewrite E2, E3.
  pose proof (@fold_units _ _ (g_shard_write_unit fs_policy sd src off n) (g_shard_write_unit disk_policy sd src off n) (fun g => key (fst g)) gs) as FU.
  assert (NK : NoDup (map (fun g => key (fst g)) gs)).
  { rewrite <- (map_map fst key). apply FinFun.Injective_map_NoDup; [intros c c'; apply (key_inj ok)|exact ND]. }
  specialize (FU (fun x b0 _ => unit_shard_unit sd src off n b0 x)
    (fun x b0 _ => @frames_shard_unit _ (fun st => st) fs_policy (fun _ _ => eq_refl) fs_wr fs_er sd src off n b0 x) NK
    (repeat (d_fill d) (N.to_nat (prodw b))) t Ht).
  destruct (afold (g_shard_write_unit fs_policy sd src off n) gs _ (disk_files t)) as [t1 r1], (afold (g_shard_write_unit disk_policy sd src off n) gs _ t) as [t2 r2].
  cbn [fst snd] in FU. destruct FU as [[X ->]|(e & De & -> & I)]; [left; destruct r1; auto|].
  right. exists e. split; [exact De|]. split; [reflexivity|]. exists (map fst gs). split; [exact ND|]. split.
  { intros k. split.
    - intros Hk. apply in_map_iff in Hk as ([k' cs] & <- & Hg). destruct (HG _ _ Hg) as [NE HO]. destruct cs as [|c cs]; [congruence|].
      exists c. apply HO. now left.
    - intros (c & Ho & <-). apply HM in Ho. apply in_concat in Ho as (cs & Hcs & Hc). apply in_map_iff in Hcs as ([k cs'] & <- & Hg).
      destruct (HG _ _ Hg) as [_ HO]. destruct (HO c Hc) as [_ ->]. apply in_map_iff. exists (k, cs'). auto. }
  rewrite map_map. destruct r1; exact I.
Qed.
Theorem sh_array_write_frame src off n t k : region_ok d off n -> (forall c, overlaps s b off n c -> k <> key (shard_of cps c)) ->
  disk_files (fst (sh_call disk_policy sd (KWriteArray src off n) t)) k = disk_files t k.
Proof using sok.
  intros Hr Hk. destruct (request_groups sok Hr) as (reqs & gs & E1 & E2 & E3 & HG & ND1 & HM & ND).
  cbn [sh_call]. unfold amap, g_sh_write_request. unfold abind, aret. rewrite E1. destruct (negb _); [reflexivity|]. rewrite E2, E3.
  pose proof (@fold_frames _ disk_files _ _ (g_shard_write_unit disk_policy sd src off n) (fun g => key (fst g)) gs
    (fun x b0 _ => @frames_shard_unit _ disk_files disk_policy disk_rd disk_wr disk_er sd src off n b0 x)
    (repeat (d_fill d) (N.to_nat (prodw b))) t k) as F.
  destruct (afold (g_shard_write_unit disk_policy sd src off n) gs _ t) as [t2 r2]. cbn [fst] in *.
  assert (~ In k (map (fun g => key (fst g)) gs)) as Nk.
  { intros Hi. apply in_map_iff in Hi as ([k' cs] & <- & Hg). destruct (HG _ _ Hg) as [NE HO]. destruct cs as [|c cs]; [congruence|].
    destruct (HO c (or_introl eq_refl)) as [Ho <-]. now apply (Hk c Ho). }
  specialize (F Nk). destruct r2; exact F.
Qed.
End Sharded.
