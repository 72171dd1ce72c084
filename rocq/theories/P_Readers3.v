(** Readers of a dataset without shards that another client changes. *)
From Coq Require Import String.
From Verif Require Import M_Base M_Text M_Key M_Blocking M_View M_Bytes M_N5Header M_Format
  M_Mode M_Shard M_Dataset M_Sharded M_Access M_Pool M_Parallel M_Lock M_Clients M_RemoveCrash
  S_Array S_Grid S_Bytes S_Text S_Format S_Shard S_Dataset S_Sharded S_Access S_File S_Pool S_Parallel S_Lock S_Clients S_Readers
  P_Base P_Blocking P_Roi P_View P_Bytes P_Key P_Format P_Shard P_Dataset P_Access P_Read P_History P_Sharded P_File P_Pool
  P_Foreach P_Parallel P_ParWrite P_ParHistory P_Lock P_Clients P_Clients2 P_Readers.
Import List ListNotations.
Local Open Scope list_scope.
Local Open Scope N_scope.
Local Notation length := List.length.

(** ** Code that leaves the files alone *)
Inductive harmless : code -> Prop :=
| hl_ret o : harmless (Ret o)
| hl_act f : (forall m, fst (fst (f m)) = fst m) -> (forall m, harmless (snd (f m))) -> harmless (Act f).

Definition bytes_of (f : option bytes) : bytes := match f with None => [] | Some v => v end.

(** ** Code that looks whether a file exists and then, if it does, at its bytes, for
    each file at most once *)
Inductive looks : list string -> code -> Prop :=
| lk_ret ks o : looks ks (Ret o)
| lk_out ks f g p : (forall m, f m = ((fst m, g (snd m)), p)) -> looks ks p -> looks ks (Act f)
| lk_twice k ks f p q g : (forall m, f m = (m, p (fst m k))) -> looks ks (p None) -> (forall v, p (Some v) = Act g) ->
    (forall m, g m = (m, q (bytes_of (fst m k)))) -> (forall v, looks ks (q v)) -> looks (k :: ks) (Act f)
| lk_skip k ks p : looks ks p -> looks (k :: ks) p.

Lemma looks_harmless ks p : looks ks p -> harmless p.
Proof.
  induction 1 as [ks o|ks f g p Hf _ IH|k ks f p q g Hf _ IH0 Hp Hg _ IH|k ks p _ IH]; [constructor| | |exact IH].
  - constructor; intros m; rewrite Hf; cbn; auto.
  - constructor; intros m; rewrite Hf; cbn [fst snd]; [reflexivity|]. destruct (fst m k) as [v|]; [|exact IH0].
    rewrite Hp. constructor; intros m'; rewrite Hg; cbn [fst snd]; auto.
Qed.
Lemma harmless_files p m m' : halted p m m' -> harmless p -> fst m' = fst m.
Proof.
  induction 1 as [p m|f m m' _ IH]; intros H; [reflexivity|]. inversion H as [|f' H1 H2]; subst. rewrite IH by apply H2. apply H1.
Qed.

Lemma looks_skip ks1 ks2 p : looks ks2 p -> looks (ks1 ++ ks2) p.
Proof. induction ks1; cbn; [auto|]. intros H. apply lk_skip. auto. Qed.
Lemma looks_bind ks1 ks2 p k : looks ks1 p -> (forall b, looks ks2 (k b)) -> looks (ks1 ++ ks2) (pbind p k).
Proof.
  intros H Hk. induction H as [ks o|ks f g p Hf _ IH|k0 ks f p q g Hf _ IH0 Hp Hg _ IH|k0 ks p _ IH].
  - destruct o; cbn; [now apply looks_skip|apply lk_ret|apply lk_ret].
  - cbn. eapply lk_out with (g := g); [|exact IH]. intros m. now rewrite Hf.
  - cbn. eapply lk_twice with (p := fun v => pbind (p v) k) (q := fun v => pbind (q v) k)
      (g := fun m => let (m', p') := g m in (m', pbind p' k)).
    + intros m. now rewrite Hf.
    + exact IH0.
    + intros v. now rewrite Hp.
    + intros m. now rewrite Hg.
    + exact IH.
  - cbn. now apply lk_skip.
Qed.
Lemma looks_plet A ks (o : outcome A) k : (forall a, o = Ok a -> looks ks (k a)) -> looks ks (plet o k).
Proof. destruct o; cbn; intros H; [now apply H|apply lk_ret|apply lk_ret]. Qed.
Lemma looks_pout ks a v k : looks ks k -> looks ks (pout a v k).
Proof. intros H. apply lk_out with (g := fun o a' => if N.eqb a' a then v else o a') (p := k); [reflexivity|exact H]. Qed.
Lemma looks_pcopy ks size src sv dv k : looks ks k -> forall idx, looks ks (pcopy size src sv dv idx k).
Proof.
  intros H idx. induction idx as [|i r IH]; cbn [pcopy]; [exact H|]. apply looks_plet. intros v _.
  destruct (_ <? _)%N; [now apply looks_pout|apply lk_ret].
Qed.
Lemma looks_pfill ks size dv v k : looks ks k -> forall idx, looks ks (pfill size dv v idx k).
Proof.
  intros H idx. induction idx as [|i r IH]; cbn [pfill]; [exact H|].
  destruct (_ <? _)%N; [now apply looks_pout|apply lk_ret].
Qed.
Lemma looks_batch A (key : A -> string) (f : A -> list cell -> code) us :
  (forall u b, In u us -> looks [key u] (f u b)) -> forall b, looks (map key us) (batch_prog (fun _ => f) 0 us b).
Proof.
  induction us as [|u us IH]; intros Hu b; cbn [batch_prog map]; [apply lk_ret|].
  apply (@looks_bind [key u]); [apply Hu; now left|]. intros b'. apply IH. intros; apply Hu. now right.
Qed.

(** The result is that of one directory, with each file as in some directory of the
    set, or empty if it is missing in one of them and not in another. *)
Lemma seen_looks S ks p : looks ks p -> NoDup ks -> forall o r o', seen S p o (Ret r) o' -> forall mu0,
  exists mu, (forall k, mu k = mu0 k \/ (exists st, S st /\ mu k = st k) \/
      (mu k = Some [] /\ exists st st', S st /\ S st' /\ st k <> None /\ st' k = None)) /\
    (forall k, ~ In k ks -> mu k = mu0 k) /\ run p (mu, o) = ((mu, o'), r).
Proof.
  induction 1 as [ks r0|ks f g p Hf _ IH|k0 ks f p q g Hf _ IH0 Hp Hg _ IH|k0 ks p _ IH]; intros ND o r o' H mu0.
  - inversion H; subst. exists mu0. split; [auto|]. split; [auto|reflexivity].
  - inversion H as [|f' o1 st p' o2 Hs H']; subst. rewrite Hf in H'. cbn [fst snd] in H'.
    destruct (IH ND _ _ _ H' mu0) as (mu & M1 & M2 & R). exists mu. split; [exact M1|]. split; [exact M2|].
    cbn. rewrite Hf. cbn [fst snd]. exact R.
  - inversion ND as [|? ? N1 N2]; subst.
    inversion H as [|f' o1 st p' o2 Hs H']; subst. rewrite Hf in H'. cbn [fst snd] in H'.
    assert (MK : forall v, ((exists st, S st /\ v = st k0) \/ (v = Some [] /\ exists st st', S st /\ S st' /\ st k0 <> None /\ st' k0 = None)) ->
      forall mu, (forall k, mu k = set_key mu0 k0 v k \/ (exists st, S st /\ mu k = st k) \/
          (mu k = Some [] /\ exists st st', S st /\ S st' /\ st k <> None /\ st' k = None)) ->
        (forall k, ~ In k ks -> mu k = set_key mu0 k0 v k) -> mu k0 = v /\
        (forall k, mu k = mu0 k \/ (exists st, S st /\ mu k = st k) \/
          (mu k = Some [] /\ exists st st', S st /\ S st' /\ st k <> None /\ st' k = None)) /\ (forall k, ~ In k (k0 :: ks) -> mu k = mu0 k)).
    { intros v Hv mu M1 M2. assert (V : mu k0 = v) by (rewrite M2 by exact N1; apply set_key_same). split; [exact V|]. split.
      - intros k. destruct (string_dec k k0) as [->|Hk]; [right; rewrite V; exact Hv|].
        destruct (M1 k) as [E|E]; [left|right; exact E]. rewrite E. now apply set_key_other.
      - intros k Hk. rewrite M2 by (intros Hi; apply Hk; now right). apply set_key_other. intros ->. apply Hk. now left. }
    destruct (st k0) as [v|] eqn:E0.
    + rewrite Hp in H'. inversion H' as [|f' o1' st2 p' o2' Hs2 H2]; subst. rewrite Hg in H2. cbn [fst snd] in H2.
      destruct (IH (bytes_of (st2 k0)) N2 _ _ _ H2 (set_key mu0 k0 (Some (bytes_of (st2 k0))))) as (mu & M1 & M2 & R).
      assert (X : (exists st, S st /\ Some (bytes_of (st2 k0)) = st k0) \/
        (Some (bytes_of (st2 k0)) = Some [] /\ exists st st', S st /\ S st' /\ st k0 <> None /\ st' k0 = None)).
      { destruct (st2 k0) as [v2|] eqn:E2; cbn [bytes_of]; [left; exists st2; auto|]. right. split; [reflexivity|].
        exists st, st2. split; [exact Hs|]. split; [exact Hs2|]. split; [congruence|exact E2]. }
      destruct (MK _ X mu M1 M2) as (V & K1 & K2).
      exists mu. split; [exact K1|]. split; [exact K2|]. cbn. rewrite Hf. cbn [fst snd]. rewrite V, Hp.
      cbn. rewrite Hg. cbn [fst snd]. rewrite V. cbn [bytes_of]. exact R.
    + destruct (IH0 N2 _ _ _ H' (set_key mu0 k0 None)) as (mu & M1 & M2 & R).
      destruct (MK None (or_introl (ex_intro _ st (conj Hs (Logic.eq_sym E0)))) mu M1 M2) as (V & K1 & K2).
      exists mu. split; [exact K1|]. split; [exact K2|]. cbn. rewrite Hf. cbn [fst snd]. rewrite V. exact R.
  - inversion ND as [|? ? N1 N2]; subst. destruct (IH N2 _ _ _ H mu0) as (mu & M1 & M2 & R). exists mu.
    split; [exact M1|]. split; [|exact R]. intros k Hk. apply M2. intros Hi. apply Hk. now right.
Qed.

Section Plain.
Variable d : dataset.
Hypothesis ok : dataset_ok d.
Hypothesis Hw : can_write (d_mode d) = true.
Notation w := (t_width (d_type d)).
Notation s := (d_shape d).
Notation b := (d_chunks d).
Notation valid := (valid_chunk (d_shape d) (d_chunks d)).
Notation key := (chunk_key (d_key d)).

Lemma looks_unit size ov off n c bf : valid c -> looks [key c] (read_code d size ov off n c bf).
Proof using ok.
  intros Hc. unfold read_code. apply looks_plet. intros r _. rewrite (handle_ok ok Hc). cbn [plet ch_key].
  unfold chunk_exists, read_raw_chunk, store_read, only. rewrite (handle_ok ok Hc). cbn [bind plet ch_key].
  match goal with |- looks _ (pread _ ?P) => eapply lk_twice with (p := P) (q := fun v => plet (decode_chunk d c v bf) (fun e =>
    pcopy size (fst e) (subview (make_view (snd e)) (r_off_in_chunk r) (r_shape r)) (subview ov (r_off_in_req r) (r_shape r))
          (indices (r_shape r)) (Ret (Ok (fst e))))) end.
  - intros m. reflexivity.
  - cbn [negb]. apply looks_pfill, lk_ret.
  - intros v. reflexivity.
  - intros m. cbn. destruct (fst m (key c)); reflexivity.
  - intros v. apply looks_plet. intros e _. apply looks_pcopy, lk_ret.
Qed.
Lemma looks_call ov off out : region_ok d off (v_shape ov) ->
  looks (map key (reqs_of d off (v_shape ov))) (cb_code (read_call d ov off out)).
Proof using ok.
  intros Hreg. unfold reqs_of. destruct (begin_request_ok ok Hreg) as (l & E & _ & _ & HI). cbn [read_call cb_code]. rewrite E. cbn [plet].
  apply (@looks_batch _ key). intros c bf Hc. apply looks_unit. eapply overlaps_valid, HI, Hc.
Qed.

Lemma touches_chunk c data o : valid c -> touches (key c) (write_chunk_code d c data (Ret o)).
Proof using ok.
  intros Hc. unfold write_chunk_code. destruct (negb _); [apply touches_ret|]. rewrite (handle_ok ok Hc). cbn [plet ch_key].
  apply touches_plet. intros _ _. apply touches_plet. intros [v|] _; [apply touches_write|apply touches_erase].
Qed.
Lemma touches_write_unit src off n c bf : valid c -> touches (key c) (write_unit_code d src off n c bf).
Proof using ok.
  intros Hc. unfold write_unit_code. rewrite (handle_ok ok Hc). cbn [plet ch_key]. apply touches_pread. intros f1. apply touches_pread. intros f2.
  apply touches_plet. intros bf' _. now apply touches_chunk.
Qed.

(** Files while a call is under way. *)
Lemma plain_call_files c m0 m' : client_call_ok d c -> halted (cb_code (plain_body d c)) m0 m' -> forall k,
  (~ In k (pw d c) -> fst m' k = fst m0 k) /\
  (fst m' k = fst m0 k \/ fst m' k = Some [] \/ fst m' k = fst (fst (run (cb_code (plain_body d c)) m0)) k).
Proof using ok Hw.
  intros Hc H k.
  assert (ONE : forall key0 p, touches key0 p -> In key0 (pw d c) -> cb_code (plain_body d c) = p ->
    (~ In k (pw d c) -> fst m' k = fst m0 k) /\
    (fst m' k = fst m0 k \/ fst m' k = Some [] \/ fst m' k = fst (fst (run (cb_code (plain_body d c)) m0)) k)).
  { intros key0 p T Hi E. rewrite E in *. destruct (T _ _ H) as [F V]. split.
    - intros Hn. apply F. intros ->. contradiction.
    - destruct (string_dec k key0) as [->|Hk]; [exact V|left; now apply F]. }
  destruct c as [ov off out|[off n src|c data|c]]; cbn [client_call_ok array_op_ok plain_body] in *.
  - destruct Hc as [Hreg _]. rewrite (harmless_files H (looks_harmless (looks_call out Hreg))). auto.
  - destruct Hc as [Hreg Hsrc]. cbn [pw op_keys]. unfold reqs_of. destruct (begin_request_ok ok Hreg) as (l & E & ND & _ & HI).
    cbn [write_call no_output cb_code] in *. rewrite E in *. cbn [plet] in *.
    apply (@touches_batch _ key (fun u bf => write_unit_code d src off n u bf) l).
    + intros u bf Hu. apply touches_write_unit. eapply overlaps_valid, HI, Hu.
    + apply FinFun.Injective_map_NoDup; [intros x y Ek; now apply (key_inj ok)|exact ND].
    + exact H.
  - destruct Hc as [Hv Hd]. apply (ONE (key c) _ (@touches_chunk c data (Ok []) Hv)); [now left|reflexivity].
  - apply (ONE (key c) (pset (key c) None (Ret (Ok [])))); [apply touches_erase|now left|].
    cbn [remove_chunk_call no_output cb_code]. rewrite (handle_ok ok Hc), Hw. reflexivity.
Qed.

(** The first of the moments from [lo] to [hi] at which a chunk had the contents it has
    in [mu]. *)
Definition same_bytes (x y : option bytes) : bool :=
  match x, y with
  | None, None => true
  | Some u, Some v => if list_eq_dec N.eq_dec u v then true else false
  | _, _ => false
  end.
Lemma same_bytes_ok x y : same_bytes x y = true <-> x = y.
Proof using.
  destruct x as [u|], y as [v|]; cbn; try (split; congruence). destruct (list_eq_dec _ u v); split; congruence.
Qed.
Definition chunk_moment (base : nat -> store) (lo hi : nat) (mu : store) (c : shape) : nat :=
  match find (fun j => same_bytes (mu (key c)) (base j (key c))) (seq lo (S hi - lo)) with Some j => j | None => lo end.
Lemma chunk_moment_range base lo hi mu c : (lo <= hi)%nat -> (lo <= chunk_moment base lo hi mu c <= hi)%nat.
Proof using.
  intros H. unfold chunk_moment. destruct (find _ _) as [j|] eqn:E; [|lia]. apply find_some in E as [E _]. apply in_seq in E. lia.
Qed.
Lemma chunk_moment_same base lo hi mu c : (exists j, (lo <= j <= hi)%nat /\ mu (key c) = base j (key c)) ->
  mu (key c) = base (chunk_moment base lo hi mu c) (key c).
Proof using.
  intros (j & Hj & E). unfold chunk_moment. destruct (find _ _) as [i|] eqn:F.
  - apply find_some in F as [_ F]. now apply same_bytes_ok.
  - exfalso. assert (X := find_none _ _ F j). cbn beta in X. rewrite in_seq in X. rewrite E in X.
    rewrite (proj2 (same_bytes_ok _ _) Logic.eq_refl) in X. specialize (X ltac:(lia)). discriminate.
Qed.
Lemma holds_at st st' c r : st (key c) = st' (key c) -> chunk_holds d st' c r -> chunk_holds d st c r.
Proof using. intros E. destruct r as [[vl data]|]; cbn [chunk_holds]; rewrite E; auto. Qed.

(** ** Reads that find empty files *)
Lemma empty_unit mu ov off c bf out : empty_rejected d -> region_ok d off (v_shape ov) ->
  overlaps s b off (v_shape ov) c -> mu (key c) = Some [] ->
  read_unit d mu ov off (v_shape ov) (bf, out) c = Throw ERuntime.
Proof using ok.
  intros HE Hreg Ho E. pose proof (overlaps_valid Ho) as Hc. unfold read_unit.
  destruct (coords_in_roi_exact (do_dims ok) (proj1 Hreg) (proj2 Hreg) Ho) as (r & -> & _). cbn [bind].
  unfold chunk_exists, get_chunk_shape, read_raw_chunk, store_read. rewrite (handle_ok ok Hc). cbn [bind ch_key ch_bounded]. rewrite E. cbn [negb].
  destruct HE as [Hz|(Hz & Hr & Hd)].
  - rewrite Hz. reflexivity.
  - rewrite Hz. cbn [bind]. unfold decompress. rewrite Hr. rewrite skipn_nil, Hd. reflexivity.
Qed.

(** With raw chunks the elements in the buffer are copied. *)
Lemma stale_unit mu ov off c bf out : plain_bytes d -> region_ok d off (v_shape ov) -> out_view_ok ov (lenN out) ->
  overlaps s b off (v_shape ov) c -> any_buffer d bf -> mu (key c) = Some [] ->
  exists bf' out', read_unit d mu ov off (v_shape ov) (bf, out) c = Ok (bf', out') /\ any_buffer d bf' /\ lenN out' = lenN out /\
    (forall a, (forall i, in_shape (v_shape ov) i -> chunk_of b (vadd off i) = c -> a <> out_addr ov i) -> getN out' a = getN out a).
Proof using ok.
  intros [Hz Hr] Hreg Hov Ho Hbuf E. pose proof (overlaps_valid Ho) as Hc. unfold read_unit.
  destruct (coords_in_roi_exact (do_dims ok) (proj1 Hreg) (proj2 Hreg) Ho) as (r & -> & R). cbn [bind].
  unfold chunk_exists, read_raw_chunk, store_read. rewrite chunk_shape_ok by auto.
  rewrite (handle_ok ok Hc). cbn [bind ch_key ch_bounded]. rewrite E. cbn [negb].
  rewrite Hz. cbn [bind negb andb]. pose proof (prod_chunks_small ok) as PC.
  assert (HS : stored_shape d c = b) by (unfold stored_shape; now rewrite Hz).
  assert (X1 : (if prodw b =? prodw (chunk_extent s b c) then prodw (chunk_extent s b c) else prodw b) = prod b).
  { destruct (N.eqb_spec (prodw b) (prodw (chunk_extent s b c))) as [<-|_]; now apply prodw_small. }
  assert (X2 : (if prodw b =? prodw (chunk_extent s b c) then chunk_extent s b c else b) = b).
  { destruct (N.eqb_spec (prodw b) (prodw (chunk_extent s b c))) as [E2|_]; [|reflexivity].
    rewrite (extent_eq ok Hc Hz (Logic.eq_sym E2)). reflexivity. }
  rewrite X1, X2. pose proof (sized_buffer (prod b) Hbuf) as Hb1.
  set (buf1 := if prod b =? lenN bf then bf else resize w (prod b) bf) in *.
  unfold decompress. rewrite Hr, skipn_nil.
  assert (Z : forall x, (x <? lenN (@nil N)) = false) by (intros x; apply N.ltb_ge; change (lenN (@nil N)) with 0; lia).
  rewrite Z. unfold put_bytes. assert (Z2 : (lenN (@nil N) <=? lenN (concat buf1)) = true) by (apply N.leb_le; change (lenN (@nil N)) with 0; lia).
  rewrite Z2. cbn [bind].
  assert (OV : overlay [] (concat buf1) = concat buf1) by (destruct (concat buf1); reflexivity).
  rewrite OV, split_concat by (eapply Forall_impl; [|apply Hb1]; cbn; tauto).
  assert (L1 : lenN buf1 = prod (stored_shape d c)) by (rewrite HS; apply Hb1).
  destruct (out_copy ok Hreg Hov Hc R L1) as (out' & EC & L & _ & O). rewrite HS in EC. rewrite EC. cbn [bind].
  exists buf1, out'. split; [reflexivity|]. split; [eexists; exact Hb1|]. split; [exact L|exact O].
Qed.

Definition mixed (mu : store) (C : shape -> option (list cell)) (c : shape) : Prop :=
  mu (key c) = Some [] \/ exists st C', holds d st C' /\ mu (key c) = st (key c) /\ C' c = C c.

Lemma good_unit mu ov off C c bf out : region_ok d off (v_shape ov) -> out_view_ok ov (lenN out) ->
  overlaps s b off (v_shape ov) c -> any_buffer d bf ->
  (exists st C', holds d st C' /\ mu (key c) = st (key c) /\ C' c = C c) ->
  exists bf' out', read_unit d mu ov off (v_shape ov) (bf, out) c = Ok (bf', out') /\ any_buffer d bf' /\
    read_done d ov off C [c] out out'.
Proof using ok.
  intros Hreg Hov Ho Hbuf (st & C' & HC & E & EC). rewrite (@read_unit_local d ok ov off (v_shape ov) mu st (bf, out) c (overlaps_valid Ho) E).
  destruct (@read_unit_spec d ok ov off out bf c st C' Hreg Hov Ho Hbuf HC) as (bf' & out' & ER & B & L & V & F).
  exists bf', out'. split; [exact ER|]. split; [exact B|]. split; [exact L|]. split; [|exact F].
  intros i Hi [Ei|[]]. rewrite (V i Hi (or_introl Ei)). unfold val. now rewrite <- Ei, EC.
Qed.

Lemma mixed_throws mu ov off C l : empty_rejected d -> region_ok d off (v_shape ov) ->
  (forall c, In c l -> overlaps s b off (v_shape ov) c /\ mixed mu C c) -> (exists c, In c l /\ mu (key c) = Some []) ->
  forall bf out, out_view_ok ov (lenN out) -> any_buffer d bf ->
  foldM (read_unit d mu ov off (v_shape ov)) l (bf, out) = Throw ERuntime.
Proof using ok.
  intros HE Hreg. induction l as [|c l IH]; intros HL (c0 & Hin & E0) bf out Hov Hbuf; [destruct Hin|].
  destruct (HL c (or_introl eq_refl)) as [Ho HM]. cbn [foldM].
  assert (BAD : mu (key c) = Some [] -> read_unit d mu ov off (v_shape ov) (bf, out) c = Throw ERuntime) by now apply empty_unit.
  destruct Hin as [->|Hin]; [now rewrite (BAD E0)|]. destruct HM as [HM|HM]; [now rewrite (BAD HM)|].
  destruct (@good_unit mu ov off C c bf out Hreg Hov Ho Hbuf HM) as (bf' & out' & -> & B & L & _). cbn [bind].
  apply IH; [intros c' Hc'; apply HL; now right|eauto|now rewrite L|exact B].
Qed.

Lemma mixed_raw mu ov off C l : plain_bytes d -> region_ok d off (v_shape ov) ->
  (forall c, In c l -> overlaps s b off (v_shape ov) c /\ mixed mu C c) ->
  forall bf out, out_view_ok ov (lenN out) -> any_buffer d bf ->
  exists bf' out', foldM (read_unit d mu ov off (v_shape ov)) l (bf, out) = Ok (bf', out') /\ lenN out' = lenN out /\
    (forall i, in_shape (v_shape ov) i -> In (chunk_of b (vadd off i)) l -> mu (key (chunk_of b (vadd off i))) <> Some [] ->
       getN out' (out_addr ov i) = Ok (val d C (vadd off i))) /\
    (forall a, (forall i, in_shape (v_shape ov) i -> In (chunk_of b (vadd off i)) l -> a <> out_addr ov i) -> getN out' a = getN out a).
Proof using ok.
  intros HE Hreg. induction l as [|c l IH]; intros HL bf out Hov Hbuf.
  - exists bf, out. split; [reflexivity|]. split; [reflexivity|]. split; [intros i _ []|reflexivity].
  - destruct (HL c (or_introl eq_refl)) as [Ho HM].
    assert (ONE : exists bf1 out1, read_unit d mu ov off (v_shape ov) (bf, out) c = Ok (bf1, out1) /\ any_buffer d bf1 /\ lenN out1 = lenN out /\
      (forall i, in_shape (v_shape ov) i -> chunk_of b (vadd off i) = c -> mu (key c) <> Some [] -> getN out1 (out_addr ov i) = Ok (val d C (vadd off i))) /\
      (forall a, (forall i, in_shape (v_shape ov) i -> chunk_of b (vadd off i) = c -> a <> out_addr ov i) -> getN out1 a = getN out a)).
    { destruct HM as [HM|HM].
      - destruct (@stale_unit mu ov off c bf out HE Hreg Hov Ho Hbuf HM) as (bf1 & out1 & E & B & L & F).
        exists bf1, out1. split; [exact E|]. split; [exact B|]. split; [exact L|]. split; [intros; contradiction|exact F].
      - destruct (@good_unit mu ov off C c bf out Hreg Hov Ho Hbuf HM) as (bf1 & out1 & E & B & L & V & F).
        exists bf1, out1. split; [exact E|]. split; [exact B|]. split; [exact L|]. split.
        + intros i Hi Ei _. apply V; [exact Hi|now left].
        + intros a Ha. apply F. intros i Hi [Ei|[]]. apply Ha; auto. }
    destruct ONE as (bf1 & out1 & E1 & B1 & L1 & V1 & F1).
    destruct (IH (fun c' H => HL c' (or_intror H)) bf1 out1) as (bf2 & out2 & E2 & L2 & V2 & F2); [now rewrite L1|exact B1|].
    exists bf2, out2. split; [cbn [foldM]; rewrite E1; exact E2|]. split; [lia|].
    destruct Hov as (_ & _ & INJ). split.
    + intros i Hi H Hn. destruct (in_dec (list_eq_dec N.eq_dec) (chunk_of b (vadd off i)) l) as [Hin|Hnin]; [now apply V2|].
      destruct H as [H|H]; [|contradiction]. rewrite F2; [apply V1; auto; now rewrite H|].
      intros j Hj Hjl Eq. unfold out_addr in Eq. assert (i = j) by (apply INJ; auto; lia). subst j. contradiction.
    + intros a Ha. rewrite F2, F1; auto.
      * intros i Hi Ei. apply Ha; [exact Hi|now left].
      * intros i Hi Ei. apply Ha; [exact Hi|now right].
Qed.

Lemma choose_all (P : nat -> (shape -> option (list cell)) -> Prop) n : (forall j, exists C, P j C) ->
  exists F, forall j, (j <= n)%nat -> P j (F j).
Proof using. clear ok Hw d.
  intros H. induction n as [|n [F HF]].
  - destruct (H 0%nat) as [C HC]. exists (fun _ => C). intros j Hj. now replace j with 0%nat by lia.
  - destruct (H (S n)) as [C HC]. exists (fun j => if Nat.eqb j (S n) then C else F j).
    intros j Hj. destruct (Nat.eqb_spec j (S n)) as [->|Hn]; [exact HC|]. apply HF. lia.
Qed.
Lemma zeros_buffer n : any_buffer d (repeat (zero_cell w) n).
Proof using.
  eexists. split; [reflexivity|]. apply Forall_forall. intros e He'. apply repeat_spec in He'. subst e.
  unfold zero_cell. split; [unfold lenN; rewrite repeat_length; lia|].
  apply Forall_forall. intros x Hx. apply repeat_spec in Hx. subst x. unfold is_byte. lia.
Qed.

(** The directory that a read finds. *)
Theorem plain_mixed pre st00 st0 calls wr cs y1 y2 t ov off out rest r : Forall (array_op_ok d) pre ->
  (forall c, valid c -> st00 (key c) = None) -> run_array_ops d pre st00 = (st0, Ok tt) ->
  Forall (Forall (client_call_ok d)) calls -> nth_error calls wr = Some cs ->
  (forall t' cs', t' <> wr -> nth_error calls t' = Some cs' -> Forall read_only cs') ->
  reach (clients_step (plain_body d)) (clients_init st0 calls) y1 -> t <> wr ->
  nth_error (k_clients y1) t = Some (KIdle, KRead ov off out :: rest) ->
  reach (clients_step (plain_body d)) y1 y2 ->
  nth_error (answers_to t (k_log y2)) (length (answers_to t (k_log y1))) = Some r ->
  let a0 := apply_ops d pre (fun _ => d_fill d) in
  let lo := length (calls_by wr (k_log y1)) in
  let hi := length (calls_by wr (k_log y2)) in
  region_ok d off (v_shape ov) /\ out_view_ok ov (lenN out) /\
  exists r0 o mu moment C, r = answer (lenN out) o r0 /\
    run (cb_code (read_call d ov off out)) (mu, array_of out) = ((mu, o), r0) /\
    (forall c, (lo <= moment c <= S hi)%nat) /\
    represents d C (chunk_patchwork d cs a0 moment) /\ cells d (chunk_patchwork d cs a0 moment) /\
    (forall x, in_shape s x -> lenN (val d C x) = w /\ Forall is_byte (val d C x)) /\
    (forall c, valid c -> (mu (key c) = Some [] /\ exists j call, (lo <= j <= hi)%nat /\ nth_error cs j = Some call /\ changes d call c) \/
       exists st C', holds d st C' /\ mu (key c) = st (key c) /\ C' c = C c).
Proof using ok Hw.
  intros Hpre He Er HG Hcs Hro R1 Ht E1 R2 Ha a0 lo hi.
  destruct (run_array_ops_spec ok Hw Hpre (holds_empty He) (@represents_empty d)) as (st1 & C1 & EE & HC & HR & _).
  rewrite Er in EE. injection EE as <-. fold a0 in HR.
  assert (HC0 : cells d a0) by exact (@apply_ops_cells d ok pre Hpre _ (fun _ _ => do_fill ok)).
  assert (Gcs : Forall (client_call_ok d) cs).
  { rewrite Forall_forall in HG. apply HG. now apply nth_error_In in Hcs. }
  set (good := fun c => client_call_ok d c /\ read_only c).
  assert (OTH : forall t' cs', t' <> wr -> nth_error calls t' = Some cs' -> Forall good cs').
  { intros t' cs' Hn E. pose proof (Hro t' cs' Hn E) as F. rewrite Forall_forall in HG, F |- *.
    intros c Hc. split; [|now apply F]. apply nth_error_In in E. specialize (HG _ E). rewrite Forall_forall in HG. now apply HG. }
  assert (GRO : forall c, good c -> harmless (cb_code (plain_body d c))).
  { intros [ov' off' out'|o] [G1 G2]; [|destruct G2]. eapply looks_harmless. apply looks_call. apply G1. }
  assert (RSTEP : forall f m, harmless (Act f) -> fst (fst (f m)) = fst m /\ harmless (snd (f m))).
  { intros f m H. inversion H; subst. auto. }
  destruct (@reader_sees _ (plain_body d) st0 calls wr cs good harmless Hcs OTH RSTEP GRO y1 y2 t (KRead ov off out) rest r R1 Ht E1 R2 Ha)
    as ([[Hreg Hov] _] & r0 & o & -> & SEEN).
  split; [exact Hreg|]. split; [exact Hov|].
  set (base := base (plain_body d) st0 cs) in *.
  unfold count in SEEN. fold lo hi in SEEN.
  assert (Hlh : (lo <= hi)%nat).
  { unfold lo, hi. clear - R2. induction R2 as [|y y' _ IH H]; [lia|]. pose proof (count_step wr H). unfold count in *. lia. }
  assert (PRE : forall j, Forall (client_call_ok d) (firstn j cs)).
  { intros j. rewrite Forall_forall in Gcs |- *. intros c Hc. apply Gcs. rewrite <- (firstn_skipn j cs). apply in_or_app. now left. }
  pose proof (fun j => @alone_spec d ok (plain_body d) (run_array_op d) (read_subarray d) (holds d) (@val_cell d ok)
    (@plain_op d ok Hw) (@plain_read d ok) (firstn j cs) (PRE j) st0 C1 a0 HC HR HC0) as AL.
  destruct (@choose_all (fun j C => holds d (base j) C /\ represents d C (apply_ops d (ops_of (firstn j cs)) a0)) (S hi)) as [F HF].
  { intros j. destruct (AL j) as (_ & C & X1 & X2 & _). exists C. split; [exact X1|exact X2]. }
  assert (CELLS : forall j, cells d (apply_ops d (ops_of (firstn j cs)) a0)).
  { intros j. destruct (AL j) as (_ & C & _ & _ & X). exact X. }
  assert (GN : NoDup (map key (reqs_of d off (v_shape ov)))).
  { unfold reqs_of. destruct (begin_request_ok ok Hreg) as (l & -> & ND & _).
    apply FinFun.Injective_map_NoDup; [intros x y Ek; now apply (key_inj ok)|exact ND]. }
  cbn [plain_body] in SEEN.
  destruct (seen_looks (looks_call out Hreg) GN SEEN (base lo)) as (mu & M1 & _ & RUN).
  set (touched := fun k => exists j c, (lo <= j <= hi)%nat /\ nth_error cs j = Some c /\ In k (pw d c)).
  assert (GC : forall j c, nth_error cs j = Some c -> client_call_ok d c).
  { intros j c Nc. rewrite Forall_forall in Gcs. apply Gcs. now apply nth_error_In in Nc. }
  assert (WIN : forall k st, window (plain_body d) st0 cs lo hi st ->
    (exists j, (lo <= j <= S hi)%nat /\ st k = base j k) \/ (st k = Some [] /\ touched k)).
  { intros k st (j & Hj & P). destruct P as [->|(c & m' & Nc & Hh & ->)]; [left; exists j; split; [lia|reflexivity]|].
    destruct (@plain_call_files c _ _ (GC j c Nc) Hh k) as [NT V]; cbn [fst] in *. destruct V as [V|[V|V]].
    - left. exists j. split; [lia|exact V].
    - destruct (in_dec string_dec k (pw d c)) as [Hi|Hn]; [right; split; [exact V|]; exists j, c; auto|].
      left. exists j. split; [lia|now apply NT].
    - left. exists (S j). split; [lia|]. rewrite V. unfold base. now rewrite (base_S _ _ Nc). }
  assert (SAME : forall k, touched k \/ (forall st, window (plain_body d) st0 cs lo hi st -> st k = base lo k)).
  { intros k.
    assert (DEC : touched k \/ forall j c, (lo <= j <= hi)%nat -> nth_error cs j = Some c -> ~ In k (pw d c)).
    { clear - Hlh. unfold touched. assert (G : forall n, (exists j c, (lo <= j < n)%nat /\ nth_error cs j = Some c /\ In k (pw d c)) \/
        forall j c, (lo <= j < n)%nat -> nth_error cs j = Some c -> ~ In k (pw d c)).
      { induction n as [|n [(j & c & H1 & H2)|IH]]; [right; intros; lia|left; exists j, c; split; [lia|exact H2]|].
        destruct (nth_error cs n) as [c|] eqn:En.
        - destruct (in_dec string_dec k (pw d c)) as [Hi|Hi].
          + destruct (Nat.le_gt_cases lo n); [left; exists n, c; split; [lia|auto]|right; intros; lia].
          + right. intros j c' Hj E. destruct (Nat.eq_dec j n) as [->|]; [congruence|]. apply (IH j c'); [lia|exact E].
        - right. intros j c' Hj E. destruct (Nat.eq_dec j n) as [->|]; [congruence|]. apply (IH j c'); [lia|exact E]. }
      destruct (G (S hi)) as [(j & c & H1 & H2)|H]; [left; exists j, c; split; [lia|exact H2]|].
      right. intros j c Hj. apply H. lia. }
    destruct DEC as [T|NT]; [now left|right].
    assert (BASE : forall j, (lo <= j <= hi)%nat -> base j k = base lo k).
    { intros j Hj. replace j with (lo + (j - lo))%nat in * by lia. generalize dependent (j - lo)%nat. clear j.
      intros i. induction i as [|i IH]; intros Hi; [now rewrite Nat.add_0_r|]. rewrite <- IH by lia.
      rewrite Nat.add_succ_r. destruct (nth_error cs (lo + i)) as [c|] eqn:En.
      - unfold base. rewrite (base_S _ _ En).
        destruct (@plain_call_files c _ _ (GC _ c En) (halted_end _ (base (lo + i)%nat, cb_out (plain_body d c))) k) as [X _].
        unfold base in X. rewrite X by (apply (NT (lo + i)%nat c); [lia|exact En]). reflexivity.
      - unfold base, P_Readers.base. apply nth_error_None in En. now rewrite !firstn_all2 by lia. }
    intros st (j & Hj & P). destruct P as [->|(c & m' & Nc & Hh & ->)]; [now apply BASE|].
    destruct (@plain_call_files c _ _ (GC j c Nc) Hh k) as [X _]. rewrite X by (apply (NT j c); auto). now apply BASE. }
  assert (KEYS : forall k, (exists j, (lo <= j <= S hi)%nat /\ mu k = base j k) \/ (mu k = Some [] /\ touched k)).
  { intros k. destruct (M1 k) as [E|[(st & W & E)|(E & st & st' & W & W' & N0 & N1)]].
    - left. exists lo. split; [lia|exact E].
    - rewrite E. now apply WIN.
    - destruct (SAME k) as [T|S]; [now right|]. exfalso. apply N0. rewrite (S st W), <- (S st' W'). exact N1. }
  set (moment := chunk_moment base lo (S hi) mu).
  assert (RANGE : forall c, (lo <= moment c <= S hi)%nat) by (intros c; apply chunk_moment_range; lia).
  exists r0, o, mu, moment, (fun c => F (moment c) c).
  split; [reflexivity|]. split; [exact RUN|]. split; [exact RANGE|]. split; [|split; [|split]].
  - intros x Hx. unfold chunk_patchwork. destruct (HF (moment (chunk_of b x)) ltac:(apply RANGE)) as [_ HRj]. exact (HRj x Hx).
  - intros x Hx. unfold chunk_patchwork. now apply CELLS.
  - intros x Hx. destruct (HF (moment (chunk_of b x)) ltac:(apply RANGE)) as [HCj _]. exact (@val_cell d ok _ _ x HCj Hx).
  - intros c Hc. destruct (KEYS (key c)) as [I|[E (j & call & Hj & Nc & Hi)]].
    + right. exists (base (moment c)), (F (moment c)). destruct (HF (moment c) ltac:(apply RANGE)) as [HCj _].
      split; [exact HCj|]. split; [exact (chunk_moment_same I)|reflexivity].
    + left. split; [exact E|]. destruct (@pw_ok d ok call _ (GC j call Nc) Hi) as (x & Hx & Ek). apply (key_inj ok) in Ek. subst x.
      exists j, call. auto.
Qed.

Lemma value_shown C a x : represents d C a -> cells d a -> in_shape s x -> lenN (val d C x) = w /\ Forall is_byte (val d C x) ->
  same_value d (val d C x) (a x) /\ (t_float (d_type d) = false -> val d C x = a x).
Proof using ok.
  intros HR HC Hx [V1 V2]. split; [now apply HR|]. intros Hf. destruct (HC _ Hx) as [A1 A2].
  exact (same_value_int ok Hf (HR _ Hx) V1 A1 V2 A2).
Qed.

Lemma raw_nonempty st C c : plain_bytes d -> valid c -> holds d st C -> st (key c) = Some [] -> False.
Proof using ok.
  intros [Hz Hr] Hc HC E. specialize (HC c Hc). destruct (C c) as [data|]; cbn [option_map chunk_holds] in HC; [|congruence].
  destruct HC as (bb & Hb & HD & HB & HL & _). specialize (HL eq_refl). rewrite E in Hb. injection Hb as <-.
  pose proof (prod_chunks_small ok) as PC. pose proof (prod_chunks_pos ok) as PP. pose proof (do_width ok) as PW.
  assert (HS : stored_shape d c = b) by (unfold stored_shape; now rewrite Hz). rewrite HS in HL.
  unfold data_to_buffer in HD. rewrite Hz in HD. cbn [andb negb] in HD. rewrite (prodw_small PC) in HD.
  destruct (lenN data <? prod b); [discriminate|]. destruct (forallb _ _); [discriminate|].
  unfold compress in HD. rewrite Hr in HD. destruct (lenN data <? prod b); [discriminate|].
  cbn [bind] in HD. injection HD as HD. rewrite <- HL in HD. unfold lenN in HD. rewrite Nat2N.id, firstn_all in HD.
  assert (X : lenN (concat data) = lenN data * w).
  { apply lenN_concat. eapply Forall_impl; [|apply HB]. cbn; tauto. }
  rewrite HD in X. change (lenN (@nil N)) with 0 in X. nia.
Qed.
Lemma region_elements ov off i : region_ok d off (v_shape ov) -> in_shape (v_shape ov) i ->
  in_shape s (vadd off i) /\ overlaps s b off (v_shape ov) (chunk_of b (vadd off i)).
Proof using ok.
  intros [Hr _] Hi. pose proof (in_shape_len Hi).
  assert (length off = length (v_shape ov)) by (unfold valid_region in Hr; apply all3_length in Hr; lia).
  assert (Hb : in_box off (v_shape ov) (vadd off i)) by (apply sub_in_box; auto).
  assert (Hx : in_shape s (vadd off i)) by (eapply region_in_shape; eauto).
  split; [exact Hx|]. exists (vadd off i). split; [exact Hb|]. now apply (elem_chunk ok).
Qed.

Theorem plain_reader pre st00 st0 calls wr cs y1 y2 t ov off out rest r : Forall (array_op_ok d) pre ->
  (forall c, valid c -> st00 (key c) = None) -> run_array_ops d pre st00 = (st0, Ok tt) ->
  Forall (Forall (client_call_ok d)) calls -> nth_error calls wr = Some cs ->
  (forall t' cs', t' <> wr -> nth_error calls t' = Some cs' -> Forall read_only cs') ->
  reach (clients_step (plain_body d)) (clients_init st0 calls) y1 -> t <> wr ->
  nth_error (k_clients y1) t = Some (KIdle, KRead ov off out :: rest) ->
  reach (clients_step (plain_body d)) y1 y2 ->
  nth_error (answers_to t (k_log y2)) (length (answers_to t (k_log y1))) = Some r ->
  let a0 := apply_ops d pre (fun _ => d_fill d) in
  let lo := length (calls_by wr (k_log y1)) in
  let hi := length (calls_by wr (k_log y2)) in
  empty_rejected d ->
  (exists moment out', r = Ok out' /\ (forall c, (lo <= moment c <= S hi)%nat) /\
     shows_region d (chunk_patchwork d cs a0 moment) ov off out out') \/
  (r = Throw ERuntime /\ exists j call c, (lo <= j <= hi)%nat /\ nth_error cs j = Some call /\ changes d call c /\
     overlaps s b off (v_shape ov) c).
Proof using ok Hw.
  intros Hpre He Er HG Hcs Hro R1 Ht E1 R2 Ha a0 lo hi HE.
  destruct (@plain_mixed pre st00 st0 calls wr cs y1 y2 t ov off out rest r Hpre He Er HG Hcs Hro R1 Ht E1 R2 Ha)
    as (Hreg & Hov & r0 & o & mu & moment & C & -> & RUN & RANGE & HR & HC & HV & HM). fold lo hi a0 in RANGE, HR, HC, HM.
  destruct (begin_request_ok ok Hreg) as (l & El & ND & _ & HI).
  assert (ALL : (forall c, In c l -> exists st C', holds d st C' /\ mu (key c) = st (key c) /\ C' c = C c) \/
    exists c, In c l /\ mu (key c) = Some [] /\ exists j call, (lo <= j <= hi)%nat /\ nth_error cs j = Some call /\ changes d call c).
  { assert (HL : forall c, In c l -> valid c) by (intros c Hc; eapply overlaps_valid, HI, Hc). clear - HL HM.
    induction l as [|c l IH]; [left; intros c []|].
    destruct IH as [IH|(c' & Hc' & X)]; [intros; apply HL; now right| |right; exists c'; split; [now right|exact X]].
    destruct (HM c (HL c (or_introl eq_refl))) as [X|X]; [right; exists c; split; [now left|exact X]|].
    left. intros c' [<- |Hc']; auto. }
  assert (MIX : forall c, In c l -> overlaps s b off (v_shape ov) c /\ mixed mu C c).
  { intros c Hc. apply HI in Hc. split; [exact Hc|]. destruct (HM c (overlaps_valid Hc)) as [[X _]|X]; [now left|now right]. }
  cbn [read_call cb_code] in RUN. rewrite El in RUN. cbn [plet] in RUN. unfold foreach_sequential in RUN.
  pose proof (@run_read_fold d ok ov off mu l Hreg (proj1 Hov) (fun c Hc => proj1 (HI c) Hc) out (array_of out)
    (repeat (zero_cell w) (N.to_nat (prodw b))) (@lists_array_of out)) as RF.
  destruct ALL as [GOOD|(c & Hc & Em & j & call & Hj & Nc & Hch)].
  - left. exists moment.
    assert (FOLD : forall l, (forall c, In c l -> overlaps s b off (v_shape ov) c /\ exists st C', holds d st C' /\ mu (key c) = st (key c) /\ C' c = C c) ->
      forall bf out, out_view_ok ov (lenN out) -> any_buffer d bf ->
      exists bf' out', foldM (read_unit d mu ov off (v_shape ov)) l (bf, out) = Ok (bf', out') /\ read_done d ov off C l out out').
    { clear - ok Hreg. induction l as [|c l IH]; intros HL bf out Hov Hbuf.
      - exists bf, out. split; [reflexivity|]. split; [reflexivity|]. split; [intros i _ []|reflexivity].
      - destruct (HL c (or_introl eq_refl)) as [Ho HM].
        destruct (@good_unit mu ov off C c bf out Hreg Hov Ho Hbuf HM) as (bf1 & out1 & E1 & B1 & D1).
        destruct (IH (fun c' H => HL c' (or_intror H)) bf1 out1) as (bf2 & out2 & E2 & D2).
        { destruct D1 as [-> _]. exact Hov. } { exact B1. }
        exists bf2, out2. split; [cbn [foldM]; rewrite E1; exact E2|]. eapply read_done_cons; eauto. }
    destruct (FOLD l) with (bf := repeat (zero_cell w) (N.to_nat (prodw b))) (out := out) as (bf' & out' & EF & L & V & FR).
    { intros c Hc. split; [now apply HI|now apply GOOD]. } { exact Hov. } { apply zeros_buffer. }
    rewrite EF in RF. destruct RF as (L' & o' & HL & RF). rewrite RF in RUN. injection RUN as <- <-.
    exists out'. split; [cbn [answer]; rewrite <- L'; now rewrite (elements_lists HL)|]. split; [exact RANGE|].
    split; [exact L|]. split.
    + intros i Hi. destruct (region_elements Hreg Hi) as [Hx Ho]. exists (val d C (vadd off i)).
      split; [apply V; [exact Hi|now apply HI]|]. exact (@value_shown C _ (vadd off i) HR HC Hx (HV _ Hx)).
    + intros a Ha'. apply FR. intros i Hi _. now apply Ha'.
  - right. split; [|exists j, call, c; split; [exact Hj|]; split; [exact Nc|]; split; [exact Hch|now apply HI]].
    rewrite (@mixed_throws mu ov off C l HE Hreg MIX (ex_intro _ c (conj Hc Em)) _ out Hov (zeros_buffer _)) in RF.
    rewrite RUN in RF. cbn [snd] in RF. rewrite RF. reflexivity.
Qed.

Theorem raw_reader pre st00 st0 calls wr cs y1 y2 t ov off out rest r : Forall (array_op_ok d) pre ->
  (forall c, valid c -> st00 (key c) = None) -> run_array_ops d pre st00 = (st0, Ok tt) ->
  Forall (Forall (client_call_ok d)) calls -> nth_error calls wr = Some cs ->
  (forall t' cs', t' <> wr -> nth_error calls t' = Some cs' -> Forall read_only cs') ->
  reach (clients_step (plain_body d)) (clients_init st0 calls) y1 -> t <> wr ->
  nth_error (k_clients y1) t = Some (KIdle, KRead ov off out :: rest) ->
  reach (clients_step (plain_body d)) y1 y2 ->
  nth_error (answers_to t (k_log y2)) (length (answers_to t (k_log y1))) = Some r ->
  let a0 := apply_ops d pre (fun _ => d_fill d) in
  let lo := length (calls_by wr (k_log y1)) in
  let hi := length (calls_by wr (k_log y2)) in
  plain_bytes d ->
  exists moment out', r = Ok out' /\ (forall c, (lo <= moment c <= S hi)%nat) /\
    shows_except d (fun c => exists j call, (lo <= j <= hi)%nat /\ nth_error cs j = Some call /\ changes d call c)
      (chunk_patchwork d cs a0 moment) ov off out out'.
Proof using ok Hw.
  intros Hpre He Er HG Hcs Hro R1 Ht E1 R2 Ha a0 lo hi HE.
  destruct (@plain_mixed pre st00 st0 calls wr cs y1 y2 t ov off out rest r Hpre He Er HG Hcs Hro R1 Ht E1 R2 Ha)
    as (Hreg & Hov & r0 & o & mu & moment & C & -> & RUN & RANGE & HR & HC & HV & HM). fold lo hi a0 in RANGE, HR, HC, HM.
  destruct (begin_request_ok ok Hreg) as (l & El & ND & _ & HI).
  assert (MIX : forall c, In c l -> overlaps s b off (v_shape ov) c /\ mixed mu C c).
  { intros c Hc. apply HI in Hc. split; [exact Hc|]. destruct (HM c (overlaps_valid Hc)) as [[X _]|X]; [now left|now right]. }
  cbn [read_call cb_code] in RUN. rewrite El in RUN. cbn [plet] in RUN. unfold foreach_sequential in RUN.
  pose proof (@run_read_fold d ok ov off mu l Hreg (proj1 Hov) (fun c Hc => proj1 (HI c) Hc) out (array_of out)
    (repeat (zero_cell w) (N.to_nat (prodw b))) (@lists_array_of out)) as RF.
  destruct (@mixed_raw mu ov off C l HE Hreg MIX _ out Hov (zeros_buffer (N.to_nat (prodw b)))) as (bf' & out' & EF & L & V & FR).
  rewrite EF in RF. destruct RF as (L' & o' & HL & RF). rewrite RF in RUN. injection RUN as <- <-.
  exists moment, out'. split; [cbn [answer]; rewrite <- L'; now rewrite (elements_lists HL)|]. split; [exact RANGE|].
  split; [exact L|]. split.
  - intros i Hi. destruct (region_elements Hreg Hi) as [Hx Ho].
    destruct (HM _ (overlaps_valid Ho)) as [[_ X]|X]; [now left|].
    destruct (same_bytes (mu (key (chunk_of b (vadd off i)))) (Some [])) eqn:SB.
    + exfalso. apply same_bytes_ok in SB. destruct X as (st & C' & HC' & E & _). rewrite SB in E. symmetry in E.
      exact (raw_nonempty HE (overlaps_valid Ho) HC' E).
    + right. exists (val d C (vadd off i)). split; [|exact (@value_shown C _ (vadd off i) HR HC Hx (HV _ Hx))].
      apply V; [exact Hi|now apply HI|]. intros E. apply same_bytes_ok in E. congruence.
  - intros a Ha'. apply FR. intros i Hi _. now apply Ha'.
Qed.
End Plain.
