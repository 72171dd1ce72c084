(** Clients of plain and of sharded datasets. *)
From Coq Require Import String.
From Verif Require Import M_Base M_Text M_Key M_Blocking M_View M_Bytes M_N5Header M_Format
  M_Mode M_Shard M_Dataset M_Sharded M_Access M_Pool M_Parallel M_Lock M_Clients
  S_Array S_Grid S_Bytes S_Text S_Format S_Shard S_Dataset S_Sharded S_Access S_File S_Pool S_Parallel S_Lock S_Clients
  P_Base P_Blocking P_Roi P_View P_Bytes P_Key P_Format P_Shard P_Dataset P_Access P_Read P_History P_Sharded P_ShardedApi P_File P_Pool
  P_Foreach P_Parallel P_ParWrite P_ParSharded P_ParHistory P_Lock P_Clients.
Import List ListNotations.
Local Open Scope list_scope.
Local Open Scope N_scope.
Local Notation length := List.length.

(** ** From single calls to clients *)
Section Array.
Variable d : dataset.
Hypothesis ok : dataset_ok d.
Notation w := (t_width (d_type d)).
Notation s := (d_shape d).
Notation b := (d_chunks d).
Variables (body : client_call -> call_body) (seq_op : array_op -> action unit)
  (seq_read : store -> view -> shape -> list cell -> outcome (list cell))
  (unit_of : shape -> shape) (wkeys rkeys : client_call -> list string)
  (H : store -> (shape -> option (list cell)) -> Prop).
Notation key_of := (fun x => chunk_key (d_key d) (unit_of x)).
Hypothesis conf : forall c, client_call_ok d c -> pconf (wlocs wkeys c) (rlocs rkeys c) (cb_code (body c)).
Hypothesis wkeys_ok : forall c k, client_call_ok d c -> In k (wkeys c) -> exists x, changes d c x /\ k = key_of x.
Hypothesis rkeys_ok : forall c k, client_call_ok d c -> In k (rkeys c) -> exists x, about d c x /\ k = key_of x.
Hypothesis H_local : forall st st' C, (forall k, st' k = st k) -> H st C -> H st' C.
Hypothesis H_cells : forall st C x, H st C -> in_shape s x -> lenN (val d C x) = w /\ Forall is_byte (val d C x).
Hypothesis op_ok : forall o st st' C a, array_op_ok d o -> (forall k, st k = st' k) -> H st C -> represents d C a ->
  exists st1 st2 C', call_alone body (KOp o) st = (st1, Ok []) /\ seq_op o st' = (st2, Ok tt) /\
    (forall k, st1 k = st2 k) /\ H st1 C' /\ represents d C' (apply_op d o a).
Hypothesis read_ok : forall ov off out st C, region_ok d off (v_shape ov) -> out_view_ok ov (lenN out) -> H st C ->
  exists out', call_alone body (KRead ov off out) st = (st, Ok out') /\ seq_read st ov off out = Ok out' /\
    lenN out' = lenN out /\
    (forall i, in_shape (v_shape ov) i -> getN out' (out_addr ov i) = Ok (val d C (vadd off i))) /\
    (forall a, (forall i, in_shape (v_shape ov) i -> a <> out_addr ov i) -> getN out' a = getN out a).
Hypothesis read_local : forall ov off out st st', region_ok d off (v_shape ov) ->
  (forall c, overlaps s b off (v_shape ov) c -> st (key_of c) = st' (key_of c)) -> seq_read st ov off out = seq_read st' ov off out.

Definition cells (a : shape -> cell) : Prop := forall x, in_shape s x -> lenN (a x) = w /\ Forall is_byte (a x).
Lemma apply_cells o a : array_op_ok d o -> cells a -> cells (apply_op d o a).
Proof using ok. intros Ho Ha. exact (@apply_ops_cells d ok [o] (Forall_cons _ Ho (Forall_nil _)) a Ha). Qed.

Lemma region_shown ov off out out' st C a : region_ok d off (v_shape ov) -> H st C -> represents d C a -> cells a ->
  lenN out' = lenN out ->
  (forall i, in_shape (v_shape ov) i -> getN out' (out_addr ov i) = Ok (val d C (vadd off i))) ->
  (forall a, (forall i, in_shape (v_shape ov) i -> a <> out_addr ov i) -> getN out' a = getN out a) ->
  shows_region d a ov off out out'.
Proof using ok H_cells.
  intros Hreg HC HR Ha L V F. split; [exact L|]. split; [|exact F]. intros i Hi.
  exists (val d C (vadd off i)). split; [exact (V i Hi)|].
  assert (Hx : in_shape s (vadd off i)).
  { clear - ok Hreg Hi. eapply region_in_shape; [apply Hreg|]. apply sub_in_box; [|exact Hi].
    destruct Hreg as [Hr _]. unfold valid_region in Hr; apply all3_length in Hr; lia. }
  split; [now apply HR|]. intros Hf. destruct (H_cells HC Hx) as [V1 V2]. destruct (Ha _ Hx) as [A1 A2].
  exact (same_value_int ok Hf (HR _ Hx) V1 A1 V2 A2).
Qed.

(** Calls executed one after the other. *)
Lemma alone_spec cs : Forall (client_call_ok d) cs -> forall st C a, H st C -> represents d C a -> cells a ->
  answers_of d a cs (snd (calls_alone body cs st)) /\
  exists C', H (fst (calls_alone body cs st)) C' /\ represents d C' (apply_ops d (ops_of cs) a) /\
    cells (apply_ops d (ops_of cs) a).
Proof using ok H_cells op_ok read_ok.
  induction 1 as [|c cs Hc Hcs IH]; intros st C a HC HR Ha.
  - cbn. split; [exact Logic.I|]. exists C. auto.
  - cbn [calls_alone]. destruct c as [ov off out|o]; cbn [client_call_ok] in Hc.
    + destruct Hc as [Hreg Hov]. destruct (read_ok Hreg Hov HC) as (out' & E & _ & L & V & F). rewrite E.
      destruct (IH st C a HC HR Ha) as [A X]. destruct (calls_alone body cs st) as [st2 os]. cbn [fst snd] in *.
      cbn [answers_of ops_of]. split; [|exact X]. split; [|exact A]. exists out'. split; [reflexivity|].
      eapply region_shown; eauto.
    + destruct (@op_ok o st st C a Hc (fun _ => eq_refl) HC HR) as (st1 & st2 & C1 & E & _ & _ & HC1 & HR1). rewrite E.
      destruct (IH st1 C1 _ HC1 HR1 (apply_cells Hc Ha)) as [A X]. destruct (calls_alone body cs st1) as [st3 os].
      cbn [fst snd] in *. cbn [answers_of ops_of apply_ops]. auto.
Qed.

(** The same with the functions of the sequential model. *)
Lemma alone_seq cs : Forall (client_call_ok d) cs -> forall st st' C a, H st C -> represents d C a ->
  (forall k, st k = st' k) ->
  exists st2, foldS (fun _ o => seq_op o) (ops_of cs) tt st' = (st2, Ok tt) /\
    forall k, fst (calls_alone body cs st) k = st2 k.
Proof using op_ok read_ok.
  induction 1 as [|c cs Hc Hcs IH]; intros st st' C a HC HR E.
  - exists st'. cbn. auto.
  - cbn [calls_alone]. destruct c as [ov off out|o]; cbn [client_call_ok] in Hc.
    + destruct Hc as [Hreg Hov]. destruct (read_ok Hreg Hov HC) as (out' & E1 & _). rewrite E1.
      destruct (IH st st' C a HC HR E) as (st2 & E2 & E3). exists st2. cbn [ops_of]. split; [exact E2|].
      destruct (calls_alone body cs st). exact E3.
    + destruct (op_ok Hc E HC HR) as (st1 & st4 & C1 & E1 & E4 & K & HC1 & HR1). rewrite E1.
      destruct (IH st1 st4 C1 _ HC1 HR1 K) as (st2 & E2 & E3).
      exists st2. cbn [ops_of foldS]. unfold sbind at 1. rewrite E4. split; [exact E2|].
      destruct (calls_alone body cs st1). exact E3.
Qed.

Theorem array_clients st0 C0 a0 calls y : H st0 C0 -> represents d C0 a0 -> cells a0 ->
  Forall (Forall (client_call_ok d)) calls -> apart d unit_of calls ->
  reach (clients_step body) (clients_init st0 calls) y ->
  (forall t cs, nth_error calls t = Some cs -> exists rest, cs = calls_by t (k_log y) ++ rest /\
     answers_of d a0 (calls_by t (k_log y)) (answers_to t (k_log y)) /\ (all_answered y -> rest = []) /\
     (forall x ov off out, nth_error (k_clients y) t = Some (KIdle, x) ->
        region_ok d off (v_shape ov) -> out_view_ok ov (lenN out) ->
        (forall t' cs' c u v, t' <> t -> nth_error calls t' = Some cs' -> In c cs' -> changes d c u ->
           overlaps s b off (v_shape ov) v -> unit_of u <> unit_of v) ->
        exists out', seq_read (k_files y) ov off out = Ok out' /\ shows_region d (apply_ops d (ops_of (calls_by t (k_log y))) a0) ov off out out')) /\
  (forall order, interleaving calls order -> all_answered y ->
     (exists st2, foldS (fun _ o => seq_op o) (ops_of order) tt st0 = (st2, Ok tt) /\ forall k, k_files y k = st2 k) /\
     forall ov off out, region_ok d off (v_shape ov) -> out_view_ok ov (lenN out) ->
       exists out', seq_read (k_files y) ov off out = Ok out' /\
         shows_region d (apply_ops d (ops_of order) a0) ov off out out').
Proof using ok conf wkeys_ok rkeys_ok H_local H_cells op_ok read_ok read_local.
  intros HC HR Ha HG HA R.
  assert (CF : forall c, client_call_ok d c -> pconf (wlocs wkeys c) (rlocs rkeys c) (cb_code (body c))) by exact conf.
  assert (KI : forall x x', key_of x = key_of x' -> unit_of x = unit_of x') by (intros x x'; apply (key_inj ok)).
  assert (GC : forall t cs c, nth_error calls t = Some cs -> In c cs -> client_call_ok d c).
  { intros t cs c Ht Hi. rewrite Forall_forall in HG. specialize (HG cs (nth_error_In _ _ Ht)).
    rewrite Forall_forall in HG. auto. }
  assert (DJ : forall t cs c k, nth_error calls t = Some cs -> In c cs ->
    In k (wkeys c) \/ In k (rkeys c) -> ~ foreign wkeys calls t k).
  { intros t cs c k Ht Hi Hk (t' & cs' & c' & Hn & Ht' & Hi' & Hk').
    destruct (wkeys_ok (GC _ _ _ Ht' Hi') Hk') as (x' & Hx' & E').
    assert (exists x, about d c x /\ k = key_of x) as (x & Hx & E).
    { destruct Hk as [Hk|Hk]; [|exact (rkeys_ok (GC _ _ _ Ht Hi) Hk)].
      destruct (wkeys_ok (GC _ _ _ Ht Hi) Hk) as (x & Hx & E). exists x. split; [|exact E].
      destruct c; [destruct Hx|exact Hx]. }
    apply (HA _ _ _ _ _ _ _ _ Hn Ht' Ht Hi' Hi Hx' Hx). apply KI. congruence. }
  split.
  - intros t cs Ht. destruct (@isolated _ body wkeys rkeys _ CF st0 calls HG DJ y t cs R Ht) as (rest & E & A & F).
    assert (Fc : Forall (client_call_ok d) (calls_by t (k_log y))).
    { rewrite Forall_forall in HG. specialize (HG cs (nth_error_In _ _ Ht)). rewrite E in HG.
      apply Forall_app in HG. apply HG. }
    destruct (alone_spec Fc HC HR Ha) as (A1 & C1 & HC1 & HR1 & Ha1).
    exists rest. split; [exact E|]. split; [|split].
    + rewrite A. exact A1.
    + intros AA. assert (L : length (k_clients y) = length calls) by apply (kinv_reach CF HG DJ R).
      assert (X : nth_error (k_clients y) t = Some (KIdle, [])).
      { apply answered_idle; auto. rewrite L. eapply nth_error_lt; eauto. }
      destruct (F _ X) as [<- _]. reflexivity.
    + intros x ov off out Hx Hreg Hov Hother. destruct (F _ Hx) as [_ F2].
      destruct (read_ok Hreg Hov HC1) as (out' & _ & E2 & L & V & F3).
      exists out'. split; [|eapply region_shown; eauto]. rewrite <- E2. apply read_local; [exact Hreg|].
      intros c Hc. apply F2. intros (t' & cs' & c' & Hn & Ht' & Hi' & Hk').
      destruct (wkeys_ok (GC _ _ _ Ht' Hi') Hk') as (u & Hu & Eu).
      apply (Hother _ _ _ _ _ Hn Ht' Hi' Hu Hc). apply KI. congruence.
  - intros order HI AA. assert (Fo : Forall (client_call_ok d) order).
    { clear - HG HI. induction HI as [|ls t c rest order Hn Hi IH]; [constructor|].
      rewrite Forall_forall in HG. pose proof (HG _ (nth_error_In _ _ Hn)) as X. apply Forall_cons_iff in X as [X1 X2].
      constructor; [exact X1|]. apply IH. rewrite Forall_forall. intros l Hl.
      apply In_nth_error in Hl as (u & Hu). apply nth_error_set in Hu. destruct Hu as [(_ & -> & _)|[_ Hu]]; [exact X2|].
      apply HG. eapply nth_error_In; eauto. }
    destruct (@one_by_one _ body calls order HI st0 []) as (y' & R' & A' & E').
    destruct (@same_outcome _ body wkeys rkeys _ CF st0 calls HG DJ y y' R R' AA A') as [EF _].
    split.
    + destruct (alone_seq Fo HC HR (fun k => eq_refl)) as (st2 & E2 & E3). exists st2. split; [exact E2|].
      intros k. rewrite EF, E'. apply E3.
    + intros ov off out Hreg Hov. destruct (alone_spec Fo HC HR Ha) as (_ & C' & HC' & HR' & Ha').
      assert (HY : H (k_files y) C').
      { eapply H_local; [|exact HC']. intros k. rewrite EF, E'. reflexivity. }
      destruct (read_ok Hreg Hov HY) as (out' & _ & E & L & V & F). exists out'. split; [exact E|].
      eapply region_shown; eauto.
Qed.
End Array.

Lemma lists_array_of l : lists (array_of l) l.
Proof.
  intros a Ha. apply getN_ok. unfold array_of. apply nth_error_nth'. unfold lenN in Ha. lia.
Qed.
Lemma elements_lists o l : lists o l -> elements (lenN l) o = l.
Proof.
  intros HL. unfold elements. unfold lenN at 1. rewrite Nat2N.id. apply nth_ext with (d := []) (d' := []).
  - now rewrite map_length, seq_length.
  - intros i Hi. rewrite map_length, seq_length in Hi.
    assert (X : N.of_nat i < lenN l) by (unfold lenN; lia). specialize (HL _ X). apply getN_ok in HL. rewrite Nat2N.id in HL.
    rewrite (nth_error_nth _ _ [] HL). apply nth_error_nth. rewrite nth_error_map.
    rewrite (nth_error_nth' (seq 0 (length l)) 0%nat) by (now rewrite seq_length). now rewrite seq_nth by exact Hi.
Qed.
Lemma conf_batch A (g : A -> list cell -> code) us W R : (forall u b, In u us -> pconf W R (g u b)) ->
  forall b, pconf W R (batch_prog (fun _ => g) 0 us b).
Proof.
  induction us as [|u us IH]; intros Hu b; cbn [batch_prog]; [constructor|].
  apply confined_bind; [apply Hu; now left|]. intros b'. apply IH. intros u' b'' Hi. apply Hu. now right.
Qed.

(** ** Plain datasets *)
Section Plain.
Variable d : dataset.
Hypothesis ok : dataset_ok d.
Hypothesis Hw : can_write (d_mode d) = true.
Notation w := (t_width (d_type d)).
Notation s := (d_shape d).
Notation b := (d_chunks d).
Notation valid := (valid_chunk (d_shape d) (d_chunks d)).
Notation key := (chunk_key (d_key d)).

Definition reqs_of (off n : shape) : list shape := match begin_request d off n with Ok l => l | _ => [] end.
Definition op_keys (o : array_op) : list string :=
  match o with AWrite off n _ => map key (reqs_of off n) | AChunk c _ | ARemove c => [key c] end.
Definition pw (c : client_call) : list string := match c with KRead _ _ _ => [] | KOp o => op_keys o end.
Definition pr (c : client_call) : list string := match c with KRead ov off _ => map key (reqs_of off (v_shape ov)) | KOp _ => [] end.

Lemma reqs_in off n c : region_ok d off n -> In c (reqs_of off n) <-> overlaps s b off n c.
Proof using ok. intros Hr. unfold reqs_of. destruct (begin_request_ok ok Hr) as (l & -> & _ & _ & HI). apply HI. Qed.

Lemma conf_read_at ov off c buf size : region_ok d off (v_shape ov) ->
  length (v_strides ov) = length (v_shape ov) -> overlaps s b off (v_shape ov) c ->
  forall W R : ploc -> Prop, (forall a, W (inr a)) -> R (inl (key c)) ->
  pconf W R (read_code d size ov off (v_shape ov) c buf).
Proof using ok.
  intros Hreg V1 Hovl W R HW HR. pose proof (overlaps_valid Hovl) as Hc.
  unfold read_code. apply conf_plet. intros r _. rewrite (handle_ok ok Hc). cbn [plet ch_key].
  apply conf_pread; [right; exact HR|]. intros f.
  apply conf_plet. intros ex _. destruct (negb ex).
  - apply conf_pfill; [intros; apply HW|constructor].
  - apply conf_pread; [right; exact HR|]. intros f2. apply conf_plet. intros data _.
    apply conf_plet. intros e _. apply conf_pcopy; [intros; apply HW|constructor].
Qed.

Lemma conf_chunk c data (W R : ploc -> Prop) : valid c -> W (inl (key c)) ->
  pconf W R (write_chunk_code d c data (Ret (Ok []))).
Proof using ok.
  intros Hc HW. unfold write_chunk_code. destruct (negb _); [constructor|].
  rewrite (handle_ok ok Hc). cbn [plet ch_key]. apply conf_plet. intros _ _. apply conf_plet. intros ob _.
  destruct ob as [v|].
  - unfold write_code. destruct (_ && _); [constructor|]. apply conf_pset; [exact HW|]. apply conf_pset; [exact HW|constructor].
  - apply conf_pset; [exact HW|constructor].
Qed.

Lemma plain_conf c : client_call_ok d c -> pconf (wlocs pw c) (rlocs pr c) (cb_code (plain_body d c)).
Proof using ok.
  destruct c as [ov off out|[off n src|c data|c]]; cbn [client_call_ok array_op_ok plain_body]; intros Hc.
  - destruct Hc as [Hreg Hov]. cbn [read_call cb_code]. destruct (begin_request_ok ok Hreg) as (l & E & _ & _ & HI).
    rewrite E. cbn [plet]. apply conf_batch. intros u bf Hu. apply conf_read_at; [exact Hreg|apply Hov|now apply HI|intros a; exact Logic.I|].
    cbn. unfold reqs_of. rewrite E. now apply in_map.
  - destruct Hc as [Hreg Hs]. cbn [write_call no_output cb_code]. destruct (begin_request_ok ok Hreg) as (l & E & _ & _ & HI).
    rewrite E. cbn [plet]. apply conf_batch. intros u bf Hu.
    eapply confined_mono; [| |apply (conf_write_unit ok); eapply overlaps_valid, HI, Hu].
    + intros x ->. cbn. unfold reqs_of. rewrite E. now apply in_map.
    + intros x [].
  - destruct Hc as [Hc Hd]. apply conf_chunk; [exact Hc|]. cbn. auto.
  - cbn [remove_chunk_call no_output cb_code]. rewrite (handle_ok ok Hc). cbn [plet ch_key]. destruct (negb _); [constructor|].
    apply conf_pset; [cbn; auto|constructor].
Qed.

Lemma pw_ok c k : client_call_ok d c -> In k (pw c) -> exists x, changes d c x /\ k = key x.
Proof using ok.
  destruct c as [ov off out|[off n src|c data|c]]; cbn; intros Hc Hk; try contradiction.
  - apply in_map_iff in Hk as (x & <- & Hx). exists x. split; [|reflexivity]. apply reqs_in in Hx; [exact Hx|apply Hc].
  - destruct Hk as [<- |[]]. eauto.
  - destruct Hk as [<- |[]]. eauto.
Qed.
Lemma pr_ok c k : client_call_ok d c -> In k (pr c) -> exists x, about d c x /\ k = key x.
Proof using ok.
  destruct c as [ov off out|o]; cbn; intros Hc Hk; try contradiction.
  apply in_map_iff in Hk as (x & <- & Hx). exists x. split; [|reflexivity]. apply reqs_in in Hx; [exact Hx|apply Hc].
Qed.

Lemma plain_op o st st' C a : array_op_ok d o -> (forall k, st k = st' k) -> holds d st C -> represents d C a ->
  exists st1 st2 C', call_alone (plain_body d) (KOp o) st = (st1, Ok []) /\ run_array_op d o st' = (st2, Ok tt) /\
    (forall k, st1 k = st2 k) /\ holds d st1 C' /\ represents d C' (apply_op d o a).
Proof using ok Hw.
  intros Ho E HC HR.
  assert (HC' : holds d st' C) by (eapply holds_ext; [|exact HC]; intros k; now rewrite E).
  destruct (run_array_op_spec ok Hw Ho HC' HR) as (st2 & C2 & E2 & HC2 & HR2 & _).
  assert (X : exists st1, call_alone (plain_body d) (KOp o) st = (st1, Ok []) /\ forall k, st1 k = st2 k).
  { unfold call_alone. destruct o as [off n src|c data|c]; cbn [plain_body array_op_ok run_array_op] in *.
    - destruct Ho as [Hreg Hs]. destruct (begin_request_ok ok Hreg) as (l & El & _ & _ & HI).
      cbn [write_call no_output cb_code cb_out cb_size]. rewrite El. cbn [plet]. unfold foreach_sequential.
      destruct (@run_write_fold d ok src off n l (fun c Hc => overlaps_valid (proj1 (HI c) Hc))
        (repeat (d_fill d) (N.to_nat (prodw b))) st' st (fun _ => []) E) as (st1 & E1 & K). rewrite E1. cbn [fst snd].
      unfold write_request, write_plain, sbind, pure in E2. rewrite El in E2.
      destruct (foldS (write_unit d src off n) l _ st') as [s2 [y|e|]]; try discriminate E2. injection E2 as <-.
      cbn [fst snd answer] in *. exists st1. auto.
    - destruct Ho as [Hc Hd]. cbn [write_chunk_call no_output cb_code cb_out cb_size].
      unfold write_chunk_code. unfold write_chunk in E2. rewrite Hw in *. cbn [negb] in *. unfold sbind, pure in E2.
      rewrite (handle_ok ok Hc) in *. cbn [plet ch_key ch_bounded] in *.
      rewrite (check_chunk_ok ok (c := c)) in * by auto. cbn [andb plet] in *.
      destruct (data_to_buffer _ _ _ _ _ _ _ _ _) as [[v|]|e|]; cbn [plet] in *; try discriminate E2.
      + rewrite run_write_code. rewrite (store_write_ok ok) in *. cbn [run fst snd answer]. injection E2 as <-.
        eexists. split; [reflexivity|]. intros k. rewrite set_set. now apply set_eq.
      + unfold store_erase in E2. injection E2 as <-. unfold pset. cbn [run fst snd answer].
        eexists. split; [reflexivity|]. now apply set_eq.
    - cbn [remove_chunk_call no_output cb_code cb_out cb_size]. rewrite (handle_ok ok Ho), Hw. cbn [plet negb ch_key].
      rewrite (remove_chunk_spec ok st' Hw Ho) in E2. injection E2 as <-. unfold pset. cbn [run fst snd answer].
      eexists. split; [reflexivity|]. now apply set_eq. }
  destruct X as (st1 & E1 & K). exists st1, st2, C2. split; [exact E1|]. split; [exact E2|]. split; [exact K|].
  split; [|exact HR2]. eapply holds_ext; [|exact HC2]. exact K.
Qed.

Lemma plain_read ov off out st C : region_ok d off (v_shape ov) -> out_view_ok ov (lenN out) -> holds d st C ->
  exists out', call_alone (plain_body d) (KRead ov off out) st = (st, Ok out') /\ read_subarray d st ov off out = Ok out' /\
    lenN out' = lenN out /\
    (forall i, in_shape (v_shape ov) i -> getN out' (out_addr ov i) = Ok (val d C (vadd off i))) /\
    (forall a, (forall i, in_shape (v_shape ov) i -> a <> out_addr ov i) -> getN out' a = getN out a).
Proof using ok.
  intros Hreg Hov HC. destruct (read_subarray_spec ok Hreg HC Hov) as (out' & E & L & V & F).
  exists out'. split; [|auto]. destruct (begin_request_ok ok Hreg) as (l & El & _ & _ & HI).
  pose proof (@run_read_fold d ok ov off st l Hreg (proj1 Hov) (fun c Hc => proj1 (HI c) Hc) out (array_of out)
    (repeat (zero_cell w) (N.to_nat (prodw b))) (@lists_array_of out)) as R.
  unfold read_subarray, read_plain in E. rewrite El in E. cbn [bind] in E.
  destruct (foldM (read_unit d st ov off (v_shape ov)) l _) as [[bf l']|e|]; try discriminate E.
  injection E as <-. destruct R as (L' & o' & HL & R). unfold call_alone.
  cbn [plain_body read_call cb_code cb_out cb_size]. rewrite El. cbn [plet]. unfold foreach_sequential. rewrite R.
  cbn [fst snd answer]. rewrite <- L'. now rewrite (elements_lists HL).
Qed.

Lemma read_unit_local ov off n st st' x c : valid c -> st (key c) = st' (key c) ->
  read_unit d st ov off n x c = read_unit d st' ov off n x c.
Proof using ok.
  intros Hc E. destruct x as [bf out]. unfold read_unit, chunk_exists, read_raw_chunk, store_read.
  rewrite (handle_ok ok Hc). cbn [bind ch_key]. rewrite E. reflexivity.
Qed.
Lemma foldM_in A B (f g : A -> B -> outcome A) l : (forall x y, In y l -> f x y = g x y) -> forall x, foldM f l x = foldM g l x.
Proof.
  induction l as [|y l IH]; intros Hf x; [reflexivity|]. cbn [foldM]. rewrite (Hf x y (or_introl eq_refl)).
  destruct (g x y); cbn [bind]; auto. apply IH. intros x' y' Hy. apply Hf. now right.
Qed.
Lemma read_local ov off out st st' : region_ok d off (v_shape ov) ->
  (forall c, overlaps s b off (v_shape ov) c -> st (key c) = st' (key c)) ->
  read_subarray d st ov off out = read_subarray d st' ov off out.
Proof using ok.
  intros Hreg E. unfold read_subarray, read_plain. destruct (begin_request_ok ok Hreg) as (l & -> & _ & _ & HI). cbn [bind].
  rewrite (@foldM_in _ _ (read_unit d st ov off (v_shape ov)) (read_unit d st' ov off (v_shape ov))); [reflexivity|].
  intros x c Hc. apply HI in Hc. apply read_unit_local; [eapply overlaps_valid; eauto|auto].
Qed.

Theorem plain_clients pre st00 st0 calls y : Forall (array_op_ok d) pre ->
  (forall c, valid c -> st00 (key c) = None) -> run_array_ops d pre st00 = (st0, Ok tt) ->
  Forall (Forall (client_call_ok d)) calls -> apart d (fun x => x) calls ->
  reach (clients_step (plain_body d)) (clients_init st0 calls) y ->
  let a0 := apply_ops d pre (fun _ => d_fill d) in
  (forall t cs, nth_error calls t = Some cs -> exists rest, cs = calls_by t (k_log y) ++ rest /\
     answers_of d a0 (calls_by t (k_log y)) (answers_to t (k_log y)) /\ (all_answered y -> rest = []) /\
     (forall x ov off out, nth_error (k_clients y) t = Some (KIdle, x) ->
        region_ok d off (v_shape ov) -> out_view_ok ov (lenN out) ->
        (forall t' cs' c u v, t' <> t -> nth_error calls t' = Some cs' -> In c cs' -> changes d c u ->
           overlaps s b off (v_shape ov) v -> u <> v) ->
        exists out', read_subarray d (k_files y) ov off out = Ok out' /\
          shows_region d (apply_ops d (ops_of (calls_by t (k_log y))) a0) ov off out out')) /\
  (forall order, interleaving calls order -> all_answered y ->
     (exists st2, run_array_ops d (ops_of order) st0 = (st2, Ok tt) /\ forall k, k_files y k = st2 k) /\
     forall ov off out, region_ok d off (v_shape ov) -> out_view_ok ov (lenN out) ->
       exists out', read_subarray d (k_files y) ov off out = Ok out' /\
         shows_region d (apply_ops d (ops_of order) a0) ov off out out').
Proof using ok Hw.
  intros Hpre He Er HG HA R a0.
  destruct (run_array_ops_spec ok Hw Hpre (holds_empty He) (@represents_empty d)) as (st1 & C1 & E1 & HC & HR & _).
  rewrite Er in E1. injection E1 as <-.
  exact (@array_clients d ok (plain_body d) (run_array_op d) (read_subarray d) (fun x => x) pw pr (holds d)
    plain_conf pw_ok pr_ok (fun st st' C E => holds_ext E) (@val_cell d ok) plain_op plain_read read_local
    st0 C1 a0 calls y HC HR (@apply_ops_cells d ok pre Hpre _ (fun _ _ => do_fill ok)) HG HA R).
Qed.
End Plain.

(** ** Sharded datasets *)
Section Sharded.
Variable sd : sharded.
Hypothesis sok : sharded_ok sd.
Hypothesis Hw : can_write (d_mode (sd_base sd)) = true.
Variable m : N.
Notation d := (sd_base sd).
Notation w := (t_width (d_type (sd_base sd))).
Notation s := (d_shape (sd_base sd)).
Notation b := (d_chunks (sd_base sd)).
Notation cps := (sd_cps sd).
Notation valid := (valid_chunk (d_shape (sd_base sd)) (d_chunks (sd_base sd))).
Notation ok := (so_base sok).
Notation key := (chunk_key (d_key (sd_base sd))).
Hypothesis m_total : prod (sd_cps sd) * m < W64 - 1.
Hypothesis m_blob : forall data, buffer_of (t_width (d_type (sd_base sd))) (prod (d_chunks (sd_base sd))) data ->
      forall e, stored_as (d_codec (sd_base sd)) (concat data) e -> 0 < lenN e /\ lenN e <= m.
Notation all_shards := (fun _ : shape => True).
Notation holds_all := (holds_sh sd m (own_blob sd) own_shard all_shards).

Definition groups_of (off n : shape) : list (shape * list shape) :=
  match (let! reqs := begin_request d off n in
         let! cps' := chunks_per_shard (sd_shard sd) b in
         group_chunks cps' reqs) with Ok g => g | _ => [] end.
Definition sop_keys (o : array_op) : list string :=
  match o with AWrite off n _ => map (fun g => key (fst g)) (groups_of off n) | AChunk c _ | ARemove c => [key (shard_of cps c)] end.
Definition spw (c : client_call) : list string := match c with KRead _ _ _ => [] | KOp o => sop_keys o end.
Definition spr (c : client_call) : list string :=
  match c with KRead ov off _ => map (fun g => key (fst g)) (groups_of off (v_shape ov)) | KOp _ => [] end.

Lemma groups_are off n : region_ok d off n ->
  begin_request d off n <> UB /\
  (let! reqs := begin_request d off n in
   let! cps' := chunks_per_shard (sd_shard sd) b in
   group_chunks cps' reqs) = Ok (groups_of off n) /\
  (forall g, In g (groups_of off n) -> length (fst g) = length b /\
     (exists x, overlaps s b off n x /\ shard_of cps x = fst g) /\
     forall c, In c (snd g) -> overlaps s b off n c /\ shard_of cps c = fst g).
Proof using sok.
  intros Hr. unfold groups_of. destruct (request_groups sok Hr) as (reqs & g & E1 & E2 & E3 & HG & _).
  rewrite E1. cbn [bind]. rewrite E2. cbn [bind]. rewrite E3. split; [discriminate|]. split; [reflexivity|].
  intros [k cs] Hi. destruct (HG _ _ Hi) as [NE HO]. cbn [fst snd].
  destruct cs as [|c cs]; [congruence|]. destruct (HO c (or_introl eq_refl)) as [Ho Ek].
  split; [|split; [eauto|exact HO]]. rewrite <- Ek. apply (shard_of_len sok), valid_len. eapply overlaps_valid; eauto.
Qed.

Lemma conf_shard_read_any (W R : ploc -> Prop) size raw ov off n : (forall a, W (inr a)) ->
  forall cs bf, pconf W R (shard_read_code sd size raw ov off n cs bf).
Proof using.
  intros HW cs. induction cs as [|c cs IH]; intros bf; cbn [shard_read_code]; [constructor|].
  apply conf_plet. intros sl _. apply conf_plet. intros r _. apply conf_plet. intros [[bs [p nb]]|] _.
  - apply conf_plet. intros bf2 _. apply conf_pcopy; [intros; apply HW|apply IH].
  - apply conf_pfill; [intros; apply HW|apply IH].
Qed.
Lemma conf_inner c blob (W R : ploc -> Prop) : valid c -> W (inl (key (shard_of cps c))) ->
  pconf W R (inner_blob_code sd c blob).
Proof using sok.
  intros Hc HW. pose proof (shard_of_len sok (valid_len Hc)) as LK. unfold inner_blob_code.
  apply conf_plet. intros k Ek.
  rewrite (@shard_id_spec c _ (cps_pos sok)) in Ek by (rewrite (cps_len sok); now apply valid_len). injection Ek as <-.
  apply conf_plet. intros sl _. destruct (shard_handle_ok sok LK) as [bs Eh]. rewrite Eh. cbn [plet ch_key].
  apply conf_pread; [now left|]. intros f. apply conf_plet. intros bls _. apply conf_plet. intros bls' _.
  unfold write_blobs_code. destruct (negb _); [constructor|]. rewrite Eh. cbn [plet ch_key].
  destruct (all_slots_empty _); [apply conf_pset; [exact HW|constructor]|].
  unfold write_code. destruct (_ && _); [constructor|]. apply conf_pset; [exact HW|]. apply conf_pset; [exact HW|constructor].
Qed.

Lemma sharded_conf c : client_call_ok d c -> pconf (wlocs spw c) (rlocs spr c) (cb_code (sharded_body sd c)).
Proof using sok Hw.
  destruct c as [ov off out|[off n src|c data|c]]; cbn [client_call_ok array_op_ok sharded_body array_call_code]; intros Hc.
  - destruct Hc as [Hreg Hov]. cbn [sh_read_call cb_code]. destruct (groups_are Hreg) as (_ & -> & HG).
    cbn [plet]. apply conf_batch. intros g bf Hg. destruct (HG g Hg) as [LK _].
    unfold shard_read_unit_code. destruct (shard_handle_ok sok LK) as [bs ->]. cbn [plet ch_key].
    apply conf_pread; [right; cbn; now apply (in_map (fun g => key (fst g)))|]. intros f. apply conf_plet. intros raw _.
    apply conf_shard_read_any. intros a. exact Logic.I.
  - destruct Hc as [Hreg Hs]. unfold sh_write_request_code.
    destruct (groups_are Hreg) as (_ & E & HG).
    assert (E' : (let! reqs := begin_request d off n in if negb (can_write (d_mode d)) then Throw EInvalidArgument else
       let! cps' := chunks_per_shard (sd_shard sd) b in group_chunks cps' reqs) = Ok (groups_of off n)).
    { rewrite <- E. rewrite Hw. reflexivity. }
    rewrite E'. cbn [unguarded no_output cb_code]. unfold foreach_sequential.
    change (fun (_ : nat) (g : shape * list shape) => shard_write_unit_code sd src off n g)
      with (fun _ : nat => shard_write_unit_code sd src off n).
    apply conf_batch. intros [k cs] bf Hg. destruct (HG _ Hg) as [LK _].
    eapply confined_mono; [| |apply (conf_shard_write sok); [exact LK|exact Hw]].
    + intros x ->. cbn. now apply (in_map (fun g => key (fst g))) in Hg.
    + intros x [].
  - destruct Hc as [Hc Hd]. unfold sh_write_chunk_code.
    destruct (if negb _ then _ else _) as [blob| |]; cbn [unguarded no_output cb_code]; try constructor.
    apply conf_inner; [exact Hc|]. cbn. auto.
  - unfold sh_remove_chunk_code. cbn [unguarded no_output cb_code]. apply conf_inner; [exact Hc|]. cbn. auto.
Qed.

Lemma spw_ok c k : client_call_ok d c -> In k (spw c) -> exists x, changes d c x /\ k = key (shard_of cps x).
Proof using sok.
  destruct c as [ov off out|[off n src|c data|c]]; cbn; intros Hc Hk; try contradiction.
  - apply in_map_iff in Hk as (g & <- & Hg). destruct (groups_are (proj1 Hc)) as (_ & _ & HG).
    destruct (HG g Hg) as (_ & (x & Hx & <-) & _). eauto.
  - destruct Hk as [<- |[]]. eauto.
  - destruct Hk as [<- |[]]. eauto.
Qed.
Lemma spr_ok c k : client_call_ok d c -> In k (spr c) -> exists x, about d c x /\ k = key (shard_of cps x).
Proof using sok.
  destruct c as [ov off out|o]; cbn; intros Hc Hk; try contradiction.
  apply in_map_iff in Hk as (g & <- & Hg). destruct (groups_are (proj1 Hc)) as (_ & _ & HG).
  destruct (HG g Hg) as (_ & (x & Hx & <-) & _). eauto.
Qed.

Lemma call_ends_as c st (r : store * outcome unit) : cb_size (sharded_body sd c) = 0 ->
  ends_as (run (cb_code (sharded_body sd c)) (st, cb_out (sharded_body sd c))) r -> snd r = Ok tt ->
  exists st1, call_alone (sharded_body sd) c st = (st1, Ok []) /\ forall k, st1 k = fst r k.
Proof using.
  intros Es [E1 E2] Er. unfold call_alone. rewrite Es. rewrite Er in E2.
  eexists. split; [|exact E1]. f_equal. destruct (snd (run _ _)); try discriminate. reflexivity.
Qed.

Lemma sharded_op o st st' C a : array_op_ok d o -> (forall k, st k = st' k) -> holds_all st C -> represents d C a ->
  exists st1 st2 C', call_alone (sharded_body sd) (KOp o) st = (st1, Ok []) /\ run_sharded_op sd o st' = (st2, Ok tt) /\
    (forall k, st1 k = st2 k) /\ holds_all st1 C' /\ represents d C' (apply_op d o a).
Proof using sok Hw m_total m_blob.
  intros Ho E HC HR.
  assert (HC' : holds_all st' C) by (eapply holds_sh_ext; [|exact HC]; intros k; now rewrite E).
  destruct (@run_sharded_op_spec sd sok m m_total m_blob (own_blob sd) (@own_blob_ok sd) own_shard (@own_shard_ok sd)
    all_shards o st' C a (fun _ => Logic.I) Hw Ho HC' HR) as (st2 & C2 & E2 & HC2 & HR2 & _).
  assert (X : exists st1, call_alone (sharded_body sd) (KOp o) st = (st1, Ok []) /\ forall k, st1 k = st2 k).
  { destruct o as [off n src|c data|c]; cbn [array_op_ok run_sharded_op] in *.
    - destruct Ho as [Hreg Hs]. destruct (groups_are Hreg) as (_ & Eg & HG).
      unfold call_alone. cbn [sharded_body array_call_code]. unfold sh_write_request_code.
      assert (E' : (let! reqs := begin_request d off n in if negb (can_write (d_mode d)) then Throw EInvalidArgument else
         let! cps' := chunks_per_shard (sd_shard sd) b in group_chunks cps' reqs) = Ok (groups_of off n)).
      { rewrite <- Eg. rewrite Hw. reflexivity. }
      rewrite E'. cbn [unguarded no_output cb_code cb_out cb_size]. unfold foreach_sequential.
      change (fun (_ : nat) (g : shape * list shape) => shard_write_unit_code sd src off n g)
        with (fun _ : nat => shard_write_unit_code sd src off n).
      destruct (@run_shard_write_fold sd sok src off n (groups_of off n) Hw (fun g Hg => proj1 (HG g Hg))
        (repeat (d_fill d) (N.to_nat (prodw b))) st' st (fun _ => []) E) as (st1 & E1 & K). rewrite E1. cbn [fst snd].
      unfold sh_write_request, write_sharded, sbind, pure in E2. rewrite Hw in E2. cbn [negb] in E2.
      destruct (begin_request d off n) as [reqs| |]; cbn [bind] in Eg; try discriminate Eg.
      destruct (chunks_per_shard _ _) as [cps'| |]; cbn [bind] in Eg; try discriminate Eg.
      rewrite Eg in E2.
      destruct (foldS (shard_write_unit sd src off n) (groups_of off n) _ st') as [s2 [y|e|]]; try discriminate E2.
      injection E2 as <-. cbn [fst snd answer] in *. exists st1. auto.
    - rewrite write_chunk_split in E2.
      assert (exists blob, (if negb (can_write (d_mode d)) then Throw EInvalidArgument
         else let! h := chunk_handle_of d b c in let! bl := d_blocking d in
           if negb (check_block bl (ch_ids h)) then Throw ERuntime else if false then Throw ERuntime
           else make_chunk_blob sd c data) = Ok blob) as [blob Eb].
      { destruct (if negb _ then _ else _) as [blob| |]; [eauto|discriminate E2..]. }
      rewrite Eb in E2.
      destruct (@call_ends_as (KOp (AChunk c data)) st (write_inner_blob sd c blob st)) as (st1 & X1 & X2);
        cbn [sharded_body array_call_code]; unfold sh_write_chunk_code; rewrite ?Eb; cbn [unguarded no_output cb_size cb_code cb_out].
      + reflexivity.
      + exact (run_inner_code sd c blob (st, fun _ => [])).
      + destruct (@inner_ext sd c blob st st' E) as [_ ->]. now rewrite E2.
      + exists st1. split; [exact X1|]. intros k. rewrite X2. destruct (@inner_ext sd c blob st st' E) as [-> _]. now rewrite E2.
    - unfold sh_remove_chunk in E2.
      destruct (@call_ends_as (KOp (ARemove c)) st (write_inner_blob sd c None st)) as (st1 & X1 & X2);
        cbn [sharded_body array_call_code]; unfold sh_remove_chunk_code; cbn [unguarded no_output cb_size cb_code cb_out].
      + reflexivity.
      + exact (run_inner_code sd c None (st, fun _ => [])).
      + destruct (@inner_ext sd c None st st' E) as [_ ->]. now rewrite E2.
      + exists st1. split; [exact X1|]. intros k. rewrite X2. destruct (@inner_ext sd c None st st' E) as [-> _]. now rewrite E2. }
  destruct X as (st1 & E1 & K). exists st1, st2, C2. split; [exact E1|]. split; [exact E2|]. split; [exact K|].
  split; [|exact HR2]. eapply holds_sh_ext; [|exact HC2]. exact K.
Qed.

Lemma sharded_read ov off out st C : region_ok d off (v_shape ov) -> out_view_ok ov (lenN out) -> holds_all st C ->
  exists out', call_alone (sharded_body sd) (KRead ov off out) st = (st, Ok out') /\ sh_read_subarray sd st ov off out = Ok out' /\
    lenN out' = lenN out /\
    (forall i, in_shape (v_shape ov) i -> getN out' (out_addr ov i) = Ok (val d C (vadd off i))) /\
    (forall a, (forall i, in_shape (v_shape ov) i -> a <> out_addr ov i) -> getN out' a = getN out a).
Proof using sok m_total m_blob.
  intros Hreg Hov HC.
  destruct (@sh_read_subarray_spec sd sok m m_total m_blob (own_blob sd) (@own_blob_ok sd) own_shard (@own_shard_ok sd)
    all_shards ov off st C out Hreg (fun _ _ => Logic.I) HC Hov) as (out' & E & L & V & F).
  exists out'. split; [|auto]. destruct (groups_are Hreg) as (_ & Eg & HG).
  pose proof (@run_shard_fold sd sok ov off st (groups_of off (v_shape ov)) Hreg (proj1 Hov)
    (fun g Hg => conj (proj1 (HG g Hg)) (proj2 (proj2 (HG g Hg)))) out (array_of out)
    (repeat (zero_cell w) (N.to_nat (prodw b))) (@lists_array_of out)) as R.
  unfold call_alone. cbn [sharded_body sh_read_call cb_code cb_out cb_size]. rewrite Eg. cbn [plet].
  unfold sh_read_subarray in E.
  destruct (begin_request d off (v_shape ov)) as [reqs| |]; cbn [bind] in Eg, E; try discriminate Eg.
  destruct (chunks_per_shard _ _) as [cps'| |]; cbn [bind] in Eg, E; try discriminate Eg.
  rewrite Eg in E. cbn [bind] in E.
  destruct (foldM (shard_read_unit sd st ov off (v_shape ov)) _ _) as [[bf l']|e|]; try discriminate E.
  injection E as <-. destruct R as (L' & o' & HL & R). unfold foreach_sequential. rewrite R.
  cbn [fst snd answer]. rewrite <- L'. now rewrite (elements_lists HL).
Qed.

Lemma sh_read_local ov off out st st' : region_ok d off (v_shape ov) ->
  (forall c, overlaps s b off (v_shape ov) c -> st (key (shard_of cps c)) = st' (key (shard_of cps c))) ->
  sh_read_subarray sd st ov off out = sh_read_subarray sd st' ov off out.
Proof using sok.
  intros Hreg E. destruct (groups_are Hreg) as (_ & Eg & HG). unfold sh_read_subarray.
  destruct (begin_request d off (v_shape ov)) as [reqs| |]; cbn [bind] in *; try discriminate Eg.
  destruct (chunks_per_shard _ _) as [cps'| |]; cbn [bind] in *; try discriminate Eg.
  rewrite Eg. cbn [bind].
  rewrite (@foldM_in _ _ (shard_read_unit sd st ov off (v_shape ov)) (shard_read_unit sd st' ov off (v_shape ov))); [reflexivity|].
  intros x g Hg. destruct (HG g Hg) as (LK & (c & Hc & Ec) & _). unfold shard_read_unit, read_shard_raw, store_read.
  destruct (shard_handle_ok sok LK) as [bs ->]. cbn [bind ch_key]. rewrite <- Ec, (E c Hc). reflexivity.
Qed.

Lemma sharded_clients_m pre st00 st0 calls y : Forall (array_op_ok d) pre ->
  (forall c, valid c -> st00 (shard_key sd c) = None) -> run_sharded_ops sd pre st00 = (st0, Ok tt) ->
  Forall (Forall (client_call_ok d)) calls -> apart d (shard_of cps) calls ->
  reach (clients_step (sharded_body sd)) (clients_init st0 calls) y ->
  let a0 := apply_ops d pre (fun _ => d_fill d) in
  (forall t cs, nth_error calls t = Some cs -> exists rest, cs = calls_by t (k_log y) ++ rest /\
     answers_of d a0 (calls_by t (k_log y)) (answers_to t (k_log y)) /\ (all_answered y -> rest = []) /\
     (forall x ov off out, nth_error (k_clients y) t = Some (KIdle, x) ->
        region_ok d off (v_shape ov) -> out_view_ok ov (lenN out) ->
        (forall t' cs' c u v, t' <> t -> nth_error calls t' = Some cs' -> In c cs' -> changes d c u ->
           overlaps s b off (v_shape ov) v -> shard_of cps u <> shard_of cps v) ->
        exists out', sh_read_subarray sd (k_files y) ov off out = Ok out' /\
          shows_region d (apply_ops d (ops_of (calls_by t (k_log y))) a0) ov off out out')) /\
  (forall order, interleaving calls order -> all_answered y ->
     (exists st2, run_sharded_ops sd (ops_of order) st0 = (st2, Ok tt) /\ forall k, k_files y k = st2 k) /\
     forall ov off out, region_ok d off (v_shape ov) -> out_view_ok ov (lenN out) ->
       exists out', sh_read_subarray sd (k_files y) ov off out = Ok out' /\
         shows_region d (apply_ops d (ops_of order) a0) ov off out out').
Proof using sok Hw m_total m_blob.
  intros Hpre He Er HG HA R a0.
  destruct (@run_sharded_ops_spec sd sok m m_total m_blob (own_blob sd) (@own_blob_ok sd) own_shard (@own_shard_ok sd) all_shards
    pre (fun _ => Logic.I) Hw Hpre st00 (fun _ => None) (fun _ => d_fill d)
    (@holds_sh_empty sd sok m m_total m_blob (own_blob sd) (@own_blob_ok sd) own_shard (@own_shard_ok sd) all_shards st00 He)
    (@represents_empty d)) as (st1 & C1 & E1 & HC & HR & _).
  rewrite Er in E1. injection E1 as <-.
  exact (@array_clients d ok (sharded_body sd) (run_sharded_op sd) (sh_read_subarray sd) (shard_of cps) spw spr holds_all
    sharded_conf spw_ok spr_ok (fun st st' C E => @holds_sh_ext sd m st st' C E)
    (fun st C x HC Hx => @val_cell_sh sd sok m (own_blob sd) own_shard all_shards st C x Logic.I HC Hx)
    sharded_op sharded_read sh_read_local
    st0 C1 a0 calls y HC HR (@apply_ops_cells d ok pre Hpre _ (fun _ _ => do_fill ok)) HG HA R).
Qed.
End Sharded.

Theorem sharded_clients sd pre st00 st0 calls y : sharded_ok sd -> can_write (d_mode (sd_base sd)) = true ->
  Forall (array_op_ok (sd_base sd)) pre ->
  (forall c, valid_chunk (d_shape (sd_base sd)) (d_chunks (sd_base sd)) c -> st00 (shard_key sd c) = None) ->
  run_sharded_ops sd pre st00 = (st0, Ok tt) ->
  Forall (Forall (client_call_ok (sd_base sd))) calls -> apart (sd_base sd) (shard_of (sd_cps sd)) calls ->
  reach (clients_step (sharded_body sd)) (clients_init st0 calls) y ->
  let a0 := apply_ops (sd_base sd) pre (fun _ => d_fill (sd_base sd)) in
  (forall t cs, nth_error calls t = Some cs -> exists rest, cs = calls_by t (k_log y) ++ rest /\
     answers_of (sd_base sd) a0 (calls_by t (k_log y)) (answers_to t (k_log y)) /\ (all_answered y -> rest = []) /\
     (forall x ov off out, nth_error (k_clients y) t = Some (KIdle, x) ->
        region_ok (sd_base sd) off (v_shape ov) -> out_view_ok ov (lenN out) ->
        (forall t' cs' c u v, t' <> t -> nth_error calls t' = Some cs' -> In c cs' -> changes (sd_base sd) c u ->
           overlaps (d_shape (sd_base sd)) (d_chunks (sd_base sd)) off (v_shape ov) v -> shard_of (sd_cps sd) u <> shard_of (sd_cps sd) v) ->
        exists out', sh_read_subarray sd (k_files y) ov off out = Ok out' /\
          shows_region (sd_base sd) (apply_ops (sd_base sd) (ops_of (calls_by t (k_log y))) a0) ov off out out')) /\
  (forall order, interleaving calls order -> all_answered y ->
     (exists st2, run_sharded_ops sd (ops_of order) st0 = (st2, Ok tt) /\ forall k, k_files y k = st2 k) /\
     forall ov off out, region_ok (sd_base sd) off (v_shape ov) -> out_view_ok ov (lenN out) ->
       exists out', sh_read_subarray sd (k_files y) ov off out = Ok out' /\
         shows_region (sd_base sd) (apply_ops (sd_base sd) (ops_of order) a0) ov off out out').
Proof.
  intros sok Hw Hpre He Er HG HA R. destruct (so_blob sok) as (m & M1 & M2).
  exact (@sharded_clients_m sd sok Hw m M1 M2 pre st00 st0 calls y Hpre He Er HG HA R).
Qed.
