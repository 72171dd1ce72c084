(** Proofs about strided views. *)
From Coq Require Import FinFun.
From Verif Require Import M_Base S_Array S_Grid M_Blocking M_View P_Base P_Blocking.

(** ** all indices of a shape, in C order *)
Fixpoint coords (sh : list N) : list (list N) :=
  match sh with
  | [] => [[]]
  | n :: r => flat_map (fun x => map (cons x) (coords r)) (rangeN 0 (N.to_nat n))
  end.

Lemma coords_In sh c : In c (coords sh) <-> in_shape sh c.
Proof.
  unfold in_shape. revert c; induction sh as [|n r IH]; intros c; cbn [coords].
  - cbn. split; [intros [<-|[]]; constructor|intros H; inversion H; auto].
  - rewrite in_flat_map. split.
    + intros (x & Hx & Hc). apply in_map_iff in Hc as (d & <- & Hd). apply rangeN_In in Hx.
      constructor; [lia|]. apply IH. exact Hd.
    + intros H; inversion H as [|x m d r' Hx Hd]; subst. exists x. split.
      * apply rangeN_In. lia.
      * apply in_map. apply IH. exact Hd.
Qed.

Lemma coords_NoDup sh : NoDup (coords sh).
Proof.
  induction sh as [|n r IH]; cbn [coords]; [repeat constructor; intros []|].
  generalize (N.to_nat n) as m. intros m. generalize 0 as a. induction m as [|m IHm]; intros a;
    cbn [rangeN flat_map]; [constructor|].
  assert (NoDup (map (cons a) (coords r))) as H1.
  { apply Injective_map_NoDup; [|exact IH]. intros x y E; congruence. }
  specialize (IHm (a + 1)).
  assert (forall c, In c (map (cons a) (coords r)) ->
            ~ In c (flat_map (fun x => map (cons x) (coords r)) (rangeN (a + 1) m))) as Hd.
  { intros c Hc Hin. apply in_map_iff in Hc as (d & <- & _).
    apply in_flat_map in Hin as (x & Hx & Hin). apply in_map_iff in Hin as (e & [= -> ->] & _).
    apply rangeN_In in Hx. lia. }
  revert H1 Hd. generalize (map (cons a) (coords r)) as l1. intros l1 H1 Hd.
  induction H1 as [|x l1 Hx H1 IHl]; cbn; [exact IHm|]. constructor.
  - rewrite in_app_iff. intros [H|H]; [auto|]. apply (Hd x); cbn; auto.
  - apply IHl. intros c Hc. apply Hd. cbn; auto.
Qed.

Lemma coords_length sh : lenN (coords sh) = prod sh.
Proof.
  induction sh as [|n r IH]; cbn [coords prod]; [reflexivity|].
  assert (forall m a, lenN (flat_map (fun x => map (cons x) (coords r)) (rangeN a m)) = N.of_nat m * prod r) as H.
  { induction m as [|m IHm]; intros a; cbn [rangeN flat_map]; [reflexivity|].
    rewrite lenN_app, IHm. unfold lenN at 1. rewrite map_length. fold (lenN (coords r)). rewrite IH. lia. }
  rewrite H. lia.
Qed.

(** C order by the last axis *)
Lemma coords_snoc sh n :
  coords (sh ++ [n]) = flat_map (fun o => map (fun k => o ++ [k]) (rangeN 0 (N.to_nat n))) (coords sh).
Proof.
  induction sh as [|m r IH].
  - cbn [app coords flat_map]. rewrite app_nil_r.
    generalize (N.to_nat n) as k; intros k. generalize 0 as a. induction k as [|k IHk]; intros a; cbn; [reflexivity|].
    rewrite <- IHk. reflexivity.
  - cbn [app coords]. rewrite IH. generalize (rangeN 0 (N.to_nat m)) as l. intros l.
    induction l as [|x l IHl]; cbn [flat_map]; [reflexivity|].
    rewrite flat_map_app, <- IHl. f_equal. clear.
    induction (coords r) as [|o os IHo]; cbn [flat_map map]; [reflexivity|].
    rewrite map_app, IHo. f_equal. rewrite map_map. reflexivity.
Qed.

(** ** the odometer *)
Fixpoint fromz (sh idx : list N) : list (list N) :=
  match sh, idx with
  | n :: sr, i :: ir =>
      map (cons i) (fromz sr ir) ++
      flat_map (fun x => map (cons x) (coords sr)) (rangeN (i + 1) (N.to_nat (n - (i + 1))))
  | _, _ => [[]]
  end.

Lemma fromz_zero sh : Forall (fun n => 0 < n) sh -> fromz sh (map (fun _ => 0) sh) = coords sh.
Proof.
  induction 1 as [|n sh Hn H IH]; cbn [fromz coords map]; [reflexivity|].
  replace (N.to_nat n) with (S (N.to_nat (n - (0 + 1)))) by lia. cbn [rangeN flat_map].
  rewrite IH. reflexivity.
Qed.

Lemma odo_inc_spec sh idx : in_shape sh idx ->
  let (idx', carry) := odo_inc sh idx in
  (carry = true -> idx' = map (fun _ => 0) sh /\ fromz sh idx = [idx]) /\
  (carry = false -> in_shape sh idx' /\ fromz sh idx = idx :: fromz sh idx').
Proof.
  intros H; induction H as [|i n ir sr Hi Hr IH].
  - cbn. split; [auto|discriminate].
  - cbn [odo_inc]. destruct (odo_inc sr ir) as [ir' c]. destruct IH as [IH1 IH2]. destruct c.
    + destruct (IH1 eq_refl) as [-> E]. destruct (N.ltb_spec (i + 1) n) as [Hlt|Hge].
      * split; [discriminate|]. intros _.
        assert (Forall (fun n => 0 < n) sr) as Hpos.
        { clear -Hr. induction Hr; constructor; [lia|assumption]. }
        split.
        -- constructor; [exact Hlt|]. clear -Hpos. induction Hpos; cbn; constructor; assumption.
        -- cbn [fromz]. rewrite E. cbn [map app].
           replace (N.to_nat (n - (i + 1))) with (S (N.to_nat (n - (i + 1 + 1)))) by lia.
           cbn [rangeN flat_map]. rewrite fromz_zero by exact Hpos. reflexivity.
      * split; [|discriminate]. intros _. split; [reflexivity|]. cbn [fromz]. rewrite E.
        replace (n - (i + 1)) with 0 by lia. reflexivity.
    + destruct (IH2 eq_refl) as [Hs E]. split; [discriminate|]. intros _. split.
      * constructor; assumption.
      * cbn [fromz]. rewrite E. reflexivity.
Qed.

(** ** sequences of writes *)
Section Writes.
Context {V : Type}.

(** Write [f c] to address [addr c] for each [c] of a list. *)
Definition writes (addr : list N -> N) (f : list N -> outcome V) (cs : list (list N)) (dst : list V) :=
  foldM (fun d c => let! v := f c in setN d (addr c) v) cs dst.

Lemma writes_spec addr f cs (dst : list V) :
  (forall c, In c cs -> exists v, f c = Ok v) ->
  (forall c, In c cs -> addr c < lenN dst) ->
  exists dst', writes addr f cs dst = Ok dst' /\ lenN dst' = lenN dst /\
    (forall a, (forall c, In c cs -> addr c <> a) -> getN dst' a = getN dst a) /\
    (NoDup cs -> (forall c d, In c cs -> In d cs -> addr c = addr d -> c = d) ->
     forall c, In c cs -> getN dst' (addr c) = f c).
Proof.
  unfold writes. revert dst; induction cs as [|c cs IH]; intros dst Hf Ha.
  - exists dst. cbn. repeat split; auto. intros _ _ c [].
  - cbn [foldM]. destruct (Hf c) as [v Hv]; [cbn; auto|]. rewrite Hv. cbn [bind].
    assert (addr c < lenN dst) as Hc by (apply Ha; cbn; auto).
    rewrite (setN_ok v Hc). cbn [bind].
    destruct (IH (set_nth (N.to_nat (addr c)) dst v)) as (dst' & E & Hl & Hfr & Hval).
    + intros; apply Hf; cbn; auto.
    + intros; rewrite lenN_set_nth; apply Ha; cbn; auto.
    + rewrite lenN_set_nth in Hl. exists dst'. split; [exact E|]. split; [exact Hl|]. split.
      * intros a Hna. rewrite Hfr by (intros; apply Hna; cbn; auto).
        apply getN_set_other. apply Hna. cbn; auto.
      * intros Hnd Hinj d [<-|Hd].
        -- rewrite Hfr.
           ++ rewrite getN_set_same by exact Hc. auto.
           ++ intros e He Eq. inversion Hnd as [|? ? Hnin _]; subst. apply Hnin.
              rewrite (Hinj c e); cbn; auto.
        -- inversion Hnd; subst. apply Hval; auto. intros; apply Hinj; cbn; auto.
Qed.

(** constant writes need no injectivity *)
Lemma writes_const addr v cs (dst : list V) :
  (forall c, In c cs -> addr c < lenN dst) ->
  exists dst', writes addr (fun _ => Ok v) cs dst = Ok dst' /\ lenN dst' = lenN dst /\
    (forall a, (forall c, In c cs -> addr c <> a) -> getN dst' a = getN dst a) /\
    (forall c, In c cs -> getN dst' (addr c) = Ok v).
Proof.
  unfold writes. revert dst; induction cs as [|c cs IH]; intros dst Ha.
  - exists dst. cbn. repeat split; auto. intros c [].
  - cbn [foldM bind]. assert (addr c < lenN dst) as Hc by (apply Ha; cbn; auto).
    rewrite (setN_ok v Hc). cbn [bind].
    destruct (IH (set_nth (N.to_nat (addr c)) dst v)) as (dst' & E & Hl & Hfr & Hval).
    + intros; rewrite lenN_set_nth; apply Ha; cbn; auto.
    + rewrite lenN_set_nth in Hl. exists dst'. split; [exact E|]. split; [exact Hl|]. split.
      * intros a Hna. rewrite Hfr by (intros; apply Hna; cbn; auto).
        apply getN_set_other. apply Hna. cbn; auto.
      * assert (In (addr c) (map addr cs) \/ ~ In (addr c) (map addr cs)) as Hdec
          by (destruct (in_dec N.eq_dec (addr c) (map addr cs)); auto).
        intros d [<-|Hd]; [|auto]. destruct Hdec as [Hin|Hnin].
        -- apply in_map_iff in Hin as (e & Ee & He). rewrite <- Ee. auto.
        -- rewrite Hfr; [apply getN_set_same; exact Hc|].
           intros e He Ee. apply Hnin. rewrite <- Ee. apply in_map. exact He.
Qed.

Lemma writes_app addr f cs1 cs2 (dst : list V) :
  writes addr f (cs1 ++ cs2) dst = bind (writes addr f cs1 dst) (writes addr f cs2).
Proof. apply foldM_app. Qed.

Lemma flat_offset_lin idx st : flat_offset idx st = lin st idx.
Proof. revert st; induction idx as [|i ir IH]; intros [|s sr]; cbn; auto. rewrite IH. reflexivity. Qed.

Lemma lin_snoc st s idx k : length st = length idx -> lin (st ++ [s]) (idx ++ [k]) = lin st idx + k * s.
Proof.
  revert idx; induction st as [|s0 st IH]; intros [|i idx] H; cbn in H |- *; try discriminate; [lia|].
  rewrite IH by lia. lia.
Qed.

Lemma copy_run_writes (src : list V) so ss d_o ds cnt : forall k dst o sst dst_st,
  length sst = length o -> length dst_st = length o ->
  forall sb db, so = sb + lin sst o -> d_o = db + lin dst_st o ->
  copy_run src so ss d_o ds k cnt dst =
  writes (fun c => db + lin (dst_st ++ [ds]) c) (fun c => getN src (sb + lin (sst ++ [ss]) c))
         (map (fun x => o ++ [x]) (rangeN k cnt)) dst.
Proof.
  induction cnt as [|cnt IH]; intros k dst o sst dst_st Hl1 Hl2 sb db -> ->; [reflexivity|].
  cbn [copy_run rangeN map]. unfold writes. cbn [foldM].
  rewrite !lin_snoc by assumption. rewrite !N.add_assoc.
  destruct (getN src (sb + lin sst o + k * ss)) as [v| |]; cbn [bind]; [|reflexivity|reflexivity].
  destruct (setN dst (db + lin dst_st o + k * ds) v) as [dst'| |]; cbn [bind]; [|reflexivity|reflexivity].
  rewrite (IH (k + 1) dst' o sst dst_st Hl1 Hl2 sb db eq_refl eq_refl). reflexivity.
Qed.

Lemma copy_runs_writes (src : list V) sb sst ss db outer dst_st ds n : forall nr idx dst,
  length sst = length outer -> length dst_st = length outer -> in_shape outer idx ->
  nr = length (fromz outer idx) ->
  copy_runs src sb sst ss db outer dst_st ds n nr idx dst =
  writes (fun c => db + lin (dst_st ++ [ds]) c) (fun c => getN src (sb + lin (sst ++ [ss]) c))
         (flat_map (fun o => map (fun x => o ++ [x]) (rangeN 0 (N.to_nat n))) (fromz outer idx)) dst.
Proof.
  induction nr as [|nr IH]; intros idx dst Hl1 Hl2 Hin Hnr.
  - pose proof (odo_inc_spec Hin) as H. destruct (odo_inc outer idx) as [i' c].
    destruct H as [H1 H2]. destruct c; [destruct (H1 eq_refl) as [_ E]|destruct (H2 eq_refl) as [_ E]];
      rewrite E in Hnr; discriminate.
  - cbn [copy_runs]. pose proof (odo_inc_spec Hin) as H.
    assert (length idx = length outer) as Hli by (apply Forall2_len in Hin; lia).
    assert ((if (ss =? 1) && (ds =? 1)
             then copy_run src (sb + flat_offset idx sst) 1 (db + flat_offset idx dst_st) 1 0 (N.to_nat n) dst
             else copy_run src (sb + flat_offset idx sst) ss (db + flat_offset idx dst_st) ds 0 (N.to_nat n) dst) =
            writes (fun c => db + lin (dst_st ++ [ds]) c) (fun c => getN src (sb + lin (sst ++ [ss]) c))
              (map (fun x => idx ++ [x]) (rangeN 0 (N.to_nat n))) dst) as Hrun.
    { rewrite !flat_offset_lin.
      destruct (N.eqb_spec ss 1) as [->|]; [destruct (N.eqb_spec ds 1) as [->|]|]; cbn [andb];
        apply copy_run_writes; congruence. }
    cbv zeta. rewrite Hrun. clear Hrun.
    destruct (odo_inc outer idx) as [i' c] eqn:Eo. cbn [fst]. destruct H as [H1 H2].
    destruct c.
    + destruct (H1 eq_refl) as [_ E]. rewrite E in Hnr |- *. cbn in Hnr. injection Hnr as ->.
      cbn [flat_map]. rewrite app_nil_r.
      destruct (writes _ _ _ dst); reflexivity.
    + destruct (H2 eq_refl) as [Hin' E]. rewrite E in Hnr |- *. cbn in Hnr. injection Hnr as Hnr.
      cbn [flat_map]. rewrite writes_app.
      destruct (writes _ _ (map (fun x => idx ++ [x]) (rangeN 0 (N.to_nat n))) dst) as [dst'| |]; cbn [bind]; [|reflexivity|reflexivity].
      apply IH; assumption.
Qed.

Lemma fill_run_writes v d_o ds cnt : forall k (dst : list V) o dst_st,
  length dst_st = length o -> forall db, d_o = db + lin dst_st o ->
  fill_run v d_o ds k cnt dst =
  writes (fun c => db + lin (dst_st ++ [ds]) c) (fun _ => Ok v) (map (fun x => o ++ [x]) (rangeN k cnt)) dst.
Proof.
  induction cnt as [|cnt IH]; intros k dst o dst_st Hl2 db ->; [reflexivity|].
  cbn [fill_run rangeN map]. unfold writes. cbn [foldM bind].
  rewrite !lin_snoc by assumption. rewrite !N.add_assoc.
  destruct (setN dst (db + lin dst_st o + k * ds) v) as [dst'| |]; cbn [bind]; [|reflexivity|reflexivity].
  rewrite (IH (k + 1) dst' o dst_st Hl2 db eq_refl). reflexivity.
Qed.

Lemma fill_runs_writes v db outer dst_st ds n : forall nr idx (dst : list V),
  length dst_st = length outer -> in_shape outer idx ->
  nr = length (fromz outer idx) ->
  fill_runs v db outer dst_st ds n nr idx dst =
  writes (fun c => db + lin (dst_st ++ [ds]) c) (fun _ => Ok v)
         (flat_map (fun o => map (fun x => o ++ [x]) (rangeN 0 (N.to_nat n))) (fromz outer idx)) dst.
Proof.
  induction nr as [|nr IH]; intros idx dst Hl2 Hin Hnr.
  - pose proof (odo_inc_spec Hin) as H. destruct (odo_inc outer idx) as [i' c].
    destruct H as [H1 H2]. destruct c; [destruct (H1 eq_refl) as [_ E]|destruct (H2 eq_refl) as [_ E]];
      rewrite E in Hnr; discriminate.
  - cbn [fill_runs]. pose proof (odo_inc_spec Hin) as H.
    assert (length idx = length outer) as Hli by (apply Forall2_len in Hin; lia).
    assert ((if ds =? 1
             then fill_run v (db + flat_offset idx dst_st) 1 0 (N.to_nat n) dst
             else fill_run v (db + flat_offset idx dst_st) ds 0 (N.to_nat n) dst) =
            writes (fun c => db + lin (dst_st ++ [ds]) c) (fun _ => Ok v)
              (map (fun x => idx ++ [x]) (rangeN 0 (N.to_nat n))) dst) as Hrun.
    { rewrite !flat_offset_lin.
      destruct (N.eqb_spec ds 1) as [->|]; apply fill_run_writes; congruence. }
    cbv zeta. rewrite Hrun. clear Hrun.
    destruct (odo_inc outer idx) as [i' c] eqn:Eo. cbn [fst]. destruct H as [H1 H2].
    destruct c.
    + destruct (H1 eq_refl) as [_ E]. rewrite E in Hnr |- *. cbn in Hnr. injection Hnr as ->.
      cbn [flat_map]. rewrite app_nil_r.
      destruct (writes _ _ _ dst); reflexivity.
    + destruct (H2 eq_refl) as [Hin' E]. rewrite E in Hnr |- *. cbn in Hnr. injection Hnr as Hnr.
      cbn [flat_map]. rewrite writes_app.
      destruct (writes _ _ (map (fun x => idx ++ [x]) (rangeN 0 (N.to_nat n))) dst) as [dst'| |]; cbn [bind]; [|reflexivity|reflexivity].
      apply IH; assumption.
Qed.

Lemma fold_mul_prod l a : fold_left N.mul l a = a * prod l.
Proof. revert a; induction l as [|x l IH]; intros a; cbn [fold_left prod]; [lia|]. rewrite IH; lia. Qed.

Lemma split_last (l : list N) n : length l = S n -> l = firstn n l ++ [nth n l 0].
Proof.
  revert l; induction n as [|n IH]; intros [|x l] H; cbn in H; try discriminate.
  - destruct l; [reflexivity|discriminate].
  - cbn. f_equal. apply IH. lia.
Qed.

Lemma shape_snoc (sh : list N) : sh <> [] -> sh = removelast sh ++ [last sh 0].
Proof. apply app_removelast_last. Qed.

Lemma runs_start outer : 0 < prod outer ->
  in_shape outer (map (fun _ => 0) outer) /\ fromz outer (map (fun _ => 0) outer) = coords outer.
Proof.
  intros H. assert (Forall (fun n => 0 < n) outer) as Hp.
  { induction outer as [|x l IH]; constructor; destruct (prod_pos_tail H); auto. }
  split; [|apply fromz_zero; exact Hp].
  unfold in_shape. clear -Hp. induction Hp; cbn; constructor; assumption.
Qed.

Lemma copy_view_writes (src : list V) sv (dst : list V) dv :
  length (v_strides sv) = length (v_shape dv) -> length (v_strides dv) = length (v_shape dv) ->
  copy_view src sv dst dv =
  writes (fun c => v_off dv + lin (v_strides dv) c) (fun c => getN src (v_off sv + lin (v_strides sv) c))
         (coords (v_shape dv)) dst.
Proof.
  intros H1 H2. unfold copy_view. destruct (v_shape dv) as [|n0 sh0] eqn:Es.
  - destruct (v_strides sv); [|discriminate]. destruct (v_strides dv); [|discriminate].
    cbn. rewrite !N.add_0_r. destruct (getN src (v_off sv)); cbn; [|reflexivity|reflexivity].
    destruct (setN dst (v_off dv) a); reflexivity.
  - set (sh := n0 :: sh0) in *.
    destruct (N.ltb_spec (lenN (v_strides sv)) (lenN sh)) as [E|_]; [unfold lenN in E; lia|].
    destruct (N.ltb_spec (lenN (v_strides dv)) (lenN sh)) as [E|_]; [unfold lenN in E; lia|].
    cbn [orb]. assert (sh <> []) as Hne by discriminate.
    assert (coords sh = coords (removelast sh ++ [last sh 0])) as -> by (rewrite <- shape_snoc; auto).
    rewrite coords_snoc.
    assert (length sh = S (length (removelast sh))) as Hl.
    { rewrite (shape_snoc Hne) at 1. rewrite app_length. cbn. lia. }
    set (nd := length (removelast sh)) in *.
    pose proof (@split_last (v_strides sv) nd ltac:(lia)) as Ess.
    pose proof (@split_last (v_strides dv) nd ltac:(lia)) as Eds.
    transitivity (writes (fun c => v_off dv + lin (firstn nd (v_strides dv) ++ [nth nd (v_strides dv) 0]) c)
      (fun c => getN src (v_off sv + lin (firstn nd (v_strides sv) ++ [nth nd (v_strides sv) 0]) c))
      (flat_map (fun o => map (fun k => o ++ [k]) (rangeN 0 (N.to_nat (last sh 0)))) (coords (removelast sh))) dst);
      [|rewrite <- Ess, <- Eds; reflexivity].
    set (outer := removelast sh) in *. rewrite fold_mul_prod, N.mul_1_l.
    destruct (N.ltb_spec 0 (prod outer)) as [Hp|Hz].
    + destruct (runs_start Hp) as [Hin Hfz]. rewrite <- Hfz. apply copy_runs_writes.
      * rewrite firstn_length. lia.
      * rewrite firstn_length. lia.
      * exact Hin.
      * rewrite Hfz. pose proof (coords_length outer) as E. unfold lenN in E. lia.
    + replace (prod outer) with 0 by lia. cbn [copy_runs N.to_nat].
      assert (coords outer = []) as ->.
      { pose proof (coords_length outer) as E. destruct (coords outer); [reflexivity|].
        rewrite lenN_cons in E. lia. }
      reflexivity.
Qed.

Lemma fill_view_writes v (dst : list V) dv :
  length (v_strides dv) = length (v_shape dv) ->
  fill_view dst dv v =
  writes (fun c => v_off dv + lin (v_strides dv) c) (fun _ => Ok v) (coords (v_shape dv)) dst.
Proof.
  intros H2. unfold fill_view. destruct (v_shape dv) as [|n0 sh0] eqn:Es.
  - destruct (v_strides dv); [|discriminate].
    cbn. rewrite !N.add_0_r. destruct (setN dst (v_off dv) v); reflexivity.
  - set (sh := n0 :: sh0) in *.
    destruct (N.ltb_spec (lenN (v_strides dv)) (lenN sh)) as [E|_]; [unfold lenN in E; lia|].
    assert (sh <> []) as Hne by discriminate.
    assert (coords sh = coords (removelast sh ++ [last sh 0])) as -> by (rewrite <- shape_snoc; auto).
    rewrite coords_snoc.
    assert (length sh = S (length (removelast sh))) as Hl.
    { rewrite (shape_snoc Hne) at 1. rewrite app_length. cbn. lia. }
    set (nd := length (removelast sh)) in *.
    pose proof (@split_last (v_strides dv) nd ltac:(lia)) as Eds.
    transitivity (writes (fun c => v_off dv + lin (firstn nd (v_strides dv) ++ [nth nd (v_strides dv) 0]) c)
      (fun _ => Ok v)
      (flat_map (fun o => map (fun k => o ++ [k]) (rangeN 0 (N.to_nat (last sh 0)))) (coords (removelast sh))) dst);
      [|rewrite <- Eds; reflexivity].
    set (outer := removelast sh) in *. rewrite fold_mul_prod, N.mul_1_l.
    destruct (N.ltb_spec 0 (prod outer)) as [Hp|Hz].
    + destruct (runs_start Hp) as [Hin Hfz]. rewrite <- Hfz. apply fill_runs_writes.
      * rewrite firstn_length. lia.
      * exact Hin.
      * rewrite Hfz. pose proof (coords_length outer) as E. unfold lenN in E. lia.
    + replace (prod outer) with 0 by lia. cbn [fill_runs N.to_nat].
      assert (coords outer = []) as ->.
      { pose proof (coords_length outer) as E. destruct (coords outer); [reflexivity|].
        rewrite lenN_cons in E. lia. }
      reflexivity.
Qed.

Theorem copy_view_spec (src dst : list V) sv dv :
  length (v_strides sv) = length (v_shape dv) -> length (v_strides dv) = length (v_shape dv) ->
  (forall c, in_shape (v_shape dv) c -> v_off sv + lin (v_strides sv) c < lenN src) ->
  (forall c, in_shape (v_shape dv) c -> v_off dv + lin (v_strides dv) c < lenN dst) ->
  (forall c d, in_shape (v_shape dv) c -> in_shape (v_shape dv) d ->
     lin (v_strides dv) c = lin (v_strides dv) d -> c = d) ->
  exists dst', copy_view src sv dst dv = Ok dst' /\ lenN dst' = lenN dst /\
    (forall c, in_shape (v_shape dv) c ->
       getN dst' (v_off dv + lin (v_strides dv) c) = getN src (v_off sv + lin (v_strides sv) c)) /\
    (forall a, (forall c, in_shape (v_shape dv) c -> a <> v_off dv + lin (v_strides dv) c) ->
       getN dst' a = getN dst a).
Proof.
  intros H1 H2 Hs Hd Hi. rewrite copy_view_writes by assumption.
  destruct (@writes_spec (fun c => v_off dv + lin (v_strides dv) c)
             (fun c => getN src (v_off sv + lin (v_strides sv) c)) (coords (v_shape dv)) dst)
    as (dst' & E & Hl & Hfr & Hv).
  - intros c Hc. apply coords_In in Hc. apply getN_in. auto.
  - intros c Hc. apply coords_In in Hc. auto.
  - exists dst'. split; [exact E|]. split; [exact Hl|]. split.
    + intros c Hc. apply Hv; [apply coords_NoDup| |apply coords_In; exact Hc].
      intros c1 d1 Hc1 Hd1 Ea. apply coords_In in Hc1, Hd1. apply Hi; auto. lia.
    + intros a Ha. apply Hfr. intros c Hc Eq. apply coords_In in Hc. apply (Ha c Hc). auto.
Qed.

Theorem fill_view_spec v (dst : list V) dv :
  length (v_strides dv) = length (v_shape dv) ->
  (forall c, in_shape (v_shape dv) c -> v_off dv + lin (v_strides dv) c < lenN dst) ->
  exists dst', fill_view dst dv v = Ok dst' /\ lenN dst' = lenN dst /\
    (forall c, in_shape (v_shape dv) c -> getN dst' (v_off dv + lin (v_strides dv) c) = Ok v) /\
    (forall a, (forall c, in_shape (v_shape dv) c -> a <> v_off dv + lin (v_strides dv) c) ->
       getN dst' a = getN dst a).
Proof.
  intros H2 Hd. rewrite fill_view_writes by assumption.
  destruct (@writes_const (fun c => v_off dv + lin (v_strides dv) c) v (coords (v_shape dv)) dst)
    as (dst' & E & Hl & Hfr & Hv).
  - intros c Hc. apply coords_In in Hc. auto.
  - exists dst'. split; [exact E|]. split; [exact Hl|]. split.
    + intros c Hc. apply Hv. apply coords_In; exact Hc.
    + intros a Ha. apply Hfr. intros c Hc Eq. apply coords_In in Hc. apply (Ha c Hc). auto.
Qed.

End Writes.

(** ** C-contiguous views and their sub-views *)
Lemma in_shape_forall_pos s c : in_shape s c -> Forall (fun n => 0 < n) s.
Proof. intros H; induction H; constructor; [lia|assumption]. Qed.

Lemma lin_suffix s c : length s = length c -> lin (suffix_prods s) c = rowmajor s c.
Proof.
  revert c; induction s as [|n s IH]; intros [|x c] H; cbn in H |- *; try discriminate; auto.
  rewrite IH by lia. reflexivity.
Qed.

Lemma lin_vadd st a b : length a = length b -> lin st (vadd a b) = lin st a + lin st b.
Proof.
  unfold vadd. revert a b; induction st as [|s st IH]; intros [|x a] [|y b] H; cbn in H |- *;
    try discriminate; try lia.
  rewrite IH by lia. lia.
Qed.

Lemma sub_in_shape s o n c : sub_of s o n -> in_shape n c -> in_shape s (vadd o c).
Proof.
  unfold sub_of, vadd. intros H Hc; revert o s H.
  induction Hc as [|x m xs ms Hx Hxs IH]; intros [|o0 o] [|s0 s] H; cbn in H; try contradiction.
  - constructor.
  - destruct H as [H0 H]. cbn. constructor; [lia|]. apply IH. exact H.
Qed.
Lemma sub_length s o n : sub_of s o n -> length o = length s /\ length n = length s.
Proof. unfold sub_of. intros H. apply all3_length in H. lia. Qed.
Lemma vadd_cancel_l o c d : length o = length c -> length o = length d -> vadd o c = vadd o d -> c = d.
Proof.
  unfold vadd. revert c d; induction o as [|o0 o IH]; intros [|x c] [|y d] H1 H2 E; cbn in *;
    try discriminate; auto.
  injection E as E0 E. f_equal; [lia|]. apply IH; congruence.
Qed.

Lemma suffix_prods_length s : length (suffix_prods s) = length s.
Proof. induction s; cbn; auto. Qed.
Lemma c_strides_length s : length (c_strides s) = length s.
Proof.
  induction s as [|x s IH]; [reflexivity|]. destruct s as [|y s]; [reflexivity|].
  change (c_strides (x :: y :: s)) with
    (match c_strides (y :: s) with s1 :: sr => mulw s1 y :: s1 :: sr | [] => [] end).
  destruct (c_strides (y :: s)); cbn in *; lia.
Qed.

Theorem subview_spec s o n c : 0 < prod s -> prod s < W64 -> sub_of s o n -> in_shape n c ->
  let v := subview (make_view s) o n in
  v_off v + lin (v_strides v) c = rowmajor s (vadd o c) /\
  v_off v + lin (v_strides v) c < prod s.
Proof.
  intros Hp Hw Hs Hc. destruct (sub_length Hs) as [Hl1 Hl2].
  assert (length c = length n) as Hlc by (apply Forall2_len in Hc; exact Hc).
  cbn [subview make_view v_off v_strides]. rewrite (c_strides_spec Hp Hw).
  rewrite flat_offset_lin, N.add_0_l, <- lin_vadd by lia.
  assert (in_shape s (vadd o c)) as Hin by (apply (sub_in_shape Hs Hc)).
  rewrite lin_suffix by (apply Forall2_len in Hin; lia).
  split; [reflexivity|]. apply rowmajor_lt. exact Hin.
Qed.

Theorem subview_inj s o n c d : 0 < prod s -> prod s < W64 -> sub_of s o n ->
  in_shape n c -> in_shape n d ->
  let v := subview (make_view s) o n in
  lin (v_strides v) c = lin (v_strides v) d -> c = d.
Proof.
  intros Hp Hw Hs Hc Hd v E. destruct (sub_length Hs) as [Hl1 Hl2].
  destruct (subview_spec Hp Hw Hs Hc) as [Ec _]. destruct (subview_spec Hp Hw Hs Hd) as [Ed _].
  fold v in Ec, Ed. apply Forall2_len in Hc as Hlc. apply Forall2_len in Hd as Hld.
  apply (@vadd_cancel_l o); [lia|lia|].
  apply (@rowmajor_inj s); [apply (sub_in_shape Hs Hc)|apply (sub_in_shape Hs Hd)|lia].
Qed.

(** Elements of a sub-view are exactly the parent elements in its box. *)
Lemma in_box_sub o n x : in_box o n x -> exists c, in_shape n c /\ x = vadd o c.
Proof.
  unfold vadd. intros H; induction H as [|o0 n0 x0 o n x H1 H2 H (c & Hc & E)].
  - exists []. split; [constructor|reflexivity].
  - exists (x0 - o0 :: c). split; [constructor; [lia|exact Hc]|]. cbn. f_equal; [lia|exact E].
Qed.
Lemma sub_in_box o n c : length o = length n -> in_shape n c -> in_box o n (vadd o c).
Proof.
  unfold vadd. intros Hl H; revert o Hl; induction H as [|x m xs ms Hx Hxs IH]; intros [|o0 o] Hl; cbn in Hl; try discriminate.
  - constructor.
  - cbn. constructor; [lia|lia|]. apply IH. lia.
Qed.

Lemma subview_full s o n c : 0 < prod s -> prod s < W64 -> sub_of s o n -> in_shape n c ->
  let v := subview (make_view s) o n in
  v_shape v = n /\ length (v_strides v) = length n /\
  v_off v + lin (v_strides v) c = rowmajor s (vadd o c) /\
  v_off v + lin (v_strides v) c < prod s.
Proof.
  intros Hp Hw Hs Hc v. split; [reflexivity|]. split.
  - cbn. rewrite c_strides_length. destruct (sub_length Hs). lia.
  - apply subview_spec; assumption.
Qed.

Lemma subview_inj' s o n c d : 0 < prod s -> prod s < W64 -> sub_of s o n ->
  in_shape n c -> in_shape n d ->
  let v := subview (make_view s) o n in
  v_off v + lin (v_strides v) c = v_off v + lin (v_strides v) d -> c = d.
Proof. intros Hp Hw Hs Hc Hd v E. eapply subview_inj; eauto. fold v. lia. Qed.
