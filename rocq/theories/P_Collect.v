(** Loops over all chunks whose threads collect values (unique, uniqueWithCounts). *)
From Coq Require Import Permutation.
From Verif Require Import M_Base M_Text M_Key M_Blocking M_Bytes M_Format M_Mode M_Shard M_Dataset M_Sharded
  M_Access M_Pool M_Parallel M_ForEach M_Functions S_Array S_Grid S_Bytes S_Pool
  P_Base P_Bytes P_Blocking P_Pool P_Foreach P_ForEach P_PoolSim.
Import List ListNotations.
Local Open Scope list_scope.
Local Open Scope N_scope.

(** What the calls for chunk [c] return: no chunk, or its elements. *)
Definition readable (cc : chunk_calls) (st : store) (c : shape) (v : option (list cell)) : Prop :=
  exists key, cc_key cc c = Ok key /\
  match v with
  | None => cc_exists cc (st key) c = Ok false
  | Some data => cc_exists cc (st key) c = Ok true /\
      exists vl, cc_varlen cc (st key) c = Ok vl /\ fst (prepare_read_buffer (cc_data cc) vl) = lenN data /\
      exists b rest, cc_read cc (st key) c (snd (prepare_read_buffer (cc_data cc) vl)) = Ok (b, data ++ rest)
  end.

(** *** Which thread processed which item *)
Section Ghost.
Variable T : nat.
Hypothesis T_pos : (0 < T)%nat.
Definition slot_for (tid : nat) : nat := if (tid <? T)%nat then tid else 0%nat.
Definition occ (m : nat -> list nat) (i : nat) : nat :=
  fold_right (fun j a => (count_occ Nat.eq_dec (m j) i + a)%nat) 0%nat (seq 0 T).

Lemma slot_lt tid : (slot_for tid < T)%nat.
Proof using T_pos. unfold slot_for. destruct (Nat.ltb_spec tid T); lia. Qed.

Lemma occ_sum (m m' : nat -> list nat) i s l k : NoDup l ->
  (forall j, m' j = if (j =? s)%nat then m j ++ [k] else m j) ->
  fold_right (fun j a => (count_occ Nat.eq_dec (m' j) i + a)%nat) 0%nat l =
  (fold_right (fun j a => (count_occ Nat.eq_dec (m j) i + a)%nat) 0%nat l +
   (if (k =? i)%nat then if existsb (Nat.eqb s) l then 1 else 0 else 0))%nat.
Proof.
  intros Nd H. induction l as [|j l IH]; [cbn; now destruct (k =? i)%nat|].
  inversion Nd as [|? ? Nj Nl]; subst. cbn [fold_right existsb]. rewrite IH by exact Nl. rewrite H.
  destruct (Nat.eqb_spec j s) as [->|Nj'].
  - rewrite count_occ_app, Nat.eqb_refl. cbn [count_occ orb].
    assert (E : existsb (Nat.eqb s) l = false).
    { destruct (existsb (Nat.eqb s) l) eqn:E; [|reflexivity]. apply existsb_exists in E. destruct E as (x & Hx & Ex). apply Nat.eqb_eq in Ex. now subst x. }
    rewrite E. destruct (Nat.eq_dec k i) as [->|N]; [rewrite Nat.eqb_refl; lia|].
    replace (k =? i)%nat with false by (symmetry; now apply Nat.eqb_neq). lia.
  - replace (s =? j)%nat with false by (symmetry; apply Nat.eqb_neq; congruence). cbn [orb]. lia.
Qed.

Lemma occ_step m tid k i : occ (fun j => if (j =? slot_for tid)%nat then m j ++ [k] else m j) i =
  (occ m i + (if (k =? i)%nat then 1 else 0))%nat.
Proof using T_pos.
  unfold occ. rewrite (@occ_sum m _ i (slot_for tid) (seq 0 T) k (seq_NoDup _ _)) by reflexivity.
  assert (E : existsb (Nat.eqb (slot_for tid)) (seq 0 T) = true).
  { apply existsb_exists. exists (slot_for tid). split; [|apply Nat.eqb_refl]. apply in_seq. pose proof (slot_lt tid). lia. }
  rewrite E. reflexivity.
Qed.

Variables (cnt : nat) (ex : nat -> bool).
Definition ghost (tid i : nat) (_ : unit) : prog (nat -> list nat) unit :=
  if ex i
  then Act (fun m => (m, Act (fun m => (m, Act (fun m => (m, Act (fun m =>
         (fun j => if (j =? slot_for tid)%nat then m j ++ [i] else m j, Ret (Ok tt)))))))))
  else Act (fun m => (m, Ret (Ok tt))).
Definition ghost_fin (i : nat) : nat -> list nat := fun j => if (j =? 0)%nat then (if ex i then [i] else []) else [].

Lemma ghost_ok : tasks_ok occ cnt (fun i tid => ghost tid i) (fun _ => True) (fun i => eq i) (fun _ => False)
  (fun _ => []) ghost_fin (fun _ => Ok tt).
Proof using All.
  assert (occ_nil : forall i, occ (fun _ => []) i = 0%nat).
  { intros i. unfold occ. induction (seq 0 T) as [|j l IH]; cbn; auto. }
  constructor.
  - intros i j l _ _ N E1 E2. subst. now apply N.
  - tauto.
  - intros i tid b Hi. unfold ghost. destruct (ex i).
    + repeat (apply confined_act; [intros m m' Hm; split; [reflexivity|intros l Hl; exact Hl]|reflexivity|intros m; cbn; clear m]).
      apply confined_act.
      * intros m m' Hm. split; [reflexivity|]. cbn [fst]. intros l Hl. rewrite !occ_step. now rewrite Hl.
      * intros m l Hl. cbn [fst]. rewrite occ_step. replace (i =? l)%nat with false by (symmetry; apply Nat.eqb_neq; exact Hl). lia.
      * intros m. constructor.
    + apply confined_act; [intros m m' Hm; split; [reflexivity|intros l Hl; exact Hl]|reflexivity|intros m; constructor].
  - intros i tid b Hi _. unfold ghost. assert (G : forall j, occ (ghost_fin i) j = if ex i then if (i =? j)%nat then 1%nat else 0%nat else 0%nat).
    { intros j. unfold occ, ghost_fin. destruct T as [|t]; [lia|]. cbn [seq fold_right]. rewrite Nat.eqb_refl.
      assert (Z : forall l, ~ In 0%nat l -> fold_right (fun j0 a => (count_occ Nat.eq_dec (if (j0 =? 0)%nat then if ex i then [i] else [] else []) j + a)%nat) 0%nat l = 0%nat).
      { induction l as [|x l IH]; intros H; [reflexivity|]. cbn [fold_right]. rewrite IH by (intros Q; apply H; now right).
        replace (x =? 0)%nat with false by (symmetry; apply Nat.eqb_neq; intros ->; apply H; now left). reflexivity. }
      rewrite Z by (intros Q; apply in_seq in Q; lia). destruct (ex i); [|reflexivity]. cbn [count_occ].
      destruct (Nat.eq_dec i j) as [->|N]; [now rewrite Nat.eqb_refl|]. replace (i =? j)%nat with false by (symmetry; now apply Nat.eqb_neq). reflexivity. }
    destruct (ex i) eqn:Ex.
    + cbn [run]. split; [|exact Logic.I]. intros l <-. cbn [fst]. rewrite occ_step, occ_nil, G, Nat.eqb_refl. reflexivity.
    + cbn [run fst snd]. split; [|exact Logic.I]. intros l <-. rewrite occ_nil, G. reflexivity.
Qed.

(** All existing items were processed by some thread, each once. *)
Lemma ghost_all threads est (junk : unit -> Prop) m1 r : foreach_run threads est cnt ghost junk tt (fun _ => []) m1 r ->
  r = Ok tt /\ Permutation (concat (map m1 (seq 0 T))) (filter ex (seq 0 cnt)).
Proof using All.
  intros H. destruct (foreach_run_ok ghost_ok (fun _ _ => Logic.I) Logic.I H (fun _ _ => eq_refl)) as (E & Ein & Eout).
  split; [exact E|]. apply (Permutation_count_occ Nat.eq_dec). intros i.
  assert (C : count_occ Nat.eq_dec (concat (map m1 (seq 0 T))) i = occ m1 i).
  { unfold occ. clear. induction (seq 0 T) as [|j l IH]; [reflexivity|]. cbn. now rewrite count_occ_app, IH. }
  rewrite C. destruct (Nat.lt_ge_cases i cnt) as [L|L].
  - rewrite (Ein i L i eq_refl). unfold ghost_fin, occ.
    assert (G : forall t, (0 < t)%nat -> fold_right (fun j a => (count_occ Nat.eq_dec (if (j =? 0)%nat then if ex i then [i] else [] else []) i + a)%nat) 0%nat (seq 0 t) = if ex i then 1%nat else 0%nat).
    { intros [|t] Lt; [lia|]. cbn [seq fold_right]. rewrite Nat.eqb_refl.
      assert (Z : forall l, ~ In 0%nat l -> fold_right (fun j0 a => (count_occ Nat.eq_dec (if (j0 =? 0)%nat then if ex i then [i] else [] else []) i + a)%nat) 0%nat l = 0%nat).
      { induction l as [|x l IH]; intros Q; [reflexivity|]. cbn [fold_right]. rewrite IH by (intros Q'; apply Q; now right).
        replace (x =? 0)%nat with false by (symmetry; apply Nat.eqb_neq; intros ->; apply Q; now left). reflexivity. }
      rewrite Z by (intros Q; apply in_seq in Q; lia). destruct (ex i); [|reflexivity]. cbn. destruct (Nat.eq_dec i i); [reflexivity|congruence]. }
    rewrite (G T T_pos).
    destruct (ex i) eqn:Ex.
    + symmetry. apply NoDup_count_occ'; [apply NoDup_filter, seq_NoDup|]. apply filter_In. split; [apply in_seq; lia|exact Ex].
    + symmetry. apply count_occ_not_In. intros Q. apply filter_In in Q. destruct Q. congruence.
  - rewrite (Eout i) by (intros j Hj ->; lia). symmetry.
    assert (Z : occ (fun _ => []) i = 0%nat) by (unfold occ; clear; induction (seq 0 T); cbn; auto). rewrite Z.
    apply count_occ_not_In. intros Q. apply filter_In in Q. destruct Q as [Q _]. apply in_seq in Q. lia.
Qed.
End Ghost.

(** *** The real code *)
Section Collect.
Variables (cc : chunk_calls) (st : store) (A : Type) (empty u : A) (add : A -> list cell -> A) (merge : A -> A -> A).
Variable v : shape -> option (list cell).
Notation s := (d_shape (cc_data cc)).
Notation b := (d_chunks (cc_data cc)).
Hypothesis dims : dims_ok s b.
Hypothesis small : prod (chunk_counts s b) < W64.
Hypothesis rd : forall c, valid_chunk s b c -> readable cc st c (v c).

Definition init_slot (i : nat) : A := match i with O => u | _ => empty end.
Definition items (l : list shape) (i : nat) : option (list cell) := v (nth i l []).
Definition is_some {X} (o : option X) : bool := match o with Some _ => true | None => false end.
Definition add_item (l : list shape) (a : A) (i : nat) : A := match items l i with Some data => add a data | None => a end.

Definition Rm (l : list shape) (T : nat) (m1 : nat -> list nat) (m2 : store * (nat -> A)) : Prop :=
  fst m2 = st /\ forall j, (j < T)%nat -> snd m2 j = fold_left (add_item l) (m1 j) (init_slot j).

Lemma visit_sim l threads tid i un : (tid < at_least_one threads)%nat -> valid_chunk s b (nth i l []) ->
  psim (Rm l (at_least_one threads)) (ghost (at_least_one threads) (fun i => is_some (items l i)) tid i un)
    (collect_visit cc threads add tid (nth i l []) un).
Proof using rd.
  intros Lt V. destruct (rd V) as (key & Ek & R). unfold ghost, collect_visit, load_chunk, items.
  rewrite Ek. cbn [plift]. destruct (v (nth i l [])) as [data|] eqn:Ev; cbn [is_some].
  - destruct R as (Ex & vl & Evl & Esz & bb & rest & Er). apply sim_act; [intros m1 m2 Hm; exact Hm|].
    intros m1 m2 [H1 _]. cbn [fst snd]. rewrite H1, Ex. cbn [plift negb]. apply sim_act; [intros m1' m2' Hm; exact Hm|].
    intros m1' m2' [H1' _]. cbn [fst snd]. rewrite H1', Evl. cbn [plift].
    destruct (prepare_read_buffer (cc_data cc) vl) as [size buf] eqn:Ep. cbn [fst snd] in Esz, Er.
    apply sim_act; [intros m1'' m2'' Hm; exact Hm|].
    intros m1'' m2'' [H1'' _]. cbn [fst snd]. rewrite H1'', Er. cbn [plift snd].
    replace (firstn (N.to_nat size) (data ++ rest)) with data.
    2:{ subst size. unfold lenN. rewrite Nnat.Nat2N.id, firstn_app, firstn_all, Nat.sub_diag. cbn. now rewrite app_nil_r. }
    unfold fupdate. rewrite (proj2 (Nat.ltb_lt _ _) Lt). apply sim_act.
    + intros n1 n2 [G1 G2]. cbn [fst snd]. split; [exact G1|]. intros j Lj. cbn [fst snd]. unfold slot_for.
      rewrite (proj2 (Nat.ltb_lt _ _) Lt). destruct (Nat.eqb_spec j tid) as [->|N]; [|now apply G2].
      rewrite fold_left_app. cbn [fold_left]. unfold add_item at 1, items. rewrite Ev. now rewrite G2.
    + intros n1 n2 _. constructor.
  - apply sim_act; [intros m1 m2 Hm; exact Hm|]. intros m1 m2 [H1 _]. cbn [fst snd]. rewrite H1, R. constructor.
Qed.

Lemma psim_flip M1 M2 B (R : M1 -> M2 -> Prop) (p1 : prog M1 B) p2 : psim R p1 p2 -> psim (fun y x => R x y) p2 p1.
Proof. induction 1; constructor; auto. Qed.

Section Monoid.
Variables (V : Type) (op : V -> V -> V) (e : V) (phi : A -> V) (g : list cell -> V).
Hypothesis op_comm : forall x y, op x y = op y x.
Hypothesis op_assoc : forall x y z, op x (op y z) = op (op x y) z.
Hypothesis op_e : forall x, op x e = x.
Variable Inv : A -> Prop.
Hypothesis inv_u : Inv u.
Hypothesis inv_empty : Inv empty.
Hypothesis inv_add : forall a data c, valid_chunk s b c -> v c = Some data -> Inv a -> Inv (add a data).
Hypothesis inv_merge : forall a a', Inv a -> Inv a' -> Inv (merge a a').
Hypothesis phi_empty : phi empty = e.
Hypothesis phi_add : forall a data c, valid_chunk s b c -> v c = Some data -> Inv a -> phi (add a data) = op (phi a) (g data).
Hypothesis phi_merge : forall a a', Inv a -> Inv a' -> phi (merge a a') = op (phi a) (phi a').

Definition total (l : list V) : V := fold_right op e l.
Definition weight (c : shape) : V := match v c with Some data => g data | None => e end.

Lemma total_app x y : total (x ++ y) = op (total x) (total y).
Proof using op_comm op_assoc op_e.
  unfold total. induction x as [|a x IH]; cbn; [now rewrite op_comm, op_e|]. now rewrite IH, op_assoc.
Qed.
Lemma total_perm x y : Permutation x y -> total x = total y.
Proof using op_comm op_assoc.
  unfold total. induction 1 as [|a x y _ IH|a a' x|x y z _ IH1 _ IH2]; cbn; [reflexivity|now rewrite IH| |congruence].
  rewrite !op_assoc. now rewrite (op_comm a' a).
Qed.

Lemma fold_items l is a : (forall i, In i is -> valid_chunk s b (nth i l []) /\ items l i <> None) -> Inv a ->
  Inv (fold_left (add_item l) is a) /\
  phi (fold_left (add_item l) is a) = op (phi a) (total (map (fun i => weight (nth i l [])) is)).
Proof using op_comm op_assoc op_e phi_add inv_add.
  revert a. induction is as [|i is IH]; intros a H Ha; [cbn; split; [exact Ha|now rewrite op_e]|].
  cbn [fold_left map total fold_right]. destruct (H i (or_introl eq_refl)) as [Vi Si].
  assert (Ex : exists data, v (nth i l []) = Some data) by (unfold items in Si; destruct (v (nth i l [])); [eauto|congruence]).
  destruct Ex as [data Ed].
  assert (E : add_item l a i = add a data) by (unfold add_item, items; now rewrite Ed). rewrite E.
  destruct (IH (add a data)) as [I1 P1].
  { intros j Hj. apply H. now right. } { eapply inv_add; eauto. }
  split; [exact I1|]. rewrite P1. rewrite (phi_add Vi Ed Ha). unfold weight at 2. rewrite Ed. unfold total. now rewrite op_assoc.
Qed.

Theorem collect_phi hw nThreads est u1 r cs : NoDup cs -> (forall c, In c cs <-> valid_chunk s b c) ->
  collect cc hw nThreads est empty add merge st u u1 r ->
  r = Ok tt /\ Inv u1 /\ phi u1 = op (phi u) (total (map weight cs)).
Proof using All.
  intros Nd Hcs H. destruct H as [m1 r H]. destruct H as [bl Ebl H].
  destruct (chunks_by_id dims Ebl small) as (l & Ll & Ndl & Hl & Hid). rewrite <- Ll in H.
  set (T := at_least_one (actual_threads hw nThreads)) in *. set (threads := actual_threads hw nThreads) in *.
  assert (Tp : (0 < T)%nat) by (unfold T, at_least_one; lia).
  set (ex i := is_some (items l i)).
  assert (VL : forall i, (i < length l)%nat -> valid_chunk s b (nth i l [])) by (intros i Hi; apply Hl, nth_In; exact Hi).
  destruct (@sim_foreach _ _ unit (fun y x => Rm l T x y) threads est (length l)
    (fun tid i st0 => plift (id_to_coord (b_strides bl) (N.of_nat i)) (fun c => collect_visit cc threads add tid c st0))
    (fun tid i st0 => ghost T ex tid i st0) (fun _ => True) tt
    (st, fun i => match i with O => u | _ => empty end) (fun _ => []) m1 r) as (g1 & Hg & Rg).
  { intros tid i un Lt Li. apply psim_flip. rewrite (Hid i Li). cbn [plift]. apply visit_sim; [|auto].
    unfold at_least_one. lia. }
  { split; [reflexivity|]. intros j Lj. reflexivity. }
  { exact H. }
  destruct (ghost_all Tp Hg) as [-> Pg]. clear H Hg.
  destruct Rg as [_ Rg].
  assert (Gin : forall j i, (j < T)%nat -> In i (g1 j) -> valid_chunk s b (nth i l []) /\ items l i <> None).
  { intros j i Lj Hi. assert (Q : In i (filter ex (seq 0 (length l)))).
    { apply (Permutation_in _ Pg). apply in_concat. exists (g1 j). split; [|exact Hi]. apply in_map. apply in_seq. lia. }
    apply filter_In in Q. destruct Q as [Q1 Q2]. apply in_seq in Q1. split; [apply VL; lia|]. unfold ex in Q2. destruct (items l i); [discriminate|discriminate Q2]. }
  set (w i := weight (nth i l [])) in *.
  assert (S0 : forall j, (j < T)%nat -> Inv (snd m1 j) /\ phi (snd m1 j) = op (phi (init_slot j)) (total (map w (g1 j)))).
  { intros j Lj. rewrite (Rg j Lj). apply fold_items; [intros i Hi; now apply (Gin j)|]. destruct j; [exact inv_u|exact inv_empty]. }
  assert (M : forall js a, (forall j, In j js -> (0 < j < T)%nat) -> Inv a ->
     Inv (fold_left (fun a i => merge a (snd m1 i)) js a) /\
     phi (fold_left (fun a i => merge a (snd m1 i)) js a) = op (phi a) (total (map w (concat (map g1 js))))).
  { induction js as [|j js IH]; intros a Hj Ha; [cbn; split; [exact Ha|now rewrite op_e]|]. cbn [fold_left map concat].
    destruct (Hj j (or_introl eq_refl)) as [J0 J1]. destruct (S0 j J1) as [Sj1 Sj2].
    destruct (IH (merge a (snd m1 j))) as [I1 P1]; [intros x Hx; apply Hj; now right|now apply inv_merge|].
    split; [exact I1|]. rewrite P1, phi_merge by assumption. rewrite Sj2. destruct j; [lia|]. cbn [init_slot]. rewrite phi_empty.
    rewrite map_app, total_app. rewrite (op_comm e), op_e. now rewrite op_assoc. }
  split; [reflexivity|]. destruct (S0 0%nat Tp) as [S1 S2].
  destruct (M (seq 1 (T - 1)) (snd m1 0%nat)) as [M1 M2]; [intros j Hj; apply in_seq in Hj; lia|exact S1|].
  split; [exact M1|]. rewrite M2, S2. cbn [init_slot]. rewrite <- op_assoc. f_equal.
  rewrite <- total_app, <- map_app.
  assert (C : g1 0%nat ++ concat (map g1 (seq 1 (T - 1))) = concat (map g1 (seq 0 T))).
  { destruct T as [|t]; [lia|]. cbn [seq map concat]. now rewrite Nat.sub_succ, Nat.sub_0_r. }
  rewrite C. rewrite (total_perm (Permutation_map w Pg)).
  assert (F : forall is, total (map w (filter ex is)) = total (map w is)).
  { induction is as [|i is IH]; [reflexivity|]. cbn [filter map]. destruct (ex i) eqn:Ei; cbn [map total fold_right]; fold (total (map w is)); [now rewrite <- IH|].
    rewrite IH. assert (W : w i = e).
    { unfold w, weight. unfold ex, is_some, items in Ei. destruct (v (nth i l [])); [discriminate|reflexivity]. }
    rewrite W, op_comm, op_e. reflexivity. }
  rewrite F. assert (ML : map w (seq 0 (length l)) = map weight l).
  { unfold w. clear. rewrite <- (map_map (fun i => nth i l []) weight). f_equal. apply nth_map_seq. }
  rewrite ML. apply total_perm. apply Permutation_map. apply NoDup_Permutation; auto.
  intros c. rewrite Hl, Hcs. reflexivity.
Qed.
End Monoid.

Theorem collect_exists hw nThreads est : exists u1, collect cc hw nThreads est empty add merge st u u1 (Ok tt).
Proof using dims small rd.
  destruct (mk_blocking s b) as [bl| |] eqn:Ebl; [|rewrite (mk_blocking_ok dims) in Ebl; discriminate..].
  destruct (chunks_by_id dims Ebl small) as (l & Ll & Ndl & Hl & Hid).
  set (threads := actual_threads hw nThreads). set (T := at_least_one threads).
  assert (Tp : (0 < T)%nat) by (unfold T, at_least_one; lia).
  set (ex i := is_some (items l i)).
  destruct (@foreach_run_exists _ _ _ _ _ _ (fun _ => True) _ _ _ _ _ _ _ (@ghost_ok T Tp (length l) ex) (fun _ _ => Logic.I)
    (ex_intro _ tt Logic.I) threads est tt Logic.I) as (g1 & r & Hg).
  destruct (ghost_all Tp Hg) as [-> _].
  destruct (@sim_foreach _ _ unit (Rm l T) threads est (length l) (fun tid i st0 => ghost T ex tid i st0)
    (fun tid i st0 => plift (id_to_coord (b_strides bl) (N.of_nat i)) (fun c => collect_visit cc threads add tid c st0))
    (fun _ => True) tt (fun _ => []) (st, fun i => match i with O => u | _ => empty end) g1 (Ok tt)) as (m1 & H & _).
  { intros tid i un Lt Li. rewrite (Hid i Li). cbn [plift]. apply visit_sim; [|apply Hl, nth_In; exact Li]. unfold at_least_one. lia. }
  { split; [reflexivity|]. intros j Lj. reflexivity. }
  { exact Hg. }
  eexists. eapply (@collected _ cc hw nThreads est empty add merge st u m1 (Ok tt)). econstructor; [exact Ebl|]. rewrite <- Ll. exact H.
Qed.
End Collect.
