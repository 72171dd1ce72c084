(** Proofs about what a dataset reports about itself (M_Report). *)
From Coq Require Import Lia Permutation.
From Verif Require Import M_Base M_Bytes M_Blocking M_Mode M_Key M_View M_Format M_N5Header M_Dataset M_Sharded M_Access M_Report S_Array S_Grid S_Bytes S_Format S_Dataset S_Access
  S_Report P_Base P_Blocking P_Roi P_Bytes P_Format P_Dataset P_Access.
Import List ListNotations.
Local Open Scope list_scope.
Local Open Scope N_scope.

Lemma total_app a b : total (a ++ b) = total a + total b.
Proof. induction a as [|x a IH]; cbn; [reflexivity|]. unfold total in *. rewrite IH. lia. Qed.
Lemma total_mul k l : total (map (N.mul k) l) = k * total l.
Proof. induction l as [|x l IH]; cbn; [lia|]. unfold total in *. rewrite IH. lia. Qed.
Lemma total_perm a b : Permutation a b -> total a = total b.
Proof. induction 1; cbn in *; unfold total in *; lia. Qed.

(** The chunks along one axis, and all of them. *)
Fixpoint upto (n : nat) : list N := match n with O => [] | S m => N.of_nat m :: upto m end.
Lemma upto_in n k : In k (upto n) <-> k < N.of_nat n.
Proof. induction n as [|n IH]; cbn [upto In]; [lia|]. rewrite IH. lia. Qed.
Lemma upto_nodup n : NoDup (upto n).
Proof. induction n as [|n IH]; cbn [upto]; constructor; [|exact IH]. rewrite upto_in. lia. Qed.

Fixpoint grid (s b : shape) : list shape :=
  match s, b with
  | s0 :: sr, b0 :: br => flat_map (fun k => map (cons k) (grid sr br)) (upto (N.to_nat ((s0 + b0 - 1) / b0)))
  | _, _ => [[]]
  end.

Lemma below_count s b k : 0 < b -> (k < (s + b - 1) / b <-> k * b < s).
Proof.
  intros Hb. split; intros H.
  - assert (b * ((s + b - 1) / b) <= s + b - 1) by (apply N.mul_div_le; lia). nia.
  - apply N.le_succ_l. apply N.div_le_lower_bound; [lia|]. nia.
Qed.

Lemma grid_in s : forall b c, all2 (fun s b => 0 < b /\ s + b <= W64) s b -> (In c (grid s b) <-> valid_chunk s b c).
Proof.
  unfold valid_chunk. induction s as [|s0 s IH]; intros [|b0 b] c H; cbn in H; try contradiction.
  - cbn. destruct c as [|k c]; (split; intros X); [exact Logic.I|now left|destruct X as [X|[]]; discriminate X|contradiction].
  - destruct H as [[Hb _] H]. cbn [grid]. rewrite in_flat_map. split.
    + intros (k & Hk & Hc). apply in_map_iff in Hc. destruct Hc as (r & <- & Hr). apply (IH _ _ H) in Hr.
      apply upto_in in Hk. rewrite N2Nat.id in Hk. cbn. split; [now apply below_count|exact Hr].
    + destruct c as [|k c]; [contradiction|]. intros [Hk Hc]. exists k. split.
      * apply upto_in. rewrite N2Nat.id. now apply below_count.
      * apply in_map, (IH _ _ H), Hc.
Qed.

Lemma grid_nodup s : forall b, NoDup (grid s b).
Proof.
  induction s as [|s0 s IH]; intros [|b0 b]; cbn [grid]; try (constructor; [intros []|constructor]).
  specialize (IH b). pose proof (upto_nodup (N.to_nat ((s0 + b0 - 1) / b0))) as U. induction U as [|k l Hk U IHl]; cbn [flat_map]; [constructor|].
  assert (D : forall A (x y : list A), NoDup x -> NoDup y -> (forall a, In a x -> ~ In a y) -> NoDup (x ++ y)).
  { clear. intros A x y Hx Hy Hd. induction Hx as [|a x Ha Hx IH]; [exact Hy|]. cbn. constructor.
    - rewrite in_app_iff. intros [X|X]; [now apply Ha|]. apply (Hd a); [now left|exact X].
    - apply IH. intros c Hc. apply Hd. now right. }
  apply D; [|exact IHl|].
  - apply FinFun.Injective_map_NoDup; [|exact IH]. intros x y E. now injection E.
  - intros a Ha Hb. apply in_map_iff in Ha. destruct Ha as (r & <- & _). apply in_flat_map in Hb.
    destruct Hb as (k' & Hk' & Hb). apply in_map_iff in Hb. destruct Hb as (r' & E & _). injection E as -> _. contradiction.
Qed.

Lemma along_total b s n : 0 < b -> N.of_nat n <= (s + b - 1) / b ->
  total (map (fun k => N.min ((k + 1) * b) s - k * b) (upto n)) = N.min (N.of_nat n * b) s.
Proof.
  intros Hb. induction n as [|n IH]; intros Hn; [cbn; lia|].
  cbn [upto map total fold_right]. fold (total (map (fun k => N.min ((k + 1) * b) s - k * b) (upto n))).
  rewrite IH by lia. assert (N.of_nat n * b < s) by (apply below_count; lia). nia.
Qed.

Lemma grid_total s : forall b, all2 (fun s b => 0 < b /\ s + b <= W64) s b ->
  total (map (fun c => prod (chunk_extent s b c)) (grid s b)) = prod s.
Proof.
  induction s as [|s0 s IH]; intros [|b0 b] H; cbn in H; try contradiction; [reflexivity|].
  destruct H as [[Hb _] H]. specialize (IH b H). cbn [grid prod].
  assert (G : forall l, total (map (fun c => prod (chunk_extent (s0 :: s) (b0 :: b) c)) (flat_map (fun k => map (cons k) (grid s b)) l)) =
    total (map (fun k => N.min ((k + 1) * b0) s0 - k * b0) l) * prod s).
  { induction l as [|k l IHl]; [reflexivity|]. cbn [flat_map]. rewrite map_app, total_app, IHl. cbn [map total fold_right].
    fold (total (map (fun k => N.min ((k + 1) * b0) s0 - k * b0) l)).
    rewrite map_map. cbn [chunk_extent prod].
    rewrite <- (map_map (fun c => prod (chunk_extent s b c)) (N.mul (N.min ((k + 1) * b0) s0 - k * b0))), total_mul, IH. lia. }
  rewrite G, along_total by (try rewrite N2Nat.id; lia). rewrite N2Nat.id. f_equal. apply N.min_r.
  assert (s0 + b0 - 1 < b0 * ((s0 + b0 - 1) / b0 + 1)) by (rewrite N.add_1_r; apply N.mul_succ_div_gt; lia). nia.
Qed.

Lemma counts_le s : forall b, all2 (fun s b => 0 < b /\ s + b <= W64) s b -> prod (chunk_counts s b) <= prod s.
Proof.
  unfold chunk_counts. induction s as [|s0 s IH]; intros [|b0 b] H; cbn in H; try contradiction; cbn [map2 prod]; [lia|].
  destruct H as [[Hb _] H]. specialize (IH b H). apply N.mul_le_mono; [|exact IH].
  destruct (N.eq_dec s0 0) as [->|]; [rewrite N.div_small; lia|]. apply N.div_le_upper_bound; [lia|]. nia.
Qed.

Lemma origin_box s : forall b c x, valid_chunk s b c -> (in_box (chunk_origin b c) (chunk_extent s b c) x <-> in_chunk s b c x).
Proof.
  unfold chunk_origin, valid_chunk, in_chunk. induction s as [|s0 s IH]; intros [|b0 b] [|k c] x V; cbn in V; try contradiction.
  - cbn. destruct x; (split; intros X); [exact Logic.I|constructor|inversion X|contradiction].
  - destruct V as [V0 V]. cbn. split; intros X.
    + inversion X as [|? ? y ? ? r A B C]; subst. split; [lia|]. now apply IH.
    + destruct x as [|y r]; [contradiction|]. destruct X as [A C]. constructor; [lia|lia|]. now apply IH.
Qed.

Section One.
Variable d : dataset.
Hypothesis ok : dataset_ok d.
Let s := d_shape d.
Let b := d_chunks d.

Lemma dims_all : all2 (fun s b => 0 < b /\ s + b <= W64) s b.
Proof. apply (do_dims ok). Qed.

Lemma chunk_size_ok c : valid_chunk s b c -> get_chunk_size d c = Ok (prod (chunk_extent s b c)).
Proof.
  intros V. unfold get_chunk_size. rewrite (handle_ok ok V). cbn [bind ch_bounded].
  destruct (extent_props ok V) as (_ & X & _). pose proof (prod_chunks_small ok) as Y. f_equal. apply prodw_small. eapply N.le_lt_trans; [exact X|exact Y].
Qed.

Theorem reported_sizes : prod s < W64 ->
  ds_size d = prod s /\ (forall n r, s = n :: r -> ds_len d = Ok n) /\
  (exists cpd, chunks_per_dimension d = Ok cpd /\ forall c, in_shape cpd c <-> valid_chunk s b c) /\
  forall l, NoDup l -> (forall c, In c l <-> valid_chunk s b c) ->
    number_of_chunks d = Ok (lenN l) /\
    exists ns, Forall2 (fun c n => get_chunk_size d c = Ok n) l ns /\ total ns = ds_size d.
Proof.
  intros P. assert (S : ds_size d = prod s) by (apply prodw_small, P). split; [exact S|]. split.
  { intros n r E. unfold ds_len. fold s. rewrite E. reflexivity. }
  assert (PC : prod (chunk_counts s b) < W64) by (pose proof (counts_le dims_all); lia).
  pose proof (mk_blocking_ok (do_dims ok)) as M. fold s b in M. split.
  { exists (chunk_counts s b). unfold chunks_per_dimension, d_blocking. fold s b. rewrite M. split; [reflexivity|].
    pose proof dims_all as H. clear -H. revert H. generalize b. induction s as [|s0 s1 IH]; intros [|b0 b1] H c; cbn in H; try contradiction.
    - unfold in_shape, valid_chunk. cbn. split; intros X; [now inversion X|]. destruct c; [constructor|contradiction].
    - destruct H as [[Hb _] H]. unfold in_shape, valid_chunk, chunk_counts in *. cbn. split; intros X.
      + inversion X as [|k c' n l Hk Hr]; subst. split; [now apply below_count|]. apply (IH _ H), Hr.
      + destruct c as [|k c]; [contradiction|]. destruct X as [Hk Hr]. constructor; [now apply below_count|]. apply (IH _ H), Hr. }
  intros l Nd Hl.
  destruct (chunk_count_exact (do_dims ok) M PC) as (l' & Nd' & Hl' & Ln).
  assert (Pm : Permutation l l') by (apply NoDup_Permutation; auto; intros c; now rewrite Hl, Hl').
  split.
  { unfold number_of_chunks, d_blocking. fold s b. rewrite M. cbn [bind]. rewrite <- Ln. unfold lenN. now rewrite (Permutation_length Pm). }
  exists (map (fun c => prod (chunk_extent s b c)) l). split.
  - clear Nd Pm. assert (Forall (valid_chunk s b) l) as F by (apply Forall_forall; intros c Hc; now apply Hl). clear Hl.
    induction F as [|c l V F IH]; cbn; constructor; auto. now apply chunk_size_ok.
  - rewrite S, <- (grid_total dims_all). apply total_perm, Permutation_map, NoDup_Permutation; auto; [apply grid_nodup|].
    intros c. rewrite Hl. symmetry. apply grid_in, dims_all.
Qed.

Theorem reported_chunk c : valid_chunk s b c ->
  exists o e, get_chunk_offset d c = Ok o /\ get_chunk_shape d c = Ok e /\ get_chunk_size d c = Ok (prod e) /\
    forall x, in_box o e x <-> in_chunk s b c x.
Proof.
  intros V. exists (chunk_origin b c), (chunk_extent s b c).
  destruct (valid_length V) as [L1 L2]. split; [|split; [apply chunk_shape_ok; auto|split; [now apply chunk_size_ok|]]].
  - unfold get_chunk_offset, lenN. rewrite L1, L2, !N.ltb_irrefl.
    rewrite <- L1, firstn_all. destruct (block_shape_extent (do_dims ok) V) as (_ & _ & E). f_equal. exact E.
  - intros x. apply origin_box, V.
Qed.

Lemma header_held st c r : valid_chunk s b c -> chunk_holds d st c r -> r <> None ->
  forall fh, get_chunk_shape_from d st c fh = Ok (chunk_extent s b c).
Proof.
  intros V H N fh. unfold get_chunk_shape_from. rewrite (handle_ok ok V). cbn [bind ch_key ch_bounded]. fold s b.
  destruct r as [[vl data]|]; [|contradiction]. destruct H as (f & E & Eb & Hd & Hf & Ht). rewrite E.
  destruct (d_zarr d) eqn:Z; [reflexivity|]. destruct fh; [|reflexivity]. cbn [negb andb].
  destruct (encode_header Eb) as (payload & ->). destruct vl.
  - destruct (Ht Logic.eq_refl) as (_ & T1 & T2 & _).
    exact (proj1 (@n5_header_shape_roundtrip _ true (lenN data) payload (header_shape ok Z V T2))).
  - change (write_n5_header ?s false ?v) with (write_n5_header s false 0).
    exact (proj1 (@n5_header_shape_roundtrip _ false 0 payload (header_shape ok Z V (k:=0) ltac:(reflexivity)))).
Qed.

Theorem header_chunks ops st st' : can_write (d_mode d) = true -> Forall (op_ok d) ops ->
  (forall c, valid_chunk s b c -> st (chunk_key (d_key d) c) = None) -> run_ops d ops st = (st', Ok tt) ->
  forall c fh, valid_chunk s b c -> chunk_exists d st' c = Ok true -> get_chunk_shape_from d st' c fh = get_chunk_shape d c.
Proof.
  intros Hm Ho H0 E c fh V X. destruct (run_ops_spec ok Hm Ho st) as (st2 & E2 & H1 & _). rewrite E in E2. injection E2 as <-.
  assert (Hr : chunk_holds d st' c (last_result d ops c None)) by (apply H1; cbn; auto).
  rewrite (header_held V Hr); [symmetry; now apply chunk_shape_ok|].
  intros N. rewrite N in Hr. destruct (read_holds ok V Hr) as (R & _). rewrite R in X. discriminate X.
Qed.

Theorem header_array ops st st' : can_write (d_mode d) = true -> Forall (array_op_ok d) ops ->
  (forall c, valid_chunk s b c -> st (chunk_key (d_key d) c) = None) -> run_array_ops d ops st = (st', Ok tt) ->
  forall c fh, valid_chunk s b c -> chunk_exists d st' c = Ok true -> get_chunk_shape_from d st' c fh = get_chunk_shape d c.
Proof.
  intros Hm Ho H0 E c fh V X.
  destruct (run_array_ops_spec ok Hm Ho (st:=st) (C:=fun _ => None) (a:=fun _ => d_fill d)) as (st2 & C & E2 & H1 & _).
  { apply holds_empty; auto. } { intros x Hx. now left. }
  rewrite E in E2. injection E2 as <-. specialize (H1 c V).
  rewrite (header_held V H1); [symmetry; now apply chunk_shape_ok|].
  intros N. rewrite N in H1. destruct (read_holds ok V H1) as (R & _). rewrite R in X. discriminate X.
Qed.
End One.

Lemma reported_axis d st c fh e : get_chunk_shape_from d st c fh = Ok e ->
  forall i n, nth_error e i = Some n -> get_chunk_shape_dim d st c (N.of_nat i) fh = Ok n.
Proof.
  intros E i n H. unfold get_chunk_shape_dim. rewrite E. cbn [bind]. apply getN_ok. now rewrite Nat2N.id.
Qed.
Lemma reported_axes d : dataset_ok d -> forall st c, valid_chunk (d_shape d) (d_chunks d) c ->
  exists e, get_chunk_shape d c = Ok e /\ length e = length (d_shape d) /\
    forall i n, nth_error e i = Some n -> get_chunk_shape_dim d st c (N.of_nat i) false = Ok n.
Proof.
  intros ok st c Hc. pose proof (handle_ok ok Hc) as H.
  assert (E : exists e, get_chunk_shape d c = Ok e /\ get_chunk_shape_from d st c false = Ok e /\ length e = length (d_shape d)).
  { unfold get_chunk_shape, get_chunk_shape_from. rewrite H. cbn [bind ch_bounded]. rewrite andb_false_r. eexists.
    split; [reflexivity|]. split; [reflexivity|].
    destruct (extent_props ok Hc) as (_ & _ & _ & L). destruct (valid_length Hc). cbn [ch_bounded]. congruence. }
  destruct E as (e & E1 & E2 & E3). exists e. split; [exact E1|]. split; [exact E3|]. intros i n. now apply reported_axis.
Qed.
Lemma reported_dimension d : lenN (d_shape d) < 2 ^ 32 -> ds_dimension d = lenN (d_shape d).
Proof. apply N.mod_small. Qed.
