(** unique, uniqueWithCounts, removeTrivialChunks, removeDataset. *)
From Coq Require Import Permutation.
From Verif Require Import M_Base M_Text M_Key M_Blocking M_Bytes M_N5Header M_Format M_Mode M_Shard M_Dataset M_Sharded
  M_Access M_Pool M_Parallel M_ForEach M_Functions S_Array S_Grid S_Bytes S_Text S_Format S_Shard S_Dataset S_Access S_Sharded
  S_Pool S_Functions
  P_Base P_Bytes P_Blocking P_View P_Format P_Dataset P_Access P_Shard P_Sharded P_ShardedApi P_Pool P_Foreach P_ForEach P_PoolSim P_Collect.
Import List ListNotations.
Local Open Scope list_scope.
Local Open Scope N_scope.

(** *** Equality of elements *)
Section Values.
Variable t : elem_type.
Notation "a ~~ b" := (elem_eq t a b) (at level 70).

Lemma eq_sym a b : (a ~~ b) = (b ~~ a).
Proof.
  unfold elem_eq. destruct (t_float t); [|apply N.eqb_sym].
  rewrite (N.eqb_sym (of_le_bytes b)). 
  destruct (_ <? of_le_bytes a mod _), (_ <? of_le_bytes b mod _); cbn; try reflexivity.
  f_equal. apply andb_comm.
Qed.
Lemma eq_trans a b c : (a ~~ b) = true -> (b ~~ c) = true -> (a ~~ c) = true.
Proof.
  unfold elem_eq. destruct (t_float t).
  - set (na := _ <? of_le_bytes a mod _). set (nb := _ <? of_le_bytes b mod _). set (nc := _ <? of_le_bytes c mod _).
    destruct na, nb, nc; cbn; try discriminate. intros H1 H2. apply orb_true_iff in H1, H2. apply orb_true_iff.
    destruct H1 as [H1|H1], H2 as [H2|H2].
    + left. apply N.eqb_eq in H1, H2. apply N.eqb_eq. congruence.
    + apply N.eqb_eq in H1. rewrite H1. now right.
    + apply N.eqb_eq in H2. rewrite <- H2. now right.
    + right. apply andb_true_iff in H1, H2. destruct H1 as [-> _], H2 as [_ ->]. reflexivity.
  - intros H1 H2. apply N.eqb_eq in H1, H2. apply N.eqb_eq. congruence.
Qed.
Lemma eq_same a b c : (a ~~ b) = true -> (a ~~ c) = (b ~~ c).
Proof.
  intros H. destruct (b ~~ c) eqn:E; [eapply eq_trans; eauto|]. destruct (a ~~ c) eqn:E2; [|reflexivity].
  rewrite <- E. symmetry. eapply eq_trans; [|exact E2]. now rewrite eq_sym.
Qed.

Definition has (v : cell) (l : list cell) : bool := existsb (fun x => x ~~ v) l.
Lemma has_member v l : has v l = true <-> member t v l.
Proof. unfold has, member. now rewrite existsb_exists. Qed.

Lemma has_insert v s x : has v (set_insert t s x) = has v s || (x ~~ v).
Proof.
  unfold set_insert. fold (has x s). destruct (has x s) eqn:E.
  - destruct (x ~~ v) eqn:Ev; [|now rewrite orb_false_r]. rewrite orb_true_r.
    apply has_member in E. apply has_member. destruct E as (y & Hy & Ey). exists y. split; [exact Hy|]. eapply eq_trans; eauto.
  - unfold has. rewrite existsb_app. cbn. now rewrite orb_false_r.
Qed.
Lemma has_insert_all v vs : forall s, has v (set_insert_all t s vs) = has v s || has v vs.
Proof.
  unfold set_insert_all. induction vs as [|x vs IH]; intros s; cbn [fold_left]; [unfold has; cbn; now rewrite orb_false_r|].
  rewrite IH, has_insert. unfold has at 4. cbn [existsb]. fold (has v vs). now rewrite orb_assoc.
Qed.
Lemma distinct_app_one s x : distinct t s -> ~ member t x s -> distinct t (s ++ [x]).
Proof.
  induction s as [|y s IH]; intros D N; cbn; [split; [|exact Logic.I]; intros (z & [] & _)|].
  destruct D as [D1 D2]. split.
  - intros (z & Hz & Ez). apply in_app_or in Hz. destruct Hz as [Hz|[<-|[]]].
    + apply D1. now exists z.
    + apply N. exists y. split; [now left|]. now rewrite eq_sym.
  - apply IH; [exact D2|]. intros (z & Hz & Ez). apply N. exists z. split; [now right|exact Ez].
Qed.
Lemma distinct_insert_all vs : forall s, distinct t s -> distinct t (set_insert_all t s vs).
Proof.
  unfold set_insert_all. induction vs as [|x vs IH]; intros s D; [exact D|]. cbn [fold_left]. apply IH.
  unfold set_insert. fold (has x s). destruct (has x s) eqn:E; [exact D|]. apply distinct_app_one; [exact D|].
  intros H. apply has_member in H. congruence.
Qed.

(** Maps. *)
Definition keys_of (m : list (cell * N)) : list cell := map fst m.
Lemma keys_add m v k : keys_of (map_add t m v k) = set_insert t (keys_of m) v.
Proof.
  unfold set_insert. induction m as [|[x n] m IH]; [reflexivity|]. cbn [map_add keys_of map fst existsb].
  destruct (x ~~ v) eqn:E; cbn [orb]; [reflexivity|]. cbn [map fst]. unfold keys_of in IH. rewrite IH.
  destruct (existsb _ (map fst m)); reflexivity.
Qed.
Lemma keys_count_all vs : forall m, keys_of (map_count_all t m vs) = set_insert_all t (keys_of m) vs.
Proof.
  unfold map_count_all, set_insert_all. induction vs as [|x vs IH]; intros m; [reflexivity|]. cbn [fold_left]. now rewrite IH, keys_add.
Qed.
Lemma keys_merge o : forall m, keys_of (map_merge t m o) = set_insert_all t (keys_of m) (keys_of o).
Proof.
  unfold map_merge, set_insert_all. induction o as [|x o IH]; intros m; [reflexivity|]. cbn [fold_left keys_of map]. fold (keys_of o). now rewrite IH, keys_add.
Qed.

(** Sum of all numbers under keys equal to [v]. *)
Fixpoint tally (m : list (cell * N)) (v : cell) : N :=
  match m with [] => 0 | (x, n) :: r => addw (if x ~~ v then n else 0) (tally r v) end.
Definition weigh (v x : cell) (k : N) : N := if x ~~ v then k else 0.

Lemma addw_comm a b : addw a b = addw b a.
Proof. unfold addw. now rewrite N.add_comm. Qed.
Lemma addw_assoc a b c : addw a (addw b c) = addw (addw a b) c.
Proof. unfold addw. rewrite N.add_mod_idemp_r, N.add_mod_idemp_l by (rewrite W64_val; lia). f_equal. lia. Qed.
Lemma addw_small a : a < W64 -> addw a 0 = a.
Proof. intros H. unfold addw. rewrite N.add_0_r. now apply N.mod_small. Qed.
Lemma addw_lt a b : addw a b < W64.
Proof. unfold addw. apply N.mod_lt. rewrite W64_val. lia. Qed.
Lemma tally_lt m v : tally m v < W64.
Proof. destruct m as [|[x n] m]; cbn; [rewrite W64_val; lia|apply addw_lt]. Qed.

Lemma tally_add m v x k : tally (map_add t m x k) v = addw (tally m v) (weigh v x k).
Proof.
  unfold weigh. induction m as [|[y n] m IH]; cbn [map_add tally].
  - apply addw_comm.
  - destruct (y ~~ x) eqn:E; cbn [tally].
    + rewrite (eq_same v E). destruct (x ~~ v).
      * rewrite <- !addw_assoc. f_equal. apply addw_comm.
      * now rewrite <- addw_assoc, (addw_small (tally_lt m v)).
    + now rewrite IH, addw_assoc.
Qed.
Lemma tally_count_all v vs : forall m, tally (map_count_all t m vs) v = addw (tally m v) (occurrences t v vs mod W64).
Proof.
  unfold map_count_all. induction vs as [|x vs IH]; intros m; cbn [fold_left occurrences].
  - rewrite N.mod_0_l by (rewrite W64_val; lia). symmetry. apply addw_small, tally_lt.
  - rewrite IH, tally_add, <- addw_assoc. f_equal. unfold weigh, addw. rewrite N.add_mod_idemp_r by (rewrite W64_val; lia). reflexivity.
Qed.
Lemma tally_merge v o : forall m, tally (map_merge t m o) v = addw (tally m v) (tally o v).
Proof.
  unfold map_merge. induction o as [|[x n] o IH]; intros m; cbn [fold_left tally].
  - symmetry. apply addw_small, tally_lt.
  - rewrite IH, tally_add, <- addw_assoc. reflexivity.
Qed.
Lemma tally_mapped m v : distinct t (keys_of m) -> tally m v = mapped t m v mod W64.
Proof.
  induction m as [|[x n] m IH]; intros D; cbn [tally mapped]; [now rewrite N.mod_0_l by (rewrite W64_val; lia)|].
  destruct D as [D1 D2]. fold (keys_of m) in *. destruct (x ~~ v) eqn:E.
  - assert (Z : tally m v = 0).
    { assert (F : forall m', ~ member t x (keys_of m') -> tally m' v = 0); [|now apply F].
      clear -E. induction m' as [|[y k] m' IH]; intros H; [reflexivity|]. cbn [tally]. rewrite IH.
      - destruct (y ~~ v) eqn:Ey; [|reflexivity]. exfalso. apply H. exists y. split; [now left|].
        eapply eq_trans; [exact Ey|]. now rewrite eq_sym.
      - intros (z & Hz & Ez). apply H. exists z. split; [now right|exact Ez]. }
    rewrite Z. unfold addw. now rewrite N.add_0_r.
  - rewrite IH by exact D2. unfold addw. rewrite N.add_mod_idemp_r by (rewrite W64_val; lia). reflexivity.
Qed.
Lemma mapped_lt m v : Forall (fun e => snd e < W64) m -> mapped t m v < W64.
Proof. induction 1 as [|[x n] m H _ IH]; cbn; [rewrite W64_val; lia|]. destruct (x ~~ v); auto. Qed.
Lemma add_bound m v k : k < W64 -> Forall (fun e => snd e < W64) m -> Forall (fun e => snd e < W64) (map_add t m v k).
Proof.
  intros Hk. induction 1 as [|[x n] m H F IH]; cbn; [constructor; auto|]. destruct (x ~~ v); constructor; auto. apply addw_lt.
Qed.

Lemma occ_app v a b : occurrences t v (a ++ b) = occurrences t v a + occurrences t v b.
Proof. induction a as [|x a IH]; cbn; [reflexivity|]. rewrite IH. lia. Qed.
Lemma occ_filter v l : occurrences t v l = lenN (filter (fun x => x ~~ v) l).
Proof. unfold lenN. induction l as [|x l IH]; [reflexivity|]. cbn. rewrite IH. destruct (x ~~ v); cbn [length]; lia. Qed.

(** Single values. *)
Lemma trivial_spec value l : comparable t l -> (trivial t value l = true <-> single_value t value l).
Proof.
  intros C. unfold trivial, single_value. destruct l as [|x l]; [split; [discriminate|intros (H & _); congruence]|].
  unfold comparable in C. inversion C as [|? ? Cx Cl]; subst. rewrite Forall_forall in Cl. rewrite andb_true_iff, forallb_forall.
  assert (U : forall y, In y l -> unordered t x y = (x ~~ y)).
  { intros y Hy. unfold unordered. rewrite Cx, (Cl y Hy). cbn. now rewrite !orb_false_r. }
  split.
  - intros [H1 H2]. assert (Q : forall y, In y (x :: l) -> (x ~~ y) = true).
    { intros y [<-|Hy]; [exact Cx|]. rewrite <- U by assumption. auto. }
    split; [discriminate|]. split.
    + intros a b Ha Hb. eapply eq_trans; [|apply (Q b Hb)]. rewrite eq_sym. now apply Q.
    + destruct value as [v|]; [|exact Logic.I]. intros a Ha. eapply eq_trans; [|exact H2]. rewrite eq_sym. now apply Q.
  - intros (_ & H1 & H2). split.
    + intros y Hy. rewrite U by assumption. apply H1; [now left|now right].
    + destruct value as [v|]; [|reflexivity]. apply H2. now left.
Qed.
End Values.

(** *** What the calls return for datasets with known contents *)
Section Plain.
Variable d : dataset.
Hypothesis ok : dataset_ok d.
Notation w := (t_width (d_type d)).
Notation valid := (valid_chunk (d_shape d) (d_chunks d)).

Lemma zeros_buffer n : buffer_of w n (repeat (zero_cell w) (N.to_nat n)).
Proof using Type.
  split; [unfold lenN; rewrite repeat_length; lia|]. apply Forall_forall. intros x Hx. apply repeat_spec in Hx. subst x.
  unfold zero_cell, lenN. rewrite repeat_length. split; [lia|]. apply Forall_forall. intros y Hy. apply repeat_spec in Hy. subst y. unfold is_byte. lia.
Qed.

(** readChunk into a larger buffer. *)
Lemma n5_read_larger st c data out : valid c -> d_zarr d = false -> chunk_holds d st c (Some (false, data)) ->
  widths w out -> lenN data <= lenN out -> read_chunk d st c out = Ok (false, data ++ skipn (length data) out).
Proof using ok.
  intros V Z (b & Es & Eb & Hd & Hl & _) Ho Le. specialize (Hl eq_refl). unfold read_chunk. rewrite (handle_ok ok V). cbn [bind].
  rewrite (check_chunk_ok ok (c := c) _ V) by reflexivity. cbn [andb bind ch_key]. unfold store_read. rewrite Es.
  destruct (extent_props ok V) as (X0 & X1 & _). pose proof (prod_chunks_small ok) as X2.
  destruct (stored_props ok V) as (_ & _ & _ & S4 & S5 & _). unfold stored_shape in *. rewrite Z in *.
  unfold data_to_buffer in Eb. cbn [andb negb] in Eb. rewrite prodw_small in Eb by lia.
  destruct (N.ltb_spec (lenN data) (prod (chunk_extent (d_shape d) (d_chunks d) c))); [lia|].
  destruct (forallb _ _); [discriminate|].
  destruct (@n5_format_roundtrip (d_codec d) (d_type d) (chunk_extent (d_shape d) (d_chunks d) c) false (lenN data) data) as (b' & Eb' & Hb).
  { refine (lossless_le _ (do_codec ok)). nia. } { apply header_shape; auto. lia. } { lia. } { exact Hd. } { auto. } { rewrite Hl. exact S5. }
  { pose proof (do_width ok). pose proof (prod_pos X0). rewrite Hl. nia. }
  rewrite <- Hl in Eb. rewrite Eb' in Eb. cbn [bind] in Eb. injection Eb as <-. now apply Hb.
Qed.

Lemma plain_readable st c r : valid c -> chunk_holds d st c r ->
  readable (plain_calls d) st c (option_map snd r).
Proof using ok.
  intros V H. exists (chunk_key (d_key d) c). unfold plain_calls. cbn [cc_key cc_exists cc_varlen cc_read cc_data].
  rewrite (handle_ok ok V). cbn [bind ch_key]. split; [reflexivity|].
  assert (H' : chunk_holds d (only (st (chunk_key (d_key d) c))) c r) by exact H.
  destruct (read_holds ok V H') as (E1 & E2 & E3 & E4). destruct r as [[vl data]|]; cbn [option_map snd]; [|exact E1].
  split; [exact E1|]. eexists. split; [exact E2|].
  destruct H as (b & Es & Eb & Hd & Hf & Ht). destruct (extent_props ok V) as (X0 & X1 & _). pose proof (prod_chunks_small ok) as X2.
  destruct vl.
  - destruct (Ht eq_refl) as (Z & T1 & T2 & T3). unfold prepare_read_buffer. cbn [fst snd negb andb]. split; [reflexivity|].
    destruct (E4 true data eq_refl (N.max (prodw (d_chunks d)) (lenN data)) (repeat (zero_cell w) (N.to_nat (N.max (prodw (d_chunks d)) (lenN data)))))
      as (rest & E & _); [apply zeros_buffer|lia|discriminate|]. exists true, rest. exact E.
  - specialize (Hf eq_refl). unfold prepare_read_buffer. cbn [fst snd negb andb]. unfold stored_shape in Hf. destruct (d_zarr d) eqn:Z; cbn [fst snd].
    + rewrite prodw_small by lia. split; [now rewrite Hf|]. rewrite N.max_id.
      destruct (E4 false data eq_refl (prod (d_chunks d)) (repeat (zero_cell w) (N.to_nat (prod (d_chunks d)))))
        as (rest & E & _); [apply zeros_buffer|lia|unfold stored_shape; now rewrite Z|]. exists false, rest. exact E.
    + split; [now rewrite Hf|]. rewrite prodw_small by lia. eexists false, _. apply (n5_read_larger V Z H').
      * exact (buffer_widths (zeros_buffer _)).
      * unfold lenN at 2. rewrite repeat_length. lia.
Qed.

(** Contents of a dataset after a history. *)
Lemma history_holds ops st st' : can_write (d_mode d) = true -> Forall (op_ok d) ops ->
  (forall c, valid c -> st (chunk_key (d_key d) c) = None) -> run_ops d ops st = (st', Ok tt) ->
  forall c, valid c -> chunk_holds d st' c (last_result d ops c None).
Proof using ok.
  intros Hm Ho He Hr c V. destruct (run_ops_spec ok Hm Ho st) as (st2 & E & Hh & _). rewrite Hr in E. injection E as <-.
  apply Hh. cbn. now apply He.
Qed.
End Plain.

Section Sharded.
Variable sd : sharded.
Hypothesis sok : sharded_ok sd.
Notation d := (sd_base sd).
Notation b := (d_chunks (sd_base sd)).
Notation valid := (valid_chunk (d_shape (sd_base sd)) (d_chunks (sd_base sd))).

Lemma sharded_readable st c r : valid c ->
  sh_chunk_exists sd st c = Ok (match r with None => false | Some _ => true end) ->
  (forall vl data, r = Some (vl, data) -> lenN data = prod b /\ vl = false /\
     forall out, buffer_of (t_width (d_type d)) (prod b) out -> sh_read_chunk sd st c out = Ok (false, data)) ->
  readable (sharded_calls sd) st c (option_map snd r).
Proof using sok.
  intros V Ex Rd. pose proof (so_base sok) as ok. pose proof (cps_pos sok) as Cp. pose proof (cps_len sok) as Cl.
  assert (Lc : length c = length b) by (pose proof (valid_len V); congruence).
  assert (Sid : exists coord, shard_id c (sd_cps sd) = Ok coord /\ length coord = length b).
  { unfold sh_chunk_exists, read_shard in Ex. destruct (shard_id c (sd_cps sd)) as [coord| |] eqn:E; cbn [bind] in Ex; try discriminate.
    exists coord. split; [reflexivity|]. clear Ex. rewrite (@shard_id_spec c (sd_cps sd) Cp) in E by congruence. injection E as <-.
    now apply (shard_of_len sok). }
  destruct Sid as (coord & Ec & Lco). destruct (shard_handle_ok sok Lco) as (bs & Eh).
  exists (chunk_key (d_key d) coord). unfold sharded_calls. cbn [cc_key cc_exists cc_varlen cc_read cc_data].
  rewrite Ec. cbn [bind]. rewrite Eh. cbn [bind ch_key]. split; [reflexivity|].
  assert (R : read_shard sd (only (st (chunk_key (d_key d) coord))) c = read_shard sd st c).
  { unfold read_shard. rewrite Ec. cbn [bind]. rewrite Eh. cbn [bind ch_key]. reflexivity. }
  assert (E1 : sh_chunk_exists sd (only (st (chunk_key (d_key d) coord))) c = sh_chunk_exists sd st c) by (unfold sh_chunk_exists; now rewrite R).
  assert (E2 : forall out, sh_read_chunk sd (only (st (chunk_key (d_key d) coord))) c out = sh_read_chunk sd st c out)
    by (intros out; unfold sh_read_chunk, sh_read_raw_chunk; now rewrite R).
  destruct r as [[vl data]|]; cbn [option_map snd].
  2:{ now rewrite E1. }
  rewrite E1. split; [exact Ex|]. destruct (Rd vl data eq_refl) as (Ld & -> & Rd').
  unfold get_chunk_size. rewrite (handle_ok ok V). cbn [bind]. eexists. split; [reflexivity|].
  unfold prepare_read_buffer. cbn [fst snd negb andb]. rewrite (so_zarr sok). rewrite (prodw_small (prod_chunks_small ok)).
  cbn [fst snd]. split; [now rewrite Ld|]. exists false, []. rewrite E2, app_nil_r. apply Rd'. rewrite N.max_id. apply zeros_buffer.
Qed.
End Sharded.

(** *** unique and uniqueWithCounts *)
Definition word64 := {n : N | (n <? W64) = true}.
Lemma word64_pf n : (n mod W64 <? W64) = true.
Proof. apply N.ltb_lt, N.mod_lt. rewrite W64_val. discriminate. Qed.
Definition to_word (n : N) : word64 := exist _ (n mod W64) (word64_pf n).
Lemma word_eq (x y : word64) : proj1_sig x = proj1_sig y -> x = y.
Proof. destruct x as [x p], y as [y q]. cbn. intros <-. f_equal. apply (Eqdep_dec.UIP_dec Bool.bool_dec). Qed.
Definition word_add (x y : word64) : word64 := to_word (proj1_sig x + proj1_sig y).
Lemma to_word_add a b : to_word (a + b) = word_add (to_word a) (to_word b).
Proof. apply word_eq. cbn. rewrite N.add_mod by (rewrite W64_val; discriminate). reflexivity. Qed.

Section Collected.
Variable cc : chunk_calls.
Variable st : store.
Variable res : shape -> option (bool * list cell).
Notation s := (d_shape (cc_data cc)).
Notation b := (d_chunks (cc_data cc)).
Notation t := (d_type (cc_data cc)).
Hypothesis dims : dims_ok s b.
Hypothesis small : prod (chunk_counts s b) < W64.
Hypothesis rd : forall c, valid_chunk s b c -> readable cc st c (option_map snd (res c)).

Lemma bool_total l : total orb false l = true <-> In true l.
Proof using Type.
  unfold total. induction l as [|[] l IH]; cbn.
  - split; [discriminate|tauto].
  - tauto.
  - rewrite IH. split; [now right|]. intros [|]; [discriminate|assumption].
Qed.

Theorem unique_general hw nThreads est u u1 r : distinct t u -> unique_run cc hw nThreads est st u u1 r ->
  r = Ok tt /\ distinct t u1 /\
  forall x, member t x u1 <-> member t x u \/ exists c, valid_chunk s b c /\ member t x (stored_values (res c)).
Proof using dims small rd.
  intros Hd Hr. unfold unique_run in Hr. cbn zeta in Hr.
  destruct (chunks_by_id dims (mk_blocking_ok dims) small) as (cs & _ & Nd & Hin & _).
  assert (G : forall x, r = Ok tt /\ distinct t u1 /\ has t x u1 = orb (has t x u) (total orb false (map (weight (fun c => option_map snd (res c)) false (has t x)) cs))).
  { intros x. refine (@collect_phi cc st _ [] u (set_insert_all t) (set_insert_all t) (fun c => option_map snd (res c)) dims small rd
      bool orb false (has t x) (has t x) orb_comm _ orb_false_r (distinct t) Hd Logic.I _ _ eq_refl _ _ hw nThreads est u1 r cs Nd Hin Hr).
    - intros. now rewrite orb_assoc.
    - intros a data c _ _ Ha. now apply distinct_insert_all.
    - intros a a' Ha _. now apply distinct_insert_all.
    - intros a data c _ _ _. apply has_insert_all.
    - intros a a' _ _. apply has_insert_all. }
  split; [apply (G [])|]. split; [apply (G [])|]. intros x. destruct (G x) as (_ & _ & E).
  rewrite <- !has_member, E, orb_true_iff, bool_total, in_map_iff. split; (intros [H|H]; [now left|right]).
  - destruct H as (c & Ec & Hc). exists c. split; [now apply Hin|]. apply has_member. unfold weight in Ec.
    destruct (res c) as [[vl data]|]; cbn in Ec |- *; [exact Ec|discriminate].
  - destruct H as (c & V & M). exists c. split; [|now apply Hin]. unfold weight. destruct (res c) as [[vl data]|]; cbn in M |- *.
    + now apply has_member.
    + destruct M as (y & [] & _).
Qed.

Lemma word_total (f : shape -> N) (v : shape -> option (list cell)) g cs :
  (forall c, f c = match v c with Some data => g data | None => 0 end) ->
  total word_add (to_word 0) (map (weight v (to_word 0) (fun data => to_word (g data))) cs) = to_word (sum_over f cs).
Proof using Type.
  intros H. unfold total. induction cs as [|c cs IH]; [reflexivity|]. cbn [map fold_right sum_over]. rewrite IH, to_word_add. f_equal.
  unfold weight. rewrite H. destruct (v c); reflexivity.
Qed.

Theorem counts_general hw nThreads est u u1 r cs : NoDup cs -> (forall c, In c cs <-> valid_chunk s b c) ->
  distinct t (map fst u) -> Forall (fun e => snd e < W64) u -> unique_counts_run cc hw nThreads est st u u1 r ->
  r = Ok tt /\ distinct t (map fst u1) /\
  (forall x, mapped t u1 x = (mapped t u x + sum_over (fun c => occurrences t x (stored_values (res c))) cs) mod W64) /\
  (forall x, member t x (map fst u1) <-> member t x (map fst u) \/ exists c, valid_chunk s b c /\ member t x (stored_values (res c))).
Proof using dims small rd.
  intros Nd Hin Hd Hb Hr. unfold unique_counts_run in Hr. cbn zeta in Hr.
  change (map fst) with keys_of in *.
  pose (Inv := fun m : list (cell * N) => distinct t (keys_of m) /\ Forall (fun e => snd e < W64) m).
  assert (W1 : 1 < W64) by (rewrite W64_val; reflexivity).
  assert (CB : forall vs m, Forall (fun e => snd e < W64) m -> Forall (fun e => snd e < W64) (map_count_all t m vs)).
  { intros vs m. unfold map_count_all. revert m. induction vs as [|y vs IH]; intros m Hm; cbn [fold_left]; [exact Hm|]. apply IH. now apply add_bound. }
  assert (MB : forall o m, Forall (fun e => snd e < W64) o -> Forall (fun e => snd e < W64) m -> Forall (fun e => snd e < W64) (map_merge t m o)).
  { unfold map_merge. induction o as [|y o IH]; intros m Ho Hm; cbn [fold_left]; [exact Hm|]. inversion Ho; subst. apply IH; [assumption|]. now apply add_bound. }
  assert (IA : forall a data c, valid_chunk s b c -> option_map snd (res c) = Some data -> Inv a -> Inv (map_count_all t a data)).
  { intros a data c _ _ [H1 H2]. split; [rewrite keys_count_all; now apply distinct_insert_all|auto]. }
  assert (IM : forall a a', Inv a -> Inv a' -> Inv (map_merge t a a')).
  { intros a a' [H1 H2] [H3 H4]. split; [rewrite keys_merge; now apply distinct_insert_all|auto]. }
  assert (W : forall a b, addw a b = (a + b) mod W64) by reflexivity.
  assert (G : forall x, r = Ok tt /\ Inv u1 /\ to_word (tally t u1 x) = word_add (to_word (tally t u x))
     (total word_add (to_word 0) (map (weight (fun c => option_map snd (res c)) (to_word 0) (fun data => to_word (occurrences t x data))) cs))).
  { intros x. refine (@collect_phi cc st _ [] u (map_count_all t) (map_merge t) (fun c => option_map snd (res c)) dims small rd
      word64 word_add (to_word 0) (fun m => to_word (tally t m x)) (fun data => to_word (occurrences t x data)) _ _ _ Inv (conj Hd Hb) (conj Logic.I (Forall_nil _)) IA IM eq_refl _ _ hw nThreads est u1 r cs Nd Hin Hr).
    - intros a a'. unfold word_add. f_equal. apply N.add_comm.
    - intros [a pa] [a' pa'] [a'' pa'']. apply word_eq. cbn. assert (W64 <> 0) by lia. rewrite N.add_mod_idemp_r, N.add_mod_idemp_l by assumption. f_equal. lia.
    - intros [a pa]. apply word_eq. cbn. rewrite (N.mod_small 0) by lia. rewrite N.add_0_r. apply N.mod_small. now apply N.ltb_lt.
    - intros a data c _ _ _. rewrite tally_count_all, W, <- to_word_add. apply word_eq. cbn. assert (W64 <> 0) by lia.
      rewrite N.mod_mod, N.add_mod_idemp_r by assumption. reflexivity.
    - intros a a' _ _. rewrite tally_merge, W, <- to_word_add. apply word_eq. cbn. assert (W64 <> 0) by lia. now rewrite N.mod_mod by assumption. }
  assert (K : forall x, r = Ok tt /\ Inv u1 /\ has t x (keys_of u1) = orb (has t x (keys_of u)) (total orb false (map (weight (fun c => option_map snd (res c)) false (has t x)) cs))).
  { intros x. refine (@collect_phi cc st _ [] u (map_count_all t) (map_merge t) (fun c => option_map snd (res c)) dims small rd
      bool orb false (fun m => has t x (keys_of m)) (has t x) orb_comm _ orb_false_r Inv (conj Hd Hb) (conj Logic.I (Forall_nil _)) IA IM eq_refl _ _ hw nThreads est u1 r cs Nd Hin Hr).
    - intros. now rewrite orb_assoc.
    - intros a data c _ _ _. rewrite keys_count_all. apply has_insert_all.
    - intros a a' _ _. rewrite keys_merge. apply has_insert_all. }
  destruct (G []) as (E & [H1 H2] & _). split; [exact E|]. split; [exact H1|]. split.
  - intros x. destruct (G x) as (_ & _ & E1).
    rewrite (@word_total (fun c => occurrences t x (stored_values (res c)))) in E1.
    2:{ intros c. destruct (res c) as [[vl data]|]; reflexivity. }
    rewrite <- to_word_add in E1. apply (f_equal (@proj1_sig _ _)) in E1. cbn in E1.
    rewrite (tally_mapped x H1), (tally_mapped x Hd) in E1. assert (W64 <> 0) by lia.
    rewrite N.mod_mod, N.add_mod_idemp_l in E1 by assumption. rewrite <- E1. symmetry. apply N.mod_small. now apply mapped_lt.
  - intros x. destruct (K x) as (_ & _ & E1).
    rewrite <- !has_member, E1, orb_true_iff, bool_total, in_map_iff. split; (intros [H|H]; [now left|right]).
    + destruct H as (c & Ec & Hc). exists c. split; [now apply Hin|]. apply has_member. unfold weight in Ec.
      destruct (res c) as [[vl data]|]; cbn in Ec |- *; [exact Ec|discriminate].
    + destruct H as (c & V & M). exists c. split; [|now apply Hin]. unfold weight. destruct (res c) as [[vl data]|]; cbn in M |- *.
      * now apply has_member.
      * destruct M as (y & [] & _).
Qed.
End Collected.

(** *** Elements of the array *)
Lemma filter_perm {X} (f : X -> bool) l l' : Permutation l l' -> lenN (filter f l) = lenN (filter f l').
Proof. intros H. unfold lenN. induction H; cbn; try destruct (f x); try destruct (f y); cbn in *; lia. Qed.
Lemma filter_map_len {X Y} (f : Y -> bool) (g : X -> Y) l : lenN (filter f (map g l)) = lenN (filter (fun x => f (g x)) l).
Proof. unfold lenN. induction l; cbn; [reflexivity|]. destruct (f (g a)); cbn; lia. Qed.
Lemma filter_ext_len {X} (f g : X -> bool) l : (forall x, In x l -> f x = g x) -> lenN (filter f l) = lenN (filter g l).
Proof. intros H. now rewrite (filter_ext_in _ _ _ H). Qed.

Lemma Injective_map_NoDup_in {X Y} (f : X -> Y) l : (forall x y, In x l -> In y l -> f x = f y -> x = y) -> NoDup l -> NoDup (map f l).
Proof.
  induction l as [|x l IH]; intros H Nd; cbn; [constructor|]. inversion Nd; subst. constructor.
  - rewrite in_map_iff. intros (y & E & Hy). assert (y = x) by (apply H; cbn; auto). congruence.
  - apply IH; [|assumption]. intros; apply H; cbn; auto.
Qed.

(** A buffer is the enumeration of the elements of its positions. *)
Lemma buffer_perm e data : prod e < W64 -> lenN data = prod e ->
  Permutation (map (fun p => cell_at data (rowmajor e p)) (coords e)) data.
Proof.
  intros Sm L. assert (E : data = map (cell_at data) (map N.of_nat (seq 0 (length data)))).
  { rewrite map_map. apply nth_ext with (d := []) (d' := cell_at data (N.of_nat 0)); [now rewrite map_length, seq_length|].
    intros n Hn. rewrite (map_nth (fun x => cell_at data (N.of_nat x))), seq_nth by assumption. unfold cell_at. now rewrite Nnat.Nat2N.id. }
  apply Permutation_trans with (map (cell_at data) (map N.of_nat (seq 0 (length data)))); [|rewrite <- E; apply Permutation_refl].
  rewrite <- (map_map (rowmajor e) (cell_at data)). apply Permutation_map. apply NoDup_Permutation.
  - apply Injective_map_NoDup_in; [|apply coords_NoDup]. intros p q Hp Hq H. apply coords_In in Hp, Hq. eapply rowmajor_inj; eauto.
  - apply FinFun.Injective_map_NoDup; [intros x y; apply Nnat.Nat2N.inj|apply seq_NoDup].
  - intros i. rewrite !in_map_iff. split.
    + intros (p & <- & Hp). apply coords_In in Hp. apply rowmajor_lt in Hp. exists (N.to_nat (rowmajor e p)). rewrite Nnat.N2Nat.id. split; [reflexivity|].
      apply in_seq. unfold lenN in L. lia.
    + intros (n & <- & Hn). apply in_seq in Hn. destruct (@rowmajor_onto e (N.of_nat n)) as (p & Hp & Ep); [unfold lenN in L; lia|exact Sm|].
      exists p. split; [exact Ep|]. now apply coords_In.
Qed.

Lemma elems_inj b : forall x y : shape, length x = length b -> length y = length b -> Forall (fun n => 0 < n) b ->
  chunk_of b x = chunk_of b y -> pos_of b x = pos_of b y -> x = y.
Proof.
  unfold chunk_of, pos_of. induction b as [|n b IH]; intros [|i x] [|j y] Lx Ly Hb Hc Hp; cbn in *; try lia; [reflexivity|].
  injection Hc as Hc1 Hc2. injection Hp as Hp1 Hp2. inversion Hb; subst. f_equal; [|apply IH; auto; lia].
  rewrite (N.div_mod i n), (N.div_mod j n) by lia. congruence.
Qed.
Lemma elems_of_chunk s : forall b c p, all2 (fun s b => 0 < b /\ s + b <= W64) s b -> valid_chunk s b c ->
  (in_shape (chunk_extent s b c) p <-> exists x, in_shape s x /\ chunk_of b x = c /\ pos_of b x = p).
Proof.
  unfold valid_chunk, in_shape, chunk_of, pos_of. induction s as [|n s IH]; intros [|m b] [|k c] p D V; cbn in D, V; try tauto.
  - cbn. split; [intros H; exists []|intros (x & Hx & _ & E)].
    + destruct p; [|inversion H]. split; [constructor|]. now split.
    + inversion Hx; subst. constructor.
  - destruct D as [[D1 D2] D], V as [V1 V]. cbn [chunk_extent]. split.
    + intros H. inversion H; subst. rename x into i, l into p'. destruct (proj1 (IH b c p' D V)) as (x & X1 & X2 & X3); [assumption|].
      exists (k * m + i :: x). assert (i < m) by lia. split; [constructor; [lia|exact X1]|]. cbn [map2].
      rewrite N.div_add_l, N.div_small, N.add_0_r by lia. rewrite N.add_comm, N.mod_add, N.mod_small by lia. split; congruence.
    + intros (x & Hx & E1 & E2). inversion Hx; subst. rename x0 into i, l into x'. cbn [map2] in *. injection E1 as Ek Ec. constructor.
      * pose proof (N.mod_lt i m). pose proof (N.div_mod i m). subst k. nia.
      * apply (IH b c); [exact D|exact V|]. exists x'. auto.
Qed.

(** Splitting a count by chunk. *)
Lemma sum_over_add f g cs : sum_over (fun c => f c + g c) cs = sum_over f cs + sum_over g cs.
Proof. induction cs as [|c cs IH]; cbn; [reflexivity|]. rewrite IH. lia. Qed.
Lemma sum_over_ext f g cs : (forall c, In c cs -> f c = g c) -> sum_over f cs = sum_over g cs.
Proof. induction cs as [|c cs IH]; cbn; intros H; [reflexivity|]. rewrite IH by auto. now rewrite H by auto. Qed.
Lemma sum_over_zero cs : sum_over (fun _ => 0) cs = 0.
Proof. induction cs; cbn; auto. Qed.
Lemma sum_over_one k cs : NoDup cs -> In k cs -> sum_over (fun c => if S_ForEach.shape_eqb k c then 1 else 0) cs = 1.
Proof.
  induction cs as [|c cs IH]; intros Nd Hk; [destruct Hk|]. inversion Nd; subst. cbn [sum_over]. destruct Hk as [->|Hk].
  - rewrite (proj2 (shape_eqb_eq k k) eq_refl). rewrite (@sum_over_ext _ (fun _ => 0)); [rewrite sum_over_zero; reflexivity|].
    intros c Hc. destruct (S_ForEach.shape_eqb k c) eqn:E; [|reflexivity]. apply shape_eqb_eq in E. congruence.
  - rewrite IH by assumption. destruct (S_ForEach.shape_eqb k c) eqn:E; [|reflexivity]. apply shape_eqb_eq in E. congruence.
Qed.
Lemma count_by (f : shape -> shape) (P : shape -> bool) cs : NoDup cs -> forall xs, (forall x, In x xs -> In (f x) cs) ->
  lenN (filter P xs) = sum_over (fun c => lenN (filter (fun x => P x && S_ForEach.shape_eqb (f x) c) xs)) cs.
Proof.
  intros Nd. induction xs as [|x xs IH]; intros H.
  - cbn. now rewrite sum_over_zero.
  - rewrite (@sum_over_ext _ (fun c => (if P x && S_ForEach.shape_eqb (f x) c then 1 else 0) + lenN (filter (fun x => P x && S_ForEach.shape_eqb (f x) c) xs))).
    2:{ intros c _. cbn [filter]. destruct (P x && S_ForEach.shape_eqb (f x) c); unfold lenN; cbn [length]; lia. }
    rewrite sum_over_add, <- IH by (intros; apply H; now right). cbn [filter]. destruct (P x) eqn:E; cbn [andb].
    + rewrite sum_over_one by (auto; apply H; now left). unfold lenN. cbn [length]. lia.
    + now rewrite sum_over_zero.
Qed.
Lemma filter_filter {X} (f g : X -> bool) l : filter (fun x => f x && g x) l = filter f (filter g l).
Proof. induction l as [|x l IH]; cbn; [reflexivity|]. destruct (g x); cbn; destruct (f x); cbn; now rewrite IH. Qed.

Lemma array_count d res x cs xs : dataset_ok d -> NoDup cs -> (forall c, In c cs <-> valid_chunk (d_shape d) (d_chunks d) c) ->
  NoDup xs -> (forall i, In i xs <-> in_shape (d_shape d) i) ->
  (forall c, valid_chunk (d_shape d) (d_chunks d) c -> stored_shape d c = chunk_extent (d_shape d) (d_chunks d) c) ->
  (forall c vl data, valid_chunk (d_shape d) (d_chunks d) c -> res c = Some (vl, data) -> lenN data = prod (stored_shape d c)) ->
  sum_over (fun c => occurrences (d_type d) x (stored_values (res c))) cs = lenN (filter (element_is d res x) xs).
Proof.
  intros ok Nc Hc Nx Hx Hs Hl. pose proof (do_dims ok) as [Dn D].
  assert (Lb : forall i, in_shape (d_shape d) i -> length i = length (d_chunks d)).
  { intros i Hi. apply in_shape_len in Hi. apply all2_length in D. lia. }
  assert (Pb : Forall (fun n => 0 < n) (d_chunks d)).
  { clear - D. revert D. generalize (d_shape d). induction (d_chunks d) as [|n r IH]; intros [|m l] D; cbn in *; try tauto; constructor; [lia|]. apply (IH l). tauto. }
  rewrite (@count_by (chunk_of (d_chunks d)) (element_is d res x) cs Nc xs).
  2:{ intros i Hi. apply Hc. apply (elem_chunk ok). now apply Hx. }
  apply sum_over_ext. intros c Hin. apply Hc in Hin. rewrite filter_filter.
  set (ys := filter (fun i => S_ForEach.shape_eqb (chunk_of (d_chunks d) i) c) xs).
  assert (Hy : forall i, In i ys <-> in_shape (d_shape d) i /\ chunk_of (d_chunks d) i = c).
  { intros i. unfold ys. rewrite filter_In, Hx, shape_eqb_eq. reflexivity. }
  destruct (res c) as [[vl data]|] eqn:Er; cbn [stored_values].
  2:{ rewrite (@filter_ext_len _ _ (fun _ => false)). { clear. induction ys; auto. } intros i Hi. apply Hy in Hi. unfold element_is. destruct Hi as [_ ->]. now rewrite Er. }
  specialize (Hl c vl data Hin Er). rewrite Hs in Hl by assumption.
  assert (Sm : prod (chunk_extent (d_shape d) (d_chunks d) c) < W64).
  { destruct (extent_props ok Hin) as (_ & X1 & _). pose proof (prod_chunks_small ok). lia. }
  rewrite occ_filter. rewrite <- (filter_perm _ (buffer_perm (data := data) Sm Hl)), filter_map_len.
  assert (Pm : Permutation (map (pos_of (d_chunks d)) ys) (coords (chunk_extent (d_shape d) (d_chunks d) c))).
  { apply NoDup_Permutation.
    - apply Injective_map_NoDup_in; [|apply NoDup_filter; exact Nx]. intros p q Hp Hq E. apply Hy in Hp, Hq. apply (@elems_inj (d_chunks d)); auto.
      + apply Lb; tauto. + apply Lb; tauto. + destruct Hp, Hq. congruence.
    - apply coords_NoDup.
    - intros p. rewrite coords_In, (@elems_of_chunk (d_shape d) (d_chunks d) c p D Hin), in_map_iff. split.
      + intros (i & <- & Hi). apply Hy in Hi. exists i. tauto.
      + intros (i & H1 & H2 & H3). exists i. split; [exact H3|]. now apply Hy. }
  rewrite <- (filter_perm _ Pm), filter_map_len. apply filter_ext_len. intros i Hi. apply Hy in Hi. destruct Hi as [_ E].
  unfold element_is. rewrite E, Er, Hs by assumption. reflexivity.
Qed.

(** *** After a history *)
Lemma last_fixed d ops c : Forall (fun o => op_ok d o /\ fixed_op o) ops -> forall init,
  (forall vl data, init = Some (vl, data) -> vl = false /\ lenN data = prod (stored_shape d c)) ->
  forall vl data, last_result d ops c init = Some (vl, data) -> vl = false /\ lenN data = prod (stored_shape d c).
Proof.
  induction 1 as [|o ops [Ho Hf] _ IH]; intros init Hi; cbn [last_result]; [exact Hi|]. apply IH.
  destruct (list_eq_dec N.eq_dec (op_chunk o) c) as [<-|]; [|exact Hi].
  destruct o as [c' data'|c' data'|c']; cbn in *; [|destruct Hf|discriminate].
  destruct (all_fill d data'); [discriminate|]. intros vl data [= <- <-]. split; [reflexivity|]. apply Ho.
Qed.

Lemma history_facts cc ops st : dataset_history cc ops st ->
  dataset_ok (cc_data cc) /\
  (forall c, valid_chunk (d_shape (cc_data cc)) (d_chunks (cc_data cc)) c ->
     readable cc st c (option_map snd (last_result (cc_data cc) ops c None))) /\
  Forall (op_ok (cc_data cc)) ops.
Proof.
  intros [d ops' st0 st' ok wr Ho He Hr|sd ops' st0 st' sok wr Ho He Hr].
  - cbn [plain_calls cc_data]. split; [exact ok|]. split; [|exact Ho]. intros c V. apply plain_readable; auto.
    eapply history_holds; eauto.
  - cbn [sharded_calls cc_data]. split; [apply (so_base sok)|]. split; [|eapply Forall_impl; [|exact Ho]; cbn; tauto]. intros c V.
    destruct (shard_chunk_map sok wr Ho He) as (st2 & E & H & _). rewrite Hr in E. injection E as <-.
    destruct (H c V) as [H1 H2]. apply sharded_readable; auto. intros vl data Er.
    destruct (last_fixed (c := c) Ho (init := None) (fun vl data (E : None = Some (vl, data)) => ltac:(discriminate E)) Er) as [-> L]. split; [|split; [reflexivity|]].
    + rewrite L. unfold stored_shape. now rewrite (so_zarr sok).
    + intros out Ho'. now apply (H2 false data Er).
Qed.

Lemma unpadded d : dataset_ok d -> no_padding d ->
  forall c, valid_chunk (d_shape d) (d_chunks d) c -> stored_shape d c = chunk_extent (d_shape d) (d_chunks d) c.
Proof.
  intros ok H c V. unfold stored_shape. destruct (d_zarr d) eqn:Z; [|reflexivity]. destruct H as [H|H]; [congruence|].
  pose proof (do_dims ok) as [_ D]. unfold valid_chunk in V. revert V D H. generalize (d_shape d), (d_chunks d). clear.
  intros s b. revert s c. induction b as [|m b IH]; intros [|n s] [|k c] V D H; cbn in *; try tauto.
  destruct V as [V1 V], D as [[D1 _] D], H as [H1 H]. f_equal; [|apply IH; auto].
  assert (Q : k < n / m). { apply N.div_lt_upper_bound in V1 || idtac. pose proof (N.div_mod n m). nia. }
  pose proof (N.div_mod n m). nia.
Qed.

Theorem unique_history cc ops st : dataset_history cc ops st ->
  prod (chunk_counts (d_shape (cc_data cc)) (d_chunks (cc_data cc))) < W64 ->
  forall hw nThreads est u u1 r, distinct (d_type (cc_data cc)) u -> unique_run cc hw nThreads est st u u1 r ->
  r = Ok tt /\ distinct (d_type (cc_data cc)) u1 /\
  forall x, member (d_type (cc_data cc)) x u1 <-> member (d_type (cc_data cc)) x u \/
    exists c, valid_chunk (d_shape (cc_data cc)) (d_chunks (cc_data cc)) c /\
      member (d_type (cc_data cc)) x (stored_values (last_result (cc_data cc) ops c None)).
Proof.
  intros H Sm hw nThreads est u u1 r Hd Hr. destruct (history_facts H) as (ok & R & _).
  exact (@unique_general cc st (fun c => last_result (cc_data cc) ops c None) (do_dims ok) Sm R hw nThreads est u u1 r Hd Hr).
Qed.

Theorem counts_history cc ops st : dataset_history cc ops st ->
  prod (chunk_counts (d_shape (cc_data cc)) (d_chunks (cc_data cc))) < W64 ->
  forall cs, all_chunks (cc_data cc) cs ->
  forall hw nThreads est u u1 r, distinct (d_type (cc_data cc)) (map fst u) -> Forall (fun e => snd e < W64) u ->
  unique_counts_run cc hw nThreads est st u u1 r ->
  r = Ok tt /\ distinct (d_type (cc_data cc)) (map fst u1) /\
  (forall x, mapped (d_type (cc_data cc)) u1 x = (mapped (d_type (cc_data cc)) u x +
     sum_over (fun c => occurrences (d_type (cc_data cc)) x (stored_values (last_result (cc_data cc) ops c None))) cs) mod W64) /\
  (forall x, member (d_type (cc_data cc)) x (map fst u1) <-> member (d_type (cc_data cc)) x (map fst u) \/
    exists c, valid_chunk (d_shape (cc_data cc)) (d_chunks (cc_data cc)) c /\
      member (d_type (cc_data cc)) x (stored_values (last_result (cc_data cc) ops c None))).
Proof.
  intros H Sm cs [Nd Hc] hw nThreads est u u1 r Hd Hb Hr. destruct (history_facts H) as (ok & R & _).
  exact (@counts_general cc st (fun c => last_result (cc_data cc) ops c None) (do_dims ok) Sm R hw nThreads est u u1 r cs Nd Hc Hd Hb Hr).
Qed.

Theorem array_values cc ops st : dataset_history cc ops st -> Forall fixed_op ops -> no_padding (cc_data cc) ->
  forall cs xs, all_chunks (cc_data cc) cs -> all_elements (cc_data cc) xs -> forall x,
  sum_over (fun c => occurrences (d_type (cc_data cc)) x (stored_values (last_result (cc_data cc) ops c None))) cs =
  lenN (filter (element_is (cc_data cc) (fun c => last_result (cc_data cc) ops c None) x) xs).
Proof.
  intros H Hf Np cs xs [Nc Hc] [Nx Hx] x. destruct (history_facts H) as (ok & _ & Ho).
  apply array_count; auto.
  - now apply unpadded.
  - intros c vl data V E. assert (F : Forall (fun o => op_ok (cc_data cc) o /\ fixed_op o) ops).
    { apply Forall_forall. intros o Hin. rewrite Forall_forall in Hf, Ho. auto. }
    apply (last_fixed (c := c) F (init := None) (fun vl data (E : None = Some (vl, data)) => ltac:(discriminate E)) E).
Qed.

(** A value is held by a stored element iff the number of such elements is positive. *)
Lemma occurs_member t x l : 0 < occurrences t x l <-> member t x l.
Proof.
  unfold member. induction l as [|y l IH]; cbn; [split; [lia|intros (z & [] & _)]|]. destruct (elem_eq t y x) eqn:E.
  - split; [intros _; exists y; auto|lia].
  - rewrite N.add_0_l, IH. split; intros (z & Hz & Ez); exists z; [auto|]. destruct Hz as [->|Hz]; [congruence|auto].
Qed.
Lemma sum_over_pos f cs : 0 < sum_over f cs <-> exists c, In c cs /\ 0 < f c.
Proof.
  induction cs as [|c cs IH]; cbn; [split; [lia|intros (c & [] & _)]|]. split.
  - intros H. destruct (N.eq_dec (f c) 0) as [E|E]; [|exists c; split; [auto|lia]]. destruct (proj1 IH) as (c' & H1 & H2); [lia|]. exists c'. auto.
  - intros (c' & [->|H1] & H2); [lia|]. assert (0 < sum_over f cs) by (apply IH; eauto). lia.
Qed.
Lemma filter_pos {X} (f : X -> bool) l : 0 < lenN (filter f l) <-> exists x, In x l /\ f x = true.
Proof.
  unfold lenN. split.
  - destruct (filter f l) as [|x r] eqn:E; cbn; [lia|]. intros _. exists x. apply filter_In. rewrite E. now left.
  - intros (x & H). apply filter_In in H. destruct (filter f l); [destruct H|cbn; lia].
Qed.
Theorem array_members cc ops st : dataset_history cc ops st -> Forall fixed_op ops -> no_padding (cc_data cc) -> forall x,
  (exists c, valid_chunk (d_shape (cc_data cc)) (d_chunks (cc_data cc)) c /\
     member (d_type (cc_data cc)) x (stored_values (last_result (cc_data cc) ops c None))) <->
  exists i, in_shape (d_shape (cc_data cc)) i /\ element_is (cc_data cc) (fun c => last_result (cc_data cc) ops c None) x i = true.
Proof.
  intros H Hf Np x. destruct (history_facts H) as (ok & _).
  assert (C : all_chunks (cc_data cc) (coords (chunk_counts (d_shape (cc_data cc)) (d_chunks (cc_data cc))))).
  { split; [apply coords_NoDup|]. intros c. rewrite coords_In. pose proof (do_dims ok) as [_ D]. rewrite <- (map2_blocks_along D). now apply valid_chunk_in_shape. }
  assert (E : all_elements (cc_data cc) (coords (d_shape (cc_data cc)))) by (split; [apply coords_NoDup|intros i; apply coords_In]).
  pose proof (array_values H Hf Np C E x) as A. pose proof (sum_over_pos (fun c => occurrences (d_type (cc_data cc)) x (stored_values (last_result (cc_data cc) ops c None)))
    (coords (chunk_counts (d_shape (cc_data cc)) (d_chunks (cc_data cc))))) as B. rewrite A, filter_pos in B.
  destruct C as [_ C], E as [_ E]. split.
  - intros (c & V & M). destruct (proj2 B) as (i & H1 & H2); [exists c; split; [now apply C|now apply occurs_member]|]. exists i. split; [now apply E|exact H2].
  - intros (i & V & M). destruct (proj1 B) as (c & H1 & H2); [exists i; split; [now apply E|exact M]|]. exists c. split; [now apply C|now apply occurs_member].
Qed.
Lemma all_chunks_exist d : dataset_ok d -> exists cs, all_chunks d cs.
Proof.
  intros ok. exists (coords (chunk_counts (d_shape d) (d_chunks d))). split; [apply coords_NoDup|].
  intros c. rewrite coords_In. pose proof (do_dims ok) as [_ D]. rewrite <- (map2_blocks_along D). now apply valid_chunk_in_shape.
Qed.
