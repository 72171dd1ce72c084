(** Proofs about shards. *)
From Verif Require Import M_Base S_Array S_Grid S_Bytes S_Crc S_Shard
  M_Bytes M_Crc M_Shard P_Base P_Blocking P_Bytes P_Crc.

(** ** addressing *)
Definition pos_all (l : list N) : Prop := Forall (fun c => 0 < c) l.

Lemma shard_id_spec id : forall cps, pos_all cps -> length id = length cps ->
  shard_id id cps = Ok (shard_of cps id).
Proof.
  unfold shard_of. induction id as [|i id IH]; intros [|c cps] Hp Hl; cbn in Hl |- *; try discriminate; [reflexivity|].
  inversion Hp; subst. destruct (N.eqb_spec c 0); [lia|]. rewrite IH by (auto; lia). reflexivity.
Qed.

Lemma pos_in_shape id : forall cps, pos_all cps -> length id = length cps -> in_shape cps (pos_in_shard cps id).
Proof.
  unfold in_shape, pos_in_shard. induction id as [|i id IH]; intros [|c cps] Hp Hl; cbn in Hl |- *; try discriminate; constructor.
  - inversion Hp; subst. lia.
  - inversion Hp; subst. apply IH; auto.
Qed.

Lemma slot_loop_spec id : forall cps acc, pos_all cps -> length id = length cps ->
  acc * prod cps + rowmajor cps (pos_in_shard cps id) < W64 ->
  shard_slot_loop acc id cps = Ok (acc * prod cps + rowmajor cps (pos_in_shard cps id)).
Proof.
  unfold pos_in_shard. induction id as [|i id IH]; intros [|c cps] acc Hp Hl Hw; cbn in Hl; try discriminate.
  - cbn. f_equal. lia.
  - inversion Hp as [|? ? Hc Hp']; subst. cbn [shard_slot_loop map2 rowmajor prod] in *.
    destruct (N.eqb_spec c 0); [lia|].
    assert (0 < prod cps) as Hpp by (apply prod_pos; exact Hp').
    assert (acc * c + i mod c < W64) as Hs by nia.
    rewrite mulw_small by nia. rewrite addw_small by exact Hs.
    rewrite IH; [|exact Hp'|lia|nia]. f_equal. lia.
Qed.
Lemma shard_slot_spec id cps : pos_all cps -> length id = length cps -> prod cps <= W64 ->
  shard_slot id cps = Ok (rowmajor cps (pos_in_shard cps id)) /\
  rowmajor cps (pos_in_shard cps id) < prod cps.
Proof.
  intros Hp Hl Hw. pose proof (rowmajor_lt (pos_in_shape Hp Hl)) as H. split; [|exact H].
  unfold shard_slot. rewrite slot_loop_spec by (auto; lia). f_equal.
Qed.

Lemma shard_pos_inj cps : pos_all cps -> forall a b, length a = length cps -> length b = length cps ->
  shard_of cps a = shard_of cps b -> pos_in_shard cps a = pos_in_shard cps b -> a = b.
Proof.
  unfold shard_of, pos_in_shard. intros Hp; induction Hp as [|c cps Hc Hp IH]; intros [|x a] [|y b] Ha Hb E1 E2; cbn in *; try discriminate; auto.
  injection E1 as E1 E1'. injection E2 as E2 E2'. f_equal; [|apply IH; lia || assumption].
  rewrite (N.div_mod x c), (N.div_mod y c) by lia. congruence.
Qed.

Theorem shard_addressing cps : pos_all cps -> prod cps <= W64 ->
  (* every inner chunk has a shard and a slot below the number of slots *)
  (forall a, length a = length cps ->
     exists slot, shard_id a cps = Ok (shard_of cps a) /\ shard_slot a cps = Ok slot /\
       slot = rowmajor cps (pos_in_shard cps a) /\ slot < prod cps) /\
  (* and they determine it *)
  (forall a b, length a = length cps -> length b = length cps ->
     shard_id a cps = shard_id b cps -> shard_slot a cps = shard_slot b cps -> a = b) /\
  (* every slot of every shard belongs to an inner chunk *)
  (forall sid slot, length sid = length cps -> slot < prod cps ->
     exists a, length a = length cps /\ shard_id a cps = Ok sid /\ shard_slot a cps = Ok slot).
Proof.
  intros Hp Hw. split; [|split].
  - intros a Ha. exists (rowmajor cps (pos_in_shard cps a)).
    destruct (shard_slot_spec Hp Ha Hw). rewrite shard_id_spec by assumption. auto.
  - intros a b Ha Hb E1 E2. rewrite !shard_id_spec in E1 by assumption. injection E1 as E1.
    destruct (shard_slot_spec Hp Ha Hw) as [Ea _]. destruct (shard_slot_spec Hp Hb Hw) as [Eb _].
    rewrite Ea, Eb in E2. injection E2 as E2.
    apply rowmajor_inj in E2; [|apply pos_in_shape; assumption|apply pos_in_shape; assumption].
    eapply shard_pos_inj; eassumption.
  - intros sid slot Hs Hlt.
    assert (exists p, in_shape cps p /\ rowmajor cps p = slot) as (p & Hin & Er).
    { clear -Hp Hlt. unfold in_shape. revert slot Hlt. induction Hp as [|c cps Hc Hp IH]; intros slot Hlt.
      - exists []. cbn in *. split; [constructor|lia].
      - cbn [prod] in Hlt. assert (0 < prod cps) as Hpp by (apply prod_pos; exact Hp).
        destruct (div_facts slot Hpp) as (q & r & Eq & Er & E & Hr).
        destruct (IH r Hr) as (p & Hin & Ep). exists (q :: p). split.
        + constructor; [nia|exact Hin].
        + cbn [rowmajor]. lia. }
    exists (vadd (map2 N.mul sid cps) p).
    assert (length p = length cps) as Hlp by (apply Forall2_len in Hin; exact Hin).
    assert (shard_of cps (vadd (map2 N.mul sid cps) p) = sid /\
            pos_in_shard cps (vadd (map2 N.mul sid cps) p) = p /\
            length (vadd (map2 N.mul sid cps) p) = length cps) as (E1 & E2 & E3).
    { clear -Hin Hs. unfold shard_of, pos_in_shard, vadd. revert sid Hs.
      induction Hin as [|x c p cps Hx Hin IH]; intros [|s sid] Hs; cbn in Hs; try discriminate; [auto|].
      cbn [map2 length]. destruct (IH sid) as (H1 & H2 & H3); [lia|].
      rewrite H1, H2, H3. repeat split; f_equal.
      - rewrite N.div_add_l by lia. rewrite N.div_small by exact Hx. lia.
      - rewrite N.add_comm, N.mod_add by lia. apply N.mod_small; exact Hx. }
    split; [exact E3|]. rewrite shard_id_spec by assumption. rewrite E1. split; [reflexivity|].
    destruct (shard_slot_spec Hp E3 Hw) as [Es _]. rewrite Es, E2, Er. reflexivity.
Qed.

(** ** parsing is safe *)
Lemma read_le64_ok b off : off + 8 <= lenN b -> exists v, read_le64 b off = Ok v.
Proof. intros H. unfold read_le64. rewrite read_bytes_ok by exact H. cbn. eauto. Qed.

Definition entry_in (indexStart : N) (e : entry) : Prop :=
  entry_empty e = false -> e_offset e + e_nbytes e <= indexStart.

Lemma parse_entries_safe shard start : forall n s, start + 16 * (s + N.of_nat n) <= lenN shard ->
  parse_entries shard start s n = Ok None \/
  exists es, parse_entries shard start s n = Ok (Some es) /\ length es = n /\ Forall (entry_in start) es.
Proof.
  induction n as [|n IH]; intros s H; cbn [parse_entries].
  - right. exists []. auto.
  - destruct (@read_le64_ok shard (start + 16 * s)) as [off ->]; [lia|]. cbn [bind].
    destruct (@read_le64_ok shard (start + 16 * s + 8)) as [nb ->]; [lia|]. cbn [bind].
    destruct (negb _ && _) eqn:Ec; [left; reflexivity|].
    destruct (IH (s + 1)) as [->|(es & -> & Hl & Hf)]; [lia|left; reflexivity|].
    right. cbn [bind]. eexists. split; [reflexivity|]. split; [cbn; lia|]. constructor; [|exact Hf].
    intros He. rewrite He in Ec. cbn [negb andb e_offset e_nbytes] in *.
    apply orb_false_iff in Ec as [E1 E2]. apply N.ltb_ge in E1, E2. lia.
Qed.

Theorem parse_shard_safe shard n :
  parse_shard_index shard n = Ok None \/
  exists es blobs, parse_shard_index shard n = Ok (Some es) /\ lenN es = n /\
    16 * n + 4 <= lenN shard /\
    Forall (entry_in (lenN shard - (16 * n + 4))) es /\
    extract_shard_blobs shard es = Ok blobs /\ lenN blobs = n.
Proof.
  unfold parse_shard_index. destruct (N.ltb_spec (lenN shard) (16 * n + 4)) as [|Hl]; [left; reflexivity|].
  unfold read_le32. rewrite (@read_bytes_ok shard (lenN shard - 4) 4) by lia. cbn [bind].
  rewrite (@read_bytes_ok shard (lenN shard - (16 * n + 4)) (16 * n)) by lia. cbn [bind].
  destruct (negb _); [left; reflexivity|].
  destruct (@parse_entries_safe shard (lenN shard - (16 * n + 4)) (N.to_nat n) 0) as [->|(es & -> & Hle & Hf)];
    [lia|left; reflexivity|].
  right. exists es.
  assert (exists blobs, extract_shard_blobs shard es = Ok blobs /\ length blobs = length es) as (blobs & Eb & Hlb).
  { clear Hle. induction Hf as [|e es He Hf (blobs & E & Hlb)]; cbn [extract_shard_blobs]; [exists []; auto|].
    destruct (entry_empty e) eqn:Ee; cbn [bind].
    - rewrite E. cbn [bind]. eexists; split; [reflexivity|cbn; lia].
    - specialize (He Ee). rewrite read_bytes_ok by lia. cbn [bind]. rewrite E. cbn [bind].
      eexists; split; [reflexivity|cbn; lia]. }
  exists blobs. unfold lenN in *. repeat split; auto; lia.
Qed.

(** ** round trip *)
Lemma index_bytes_length es : lenN (index_bytes es) = 16 * lenN es.
Proof.
  unfold index_bytes. induction es as [|e es IH]; [reflexivity|]. cbn [flat_map].
  rewrite !lenN_app, IH, lenN_cons, !write_le64_spec, !lenN_le_bytes. lia.
Qed.
Lemma index_bytes_all es : all_bytes (index_bytes es).
Proof.
  unfold index_bytes, all_bytes. induction es as [|e es IH]; [constructor|]. cbn [flat_map].
  rewrite !write_le64_spec. repeat (apply Forall_app; split); auto; apply le_bytes_all.
Qed.

Lemma shard_entries_length blobs : forall size, length (shard_entries size blobs) = length blobs.
Proof. induction blobs as [|[|x b] r IH]; intros; cbn; auto. Qed.

Lemma parse_entries_index data es tail start : start = lenN data ->
  Forall (fun e => e_offset e < W64 /\ e_nbytes e < W64 /\ entry_in start e) es ->
  forall pre s, lenN pre = 16 * s ->
  parse_entries (data ++ pre ++ index_bytes es ++ tail) start s (length es) = Ok (Some es).
Proof.
  intros Hs Hf. induction Hf as [|e es (Ho & Hn & Hi) Hf IH]; intros pre s Hp; [reflexivity|].
  cbn [length parse_entries]. unfold index_bytes. cbn [flat_map]. fold (index_bytes es).
  set (w1 := write_le64 (e_offset e)) in *. set (w2 := write_le64 (e_nbytes e)) in *.
  assert (lenN w1 = 8) as L1 by (unfold w1; rewrite write_le64_spec, lenN_le_bytes; reflexivity).
  assert (lenN w2 = 8) as L2 by (unfold w2; rewrite write_le64_spec, lenN_le_bytes; reflexivity).
  assert (read_le64 (data ++ pre ++ ((w1 ++ w2) ++ index_bytes es) ++ tail) (start + 16 * s) = Ok (e_offset e)) as ->.
  { pose proof (@le64_roundtrip (e_offset e) (data ++ pre) (w2 ++ index_bytes es ++ tail)) as H.
    fold w1 in H. rewrite <- !app_assoc in *. rewrite lenN_app in H. rewrite Hs, <- Hp. apply H. exact Ho. }
  cbn [bind].
  assert (read_le64 (data ++ pre ++ ((w1 ++ w2) ++ index_bytes es) ++ tail) (start + 16 * s + 8) = Ok (e_nbytes e)) as ->.
  { pose proof (@le64_roundtrip (e_nbytes e) (data ++ pre ++ w1) (index_bytes es ++ tail)) as H.
    fold w2 in H. rewrite <- !app_assoc in *. rewrite !lenN_app, L1 in H. rewrite Hs, <- Hp, <- N.add_assoc. apply H. exact Hn. }
  cbn [bind]. destruct e as [o nb]; cbn [e_offset e_nbytes] in *.
  assert (negb (entry_empty (Entry o nb)) && ((start <? o) || (start - o <? nb)) = false) as ->.
  { destruct (entry_empty (Entry o nb)) eqn:Ee; [reflexivity|]. specialize (Hi Ee). cbn in Hi. cbn [negb andb].
    apply orb_false_iff. split; apply N.ltb_ge; lia. }
  specialize (IH (pre ++ w1 ++ w2) (s + 1)). rewrite <- !app_assoc in IH |- *. rewrite IH.
  - reflexivity.
  - rewrite !lenN_app. lia.
Qed.

Lemma shard_entries_ok blobs : forall size, size + lenN (concat blobs) < SHARD_EMPTY ->
  Forall (fun e => e_offset e < W64 /\ e_nbytes e < W64 /\ entry_in (size + lenN (concat blobs)) e) (shard_entries size blobs).
Proof.
  assert (SHARD_EMPTY < W64) as HE by reflexivity.
  induction blobs as [|b r IH]; intros size H; [constructor|]. cbn [concat shard_entries] in *. rewrite lenN_app in *.
  destruct b as [|x b].
  - constructor.
    + cbn [e_offset e_nbytes]. split; [exact HE|]. split; [exact HE|]. intros C; discriminate.
    + rewrite lenN_nil in *. apply IH. lia.
  - set (bb := x :: b) in *. constructor.
    + cbn [e_offset e_nbytes]. repeat split; try lia. intros _. cbn. lia.
    + rewrite N.add_assoc. apply IH. lia.
Qed.

Lemma extract_entries blobs : forall pre tail, lenN pre + lenN (concat blobs) < SHARD_EMPTY ->
  extract_shard_blobs (pre ++ concat blobs ++ tail) (shard_entries (lenN pre) blobs) = Ok blobs.
Proof.
  induction blobs as [|b r IH]; intros pre tail H; [reflexivity|]. cbn [concat shard_entries] in *. rewrite lenN_app in H.
  destruct b as [|x b].
  - cbn [extract_shard_blobs app]. change (entry_empty (Entry SHARD_EMPTY SHARD_EMPTY)) with true. cbn [bind].
    rewrite IH by (rewrite lenN_nil in H; lia). reflexivity.
  - set (bb := x :: b) in *. cbn [extract_shard_blobs].
    assert (entry_empty (Entry (lenN pre) (lenN bb)) = false) as ->.
    { unfold entry_empty. cbn [e_offset e_nbytes]. destruct (N.eqb_spec (lenN pre) SHARD_EMPTY); [lia|].
      destruct (N.eqb_spec (lenN bb) SHARD_EMPTY); [lia|reflexivity]. }
    cbn [e_offset e_nbytes]. rewrite <- app_assoc. rewrite read_bytes_at by reflexivity. cbn [bind].
    specialize (IH (pre ++ bb) tail). rewrite <- !app_assoc, lenN_app in IH. rewrite IH by lia. reflexivity.
Qed.

Lemma crc_index_word es : word (crc32c (index_bytes es) 0).
Proof. apply crc_word; [apply index_bytes_all|reflexivity]. Qed.

Theorem shard_roundtrip blobs : lenN (concat blobs) < W64 - 1 ->
  exists es, parse_shard_index (build_shard blobs) (lenN blobs) = Ok (Some es) /\
    extract_shard_blobs (build_shard blobs) es = Ok blobs /\
    Forall2 (fun e b => entry_empty e = true <-> b = []) es blobs.
Proof.
  intros H. change (W64 - 1) with SHARD_EMPTY in H.
  exists (shard_entries 0 blobs). unfold build_shard, parse_shard_index.
  set (es := shard_entries 0 blobs). set (idx := index_bytes es). set (data := concat blobs) in *.
  set (c := crc32c idx 0).
  assert (lenN es = lenN blobs) as Hes by (unfold es, lenN; rewrite shard_entries_length; reflexivity).
  assert (lenN idx = 16 * lenN blobs) as Hidx by (unfold idx; rewrite index_bytes_length, Hes; reflexivity).
  assert (lenN (write_le32 c) = 4) as L4 by (rewrite write_le32_spec, lenN_le_bytes; reflexivity).
  assert (lenN (data ++ idx ++ write_le32 c) = lenN data + (16 * lenN blobs + 4)) as Hlen
    by (rewrite !lenN_app; lia).
  rewrite Hlen. destruct (N.ltb_spec (lenN data + (16 * lenN blobs + 4)) (16 * lenN blobs + 4)); [lia|].
  replace (lenN data + (16 * lenN blobs + 4) - (16 * lenN blobs + 4)) with (lenN data) by lia.
  assert (read_le32 (data ++ idx ++ write_le32 c) (lenN data + (16 * lenN blobs + 4) - 4) = Ok c) as ->.
  { pose proof (@le32_roundtrip c (data ++ idx) []) as R. rewrite app_nil_r, <- app_assoc, lenN_app in R.
    replace (lenN data + (16 * lenN blobs + 4) - 4) with (lenN data + lenN idx) by lia.
    apply R. apply crc_index_word. }
  cbn [bind]. rewrite read_bytes_at by auto. cbn [bind]. fold c. rewrite N.eqb_refl. cbn [negb].
  split; [|split].
  - unfold lenN at 2. rewrite Nat2N.id. rewrite <- (shard_entries_length blobs 0). fold es.
    refine (@parse_entries_index data es (write_le32 c) (lenN data) eq_refl _ [] 0 eq_refl).
    apply (@shard_entries_ok blobs 0). exact H.
  - apply (@extract_entries blobs [] (idx ++ write_le32 c)). exact H.
  - unfold es. clear -H. unfold data in H. revert H.
    assert (forall size, size + lenN (concat blobs) < SHARD_EMPTY ->
      Forall2 (fun e b => entry_empty e = true <-> b = []) (shard_entries size blobs) blobs) as G.
    { induction blobs as [|b r IH]; intros size H; [constructor|]. cbn [concat shard_entries] in *. rewrite lenN_app in H.
      destruct b as [|x b]; constructor.
      - split; [reflexivity|]. intros _. reflexivity.
      - apply IH. rewrite lenN_nil in H. lia.
      - split; [|discriminate]. unfold entry_empty. cbn [e_offset e_nbytes].
        destruct (N.eqb_spec size SHARD_EMPTY); [lia|]. destruct (N.eqb_spec (lenN (x :: b)) SHARD_EMPTY); [lia|discriminate].
      - apply IH. lia. }
    intros H. apply G. exact H.
Qed.

Lemma build_shard_bytes blobs : Forall all_bytes blobs -> all_bytes (build_shard blobs).
Proof.
  intros H. unfold build_shard, all_bytes. rewrite !Forall_app. split; [|split].
  - induction H; cbn; [constructor|]. apply Forall_app. auto.
  - apply index_bytes_all.
  - rewrite write_le32_spec. apply le_bytes_all.
Qed.

(** ** damaged indexes *)
Lemma split_footer (shard : bytes) n : n <= lenN shard ->
  exists a b, shard = a ++ b /\ lenN b = n.
Proof.
  intros H. exists (firstn (length shard - N.to_nat n) shard), (skipn (length shard - N.to_nat n) shard).
  split; [symmetry; apply firstn_skipn|]. unfold lenN in *. rewrite skipn_length. lia.
Qed.

(** What the checksum test of the parser decides, in terms of the register. *)
Lemma parse_crc_ok data footer n : lenN footer = 16 * n + 4 -> all_bytes footer ->
  (parse_shard_index (data ++ footer) n = Ok None /\
   fold_left bit_step (message_bits footer) (not32 0) <> residue) \/
  (parse_shard_index (data ++ footer) n = parse_entries (data ++ footer) (lenN data) 0 (N.to_nat n) /\
   fold_left bit_step (message_bits footer) (not32 0) = residue).
Proof.
  intros Hl Hb. destruct (@split_footer footer 4) as (idx & crc & -> & Hc); [lia|].
  rewrite lenN_app in Hl. apply Forall_app in Hb as [Hbi Hbc].
  unfold parse_shard_index. rewrite !lenN_app.
  destruct (N.ltb_spec (lenN data + (lenN idx + lenN crc)) (16 * n + 4)); [lia|].
  replace (lenN data + (lenN idx + lenN crc) - (16 * n + 4)) with (lenN data) by lia.
  assert (read_le32 (data ++ idx ++ crc) (lenN data + (lenN idx + lenN crc) - 4) = Ok (value_le crc)) as ->.
  { unfold read_le32. replace (data ++ idx ++ crc) with ((data ++ idx) ++ crc ++ []) by (rewrite app_nil_r, app_assoc; reflexivity).
    rewrite read_bytes_at by (rewrite ?lenN_app; lia). cbn [bind]. rewrite read_le_value by exact Hbc. reflexivity. }
  cbn [bind]. rewrite read_bytes_at by lia. cbn [bind].
  assert (le_bytes 4 (value_le crc) = crc) as Ecrc.
  { rewrite <- of_le_value. replace 4%nat with (length crc) by (unfold lenN in Hc; lia). apply le_of_le; exact Hbc. }
  assert (word (value_le crc)) as Hw.
  { rewrite <- of_le_value. pose proof (of_le_bound Hbc) as H1. rewrite Hc in H1. exact H1. }
  pose proof (stored_crc_register Hbi Hw) as HR. rewrite Ecrc in HR.
  destruct (N.eqb_spec (crc32c idx 0) (value_le crc)) as [E|E]; cbn [negb].
  - right. split; [reflexivity|]. apply HR. auto.
  - left. split; [reflexivity|]. intros C. apply E. symmetry. apply HR. exact C.
Qed.

Theorem damaged_index_rejected data data' footer footer' n es :
  lenN footer = 16 * n + 4 -> all_bytes footer -> all_bytes footer' ->
  parse_shard_index (data ++ footer) n = Ok (Some es) ->
  burst footer footer' -> footer <> footer' ->
  parse_shard_index (data' ++ footer') n = Ok None.
Proof.
  intros Hl Hb Hb' Hp (p & e1 & e2 & q & E1 & E2 & Hle & H32) Hne.
  assert (lenN footer' = 16 * n + 4) as Hl'.
  { assert (length (message_bits footer) = length (message_bits footer')) as E.
    { rewrite E1, E2, !app_length. lia. }
    rewrite !message_bits_length in E. unfold lenN in *. lia. }
  destruct (parse_crc_ok data Hl Hb) as [[H _]|[_ HR]]; [congruence|].
  destruct (parse_crc_ok data' Hl' Hb') as [[H _]|[_ HR']]; [exact H|].
  exfalso. rewrite E1 in HR. rewrite E2 in HR'.
  apply (@burst_register p e1 e2 q (not32 0) Hle H32); [|congruence].
  intros ->. apply Hne. apply message_bits_inj; try assumption. congruence.
Qed.
