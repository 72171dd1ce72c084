(** Proofs about the python containers: what create_dataset was asked for. *)
From Coq Require Import ZArith Ascii String.
From Verif Require Import M_Base P_Base M_Double M_Json M_Mode M_Key S_Text P_Key M_Blocking M_Metadata S_Metadata P_Metadata
  M_Fs M_Attributes S_Attributes P_Attributes M_Container S_Container P_Container P_Container2 P_Container3
  M_PyGroup S_PyGroup P_PyGroup P_PyGroup2 P_PyGroup3 P_PyGroup4.
Import ListNotations.
Local Open Scope list_scope.
Local Open Scope N_scope.

(** * Default chunks *)

Lemma nroot_spec bits : forall n t r, r ^ n <= t -> t < (r + 2 ^ N.of_nat bits) ^ n ->
  (nroot bits n t r) ^ n <= t /\ t < (nroot bits n t r + 1) ^ n.
Proof.
  induction bits as [|b IH]; intros n t r L H.
  - cbn [nroot]. change (2 ^ N.of_nat 0) with 1 in H. tauto.
  - cbn [nroot]. destruct (N.leb_spec ((r + 2 ^ N.of_nat b) ^ n) t) as [C|C].
    + apply IH; [exact C|]. replace (r + 2 ^ N.of_nat b + 2 ^ N.of_nat b) with (r + 2 ^ N.of_nat (S b)); [exact H|].
      rewrite Nnat.Nat2N.inj_succ, N.pow_succ_r'. lia.
    + now apply IH.
Qed.

Theorem default_dim_spec n : 1 <= n ->
  (2 * default_dim n - 1) ^ n <= 2 ^ (18 + n) < (2 * default_dim n + 1) ^ n /\ 1 <= default_dim n.
Proof.
  intros N1. set (t := 2 ^ (18 + n)).
  assert (T : t < (0 + 2 ^ N.of_nat 20) ^ n).
  { unfold t. rewrite N.add_0_l. change (N.of_nat 20) with 20. rewrite <- N.pow_mul_r. apply N.pow_lt_mono_r; lia. }
  assert (Z : 0 ^ n <= t) by (rewrite N.pow_0_l by lia; lia).
  destruct (@nroot_spec 20 n t 0 Z T) as [A B]. unfold default_dim. fold t. set (r := nroot 20 n t 0) in *.
  assert (R1 : 1 <= r).
  { destruct (N.eq_dec r 0) as [E|]; [|lia]. rewrite E in B. cbn in B. rewrite N.pow_1_l in B.
    assert (1 <= t); [|lia]. unfold t. apply N.lt_pred_le. cbn. apply N.neq_0_lt_0. apply N.pow_nonzero. lia. }
  assert (D := N.div_mod (r + 1) 2 ltac:(lia)). assert (M := N.mod_lt (r + 1) 2 ltac:(lia)).
  set (d := (r + 1) / 2) in *. repeat split.
  - transitivity (r ^ n); [|exact A]. apply N.pow_le_mono_l. lia.
  - apply N.lt_le_trans with ((r + 1) ^ n); [exact B|]. apply N.pow_le_mono_l. lia.
  - lia.
Qed.

Lemma map2_min_le (c sh : list N) : lenN c = lenN sh -> Forall2 N.le (map2 N.min c sh) sh.
Proof.
  revert c. induction sh as [|x sh IH]; intros [|y c] L; cbn; rewrite ?lenN_nil, ?lenN_cons in L; try lia; constructor; [lia|].
  apply IH. lia.
Qed.
Lemma map2_min_id (c sh : list N) : Forall2 N.le c sh -> map2 N.min c sh = c.
Proof. induction 1; cbn; [reflexivity|]. f_equal; [lia|assumption]. Qed.

Lemma default_chunks_min sh : forall d, map2 N.min (map (fun x => N.min d x) sh) sh = map (fun x => N.min d x) sh.
Proof. intros d. apply map2_min_id. induction sh; cbn; constructor; [lia|assumption]. Qed.

(** The chunks of a new dataset. *)
Theorem chunks_for_spec sh c ch : chunks_for sh c = Ok ch ->
  match c with
  | Some c => lenN c = lenN sh /\ ch = map2 N.min c sh
  | None => sh <> [] /\ ch = map (fun x => N.min (default_dim (lenN sh)) x) sh
  end.
Proof.
  unfold chunks_for. destruct c as [c|]; cbn [bind].
  - destruct (N.eqb_spec (lenN c) (lenN sh)); cbn [negb]; [|discriminate]. intros E. now inversion E.
  - destruct sh as [|x sh]; [discriminate|]. cbn [default_chunks bind].
    destruct (negb _); [discriminate|]. intros E. split; [discriminate|]. rewrite default_chunks_min in E. now inversion E.
Qed.

(** * Shape and type *)

Lemma shape_eqb_spec a : forall b, shape_eqb a b = true <-> a = b.
Proof.
  induction a as [|x a IH]; intros [|y b]; cbn; split; intros H; try discriminate H; try reflexivity.
  - apply andb_true_iff in H. destruct H as [A B]. apply N.eqb_eq in A. apply IH in B. now subst.
  - inversion H; subst. rewrite N.eqb_refl. now apply IH.
Qed.

Theorem shape_and_dtype_spec a sh ty : shape_and_dtype a = Ok (sh, ty) <->
  (a_shape a = None \/ a_shape a = Some sh) /\ (a_dtype a = None \/ a_dtype a = Some ty) /\
  (a_data a = Some (sh, ty) \/ a_data a = None /\ a_shape a <> None /\ a_dtype a <> None).
Proof.
  unfold shape_and_dtype. destruct (a_data a) as [[dsh dty]|].
  - destruct (a_shape a) as [sh0|], (a_dtype a) as [ty0|]; cbn [bind].
    + destruct (shape_eqb sh0 dsh) eqn:E1; cbn [bind].
      * apply shape_eqb_spec in E1. subst. destruct (String.eqb_spec ty0 dty) as [->|Ne]; cbn [bind]; split; intros H.
        -- inversion H; subst. auto.
        -- destruct H as [A [B [C|[C _]]]]; [now inversion C|discriminate C].
        -- discriminate H.
        -- destruct H as [A [B [C|[C _]]]]; [|discriminate C]. inversion C; subst. destruct B as [B|B]; congruence.
      * split; [discriminate|]. intros [A [B [C|[C _]]]]; [|discriminate C]. inversion C; subst. destruct A as [A|A]; [discriminate A|].
        inversion A; subst. rewrite (proj2 (shape_eqb_spec sh sh) eq_refl) in E1. discriminate.
    + destruct (shape_eqb sh0 dsh) eqn:E1; cbn [bind]; split; intros H.
      * apply shape_eqb_spec in E1. inversion H; subst. auto.
      * destruct H as [A [B [C|[C _]]]]; [now inversion C|discriminate C].
      * discriminate H.
      * destruct H as [A [B [C|[C _]]]]; [|discriminate C]. inversion C; subst. destruct A as [A|A]; [discriminate A|].
        inversion A; subst. rewrite (proj2 (shape_eqb_spec sh sh) eq_refl) in E1. discriminate.
    + destruct (String.eqb_spec ty0 dty) as [->|Ne]; cbn [bind]; split; intros H.
      * inversion H; subst. auto.
      * destruct H as [A [B [C|[C _]]]]; [now inversion C|discriminate C].
      * discriminate H.
      * destruct H as [A [B [C|[C _]]]]; [|discriminate C]. inversion C; subst. destruct B as [B|B]; congruence.
    + split; intros H; [inversion H; subst; auto|]. destruct H as [A [B [C|[C _]]]]; [now inversion C|discriminate C].
  - destruct (a_shape a) as [sh0|], (a_dtype a) as [ty0|]; split; intros H; try discriminate H.
    + inversion H; subst. repeat split; auto. right. repeat split; discriminate.
    + destruct H as [[A|A] [[B|B] _]]; try discriminate A; try discriminate B. now inversion A; inversion B.
    + destruct H as [_ [_ [H|[_ [_ H]]]]]; [discriminate H|congruence].
    + destruct H as [_ [_ [H|[_ [H _]]]]]; [discriminate H|congruence].
    + destruct H as [_ [_ [H|[_ [H _]]]]]; [discriminate H|congruence].
Qed.

(** * The call inside create_dataset *)

Lemma create_dataset_inner g key a s s' d z : key <> [] -> Forall usable key ->
  fs_ok s -> s (h_path (pg_handle g)) = Some NDir -> uniform s (h_path (pg_handle g)) z key ->
  py_create_dataset g (name_of key) a s = (s', Ok d) ->
  exists g1 s1 x, py_create_in g1 (name_of [x]) a s1 = (s', Ok d) /\ proper x /\ fs_ok s1 /\
    is_zarr_group s1 (h_path (pg_handle g1)) = Ok z /\ pg_format g1 = pg_format g /\ pg_sep g1 = pg_sep g /\
    h_mode (pg_handle g1) = h_mode (pg_handle g) /\
    pd_name d = (deep_name (pg_name g) (removelast key) ++ "/" ++ last key "")%string.
Proof.
  intros N U F D UN R. assert (P := usable_proper U).
  destruct (exists_last N) as [front [x ->]].
  apply Forall_app in U. destruct U as [Uf Ux]. inversion Ux as [|? ? Ux' _]; subst.
  apply Forall_app in P. destruct P as [Pf Px]. inversion Px as [|? ? Px' _]; subst.
  unfold py_create_dataset in R. unfold fbind at 1 in R.
  destruct (py_may_create g (name_of (front ++ [x])) s) as [s0 [[]| |]] eqn:M; try discriminate R.
  apply may_create_inv in M. destruct M as [-> [CW NC]].
  rewrite lstrip_plain, split_name in R by (first [assumption|now apply Forall_app]).
  rewrite removelast_last, last_last in R. rewrite removelast_last, last_last.
  destruct front as [|y front].
  - exists g, s, x. cbn [List.app] in R. destruct UN as [Z _].
    refine (conj R (conj Px' (conj F (conj Z (conj eq_refl (conj eq_refl (conj eq_refl _))))))).
    destruct (create_in_inv (key := [x]) ltac:(discriminate) Px R) as [sh [ty [ch [z' [comp [copts [op [delim [enc [shard Q]]]]]]]]]].
    rewrite (mi_name Q). reflexivity.
  - set (fr := y :: front) in *.
    unfold fbind at 1 in R. destruct (py_require_groups g fr s) as [s1 [g1| |]] eqn:RG; try discriminate R.
    assert (W := @require_groups_ok fr g s s1 g1 z F Uf D (uniform_front UN) RG).
    unfold fbind at 1 in R. destruct (py_may_create g1 x s1) as [s0 [[]| |]] eqn:M1; try discriminate R.
    apply may_create_inv in M1. destruct M1 as [-> _].
    destruct (@ow_groups _ _ _ _ _ _ W fr [] ltac:(now rewrite app_nil_r)) as [Z1 _].
    exists g1, s1, x. split; [exact R|]. split; [exact Px'|]. split; [apply W|]. split; [now rewrite (ow_handle W)|].
    split; [apply W|]. split; [apply W|]. split; [now rewrite (ow_handle W)|].
    destruct (create_in_inv (key := [x]) ltac:(discriminate) Px R) as [sh [ty [ch [z' [comp [copts [op [delim [enc [shard Q]]]]]]]]]].
    rewrite (mi_name Q). unfold sub_name. now rewrite (ow_name W).
Qed.

Theorem create_dataset_asked g key a s s' d z : key <> [] -> Forall usable key ->
  fs_ok s -> s (h_path (pg_handle g)) = Some NDir -> uniform s (h_path (pg_handle g)) z key ->
  py_create_dataset g (name_of key) a s = (s', Ok d) ->
  py_asked g z a (pd_impl d).
Proof.
  intros N U F D UN R.
  destruct (create_dataset_inner N U F D UN R) as [g1 [s1 [x [R1 [Px [F1 [Z1 [FE [SE [ME NE]]]]]]]]]].
  destruct (create_in_inv (key := [x]) ltac:(discriminate) (Forall_cons _ Px (Forall_nil _)) R1)
    as [sh [ty [ch [z' [comp [copts [op [delim [enc [shard Q]]]]]]]]]].
  assert (Z2 := mi_zarr Q). rewrite Z1 in Z2. inversion Z2; subst z'. clear Z2.
  assert (A := created_as_asked F1 Z1 (mi_create Q)).
  assert (ST := proj1 (shape_and_dtype_spec a sh ty) (mi_type Q)).
  assert (CH := chunks_for_spec (mi_chunks Q)).
  destruct ST as [S1 [S2 S3]].
  split.
  - rewrite (aa_mode A). exact ME.
  - rewrite (aa_shape A). destruct S1 as [-> | ->]; [exact Logic.I|reflexivity].
  - destruct S2 as [-> | ->]; [exact Logic.I|apply A].
  - rewrite (aa_shape A). destruct S3 as [-> | [-> _]]; [|exact Logic.I]. split; [reflexivity|apply A].
  - rewrite (aa_shape A), (aa_chunks A). destruct (a_chunks a) as [c|]; [apply CH|].
    destruct CH as [NE1 ->]. split; [|].
    + intros E. apply map_eq_nil in E. congruence.
    + exists (default_dim (lenN sh)). split; [reflexivity|]. apply default_dim_spec. destruct sh; [congruence|]. rewrite lenN_cons. lia.
  - apply A.
  - rewrite (aa_shard A). apply Q.
  - intros AS. rewrite <- FE. now apply (mi_shards Q).
  - rewrite (aa_keys A), (mi_delim Q), (mi_enc Q), FE, SE. now destruct (format_of z (pg_format g)).
  - intros f comp0 PO BL GZ.
    assert (CO := mi_copts Q). assert (AV := mi_avail Q). assert (CM := mi_comp Q). rewrite FE in CO, AV, CM.
    assert (AC := aa_codec A). change (comp = comp0) in CM. rewrite CM in CO, AV, AC.
    refine (@codec_wanted _ z _ (a_opts a) copts op _ _ CO (mi_opts Q) PO BL GZ AC AV).
    unfold format_of. destruct z; [destruct (_ =? _)%Z|]; reflexivity.
Qed.
