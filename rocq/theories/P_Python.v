(** Proofs about index normalisation and shapes of the python layer. *)
From Coq Require Import ZArith Lia ZifyBool ZifyNat ZifyN.
From Verif Require Import M_Base P_Base M_Key M_View M_Format M_Mode M_Dataset M_Sharded M_Access M_Python
  S_Array S_Grid S_Bytes S_Format S_Dataset S_Access S_Sharded S_Python.
Import ListNotations.
Local Open Scope list_scope.
Local Open Scope Z_scope.

(** * One axis *)

Definition norm_axis (n : Z) (i : item) : pyres pslice :=
  match i with
  | INum i => int_to_start_stop i n
  | ISlice a b k => slice_to_start_stop a b k n
  | _ => PyRaise TypeError
  end.

Definition raises {A} (x : pyres A) : Prop := exists e, x = PyRaise e.

(** A normalised slice selects what [p] says. *)
Definition agrees (s : pslice) (p : pick) : Prop :=
  (match fst s with None => 0 | Some a => snd s - a end) = Z.of_N (p_count p) /\
  ((0 < p_count p)%N -> fst s = Some (Z.of_N (p_first p))) /\
  (match fst s with Some a => a <= snd s | None => True end).

Lemma axis_none n i : np_axis n i = None -> raises (norm_axis (Z.of_N n) i).
Proof.
  destruct i as [i|a b k| |]; cbn [np_axis norm_axis]; intros H.
  - unfold int_to_start_stop. destruct ((- Z.of_N n <=? i) && (i <? Z.of_N n)) eqn:E; [discriminate|].
    destruct ((- Z.of_N n <? i) && (i <? 0)) eqn:E1; [lia|].
    destruct ((Z.of_N n <=? i) || (i <? - Z.of_N n)) eqn:E2; [now eexists|lia].
  - unfold slice_to_start_stop. destruct (match k with Some k => k =? 1 | None => true end); [discriminate|].
    now eexists.
  - now eexists.
  - now eexists.
Qed.

Lemma axis_some n i p : np_axis n i = Some p -> ~ odd_entry n i ->
  exists s, norm_axis (Z.of_N n) i = PyOk s /\ agrees s p.
Proof.
  destruct i as [i|a b k| |]; cbn [np_axis norm_axis odd_entry]; intros H O; try discriminate.
  - unfold int_to_start_stop. destruct ((- Z.of_N n <=? i) && (i <? Z.of_N n)) eqn:E; [|discriminate].
    inversion H; subst p; clear H.
    destruct ((- Z.of_N n <? i) && (i <? 0)) eqn:E1.
    + eexists; split; [reflexivity|]. unfold agrees; cbn [fst snd p_count p_first].
      destruct (i <? 0) eqn:E2; [|lia]. repeat split; try lia. intros _. f_equal. lia.
    + destruct ((Z.of_N n <=? i) || (i <? - Z.of_N n)) eqn:E2; [lia|].
      eexists; split; [reflexivity|]. unfold agrees; cbn [fst snd p_count p_first].
      destruct (i <? 0) eqn:E3; [lia|]. repeat split; try lia. intros _. f_equal. lia.
  - unfold slice_to_start_stop. destruct (match k with Some k => k =? 1 | None => true end); [|discriminate].
    cbn [negb]. inversion H; subst p; clear H. unfold agrees, np_bound; cbn [p_count p_first].
    set (N0 := Z.of_N n) in *. assert (N0 >= 0) by lia.
    assert (X : forall lo hi st sp, 
      (lo = st /\ hi = sp /\ 0 <= lo) \/ (lo = st /\ 0 <= lo /\ hi <= 0 /\ sp < 1) ->
      exists s : pslice, (if (sp <? 1) || (sp <=? st) then PyOk (None, 0) else PyOk (Some st, sp)) = PyOk s /\
        (match fst s with Some a => snd s - a | None => 0 end) = Z.of_N (Z.to_N (hi - lo)) /\
        ((0 < Z.to_N (hi - lo))%N -> fst s = Some (Z.of_N (Z.to_N lo))) /\
        (match fst s with Some a => a <= snd s | None => True end)).
    { intros lo hi st sp C. destruct ((sp <? 1) || (sp <=? st)) eqn:Q; eexists; (split; [reflexivity|]); cbn [fst snd].
      - repeat split; try lia.
      - repeat split; try lia. intros _. f_equal. lia. }
    destruct a as [a|].
    + destruct ((- N0 <=? a) && (a <? 0)) eqn:E1.
      * destruct (a <? 0) eqn:E2; [|lia]. apply X. destruct b as [b|]; [|lia].
        destruct (N0 <? b) eqn:B1, (b <? 0) eqn:B2; lia.
      * destruct ((a <? - N0) || (N0 <=? a)) eqn:E2.
        -- eexists; split; [reflexivity|]. cbn [fst snd].
           destruct (a <? 0) eqn:A; [lia|]. assert (Z.min a N0 = N0) by lia. rewrite H0.
           assert (Y : (match b with Some b => if b <? 0 then Z.max 0 (b + N0) else Z.min b N0 | None => N0 end) <= N0)
             by (destruct b as [b|]; [destruct (b <? 0) eqn:?|]; lia).
           repeat split; try lia.
        -- destruct (a <? 0) eqn:A; [lia|]. assert (Z.min a N0 = a) by lia. rewrite H0.
           apply X. destruct b as [b|]; [|lia]. destruct (N0 <? b) eqn:B1, (b <? 0) eqn:B2; lia.
    + apply X. destruct b as [b|]; [|lia]. destruct (N0 <? b) eqn:B1, (b <? 0) eqn:B2; lia.
Qed.

(** A valid but odd entry: a number before the array, or nothing. *)
Lemma axis_odd n i p : np_axis n i = Some p -> odd_entry n i ->
  ((0 < n)%N /\ norm_axis (Z.of_N n) i = PyOk (Some (- Z.of_N n), - Z.of_N n + 1)) \/ norm_axis (Z.of_N n) i = PyOk (None, 0).
Proof.
  destruct i as [i|[a|] b k| |]; cbn [np_axis norm_axis odd_entry]; intros H O; try tauto.
  - left. subst i. unfold int_to_start_stop.
    destruct (_ && _) eqn:E in H; [|discriminate].
    destruct ((- Z.of_N n <? - Z.of_N n) && _) eqn:E1; [lia|].
    destruct (_ || _) eqn:E2; [lia|]. split; [lia|reflexivity].
  - right. unfold slice_to_start_stop. destruct (match k with Some k => k =? 1 | None => true end); [|discriminate].
    cbn [negb]. destruct (_ && _) eqn:E1; [lia|]. destruct (_ || _) eqn:E2; [reflexivity|lia].
Qed.

(** The picks lie in the axis. *)
Lemma axis_in n i p : np_axis n i = Some p -> (p_first p + p_count p <= N.max n (p_first p))%N /\ (p_first p <= n)%N.
Proof.
  destruct i as [i|a b k| |]; cbn [np_axis]; intros H; try discriminate.
  - destruct (_ && _) eqn:E; [|discriminate]. inversion H; cbn [p_first p_count]. destruct (i <? 0) eqn:E1; lia.
  - destruct (match k with Some k => k =? 1 | None => true end); [|discriminate].
    inversion H; cbn [p_first p_count]. unfold np_bound.
    destruct a as [a|], b as [b|]; try destruct (a <? 0) eqn:?; try destruct (b <? 0) eqn:?; lia.
Qed.

(** * All axes *)

Fixpoint norm_axes (l : list item) (sh : list Z) : pyres (list pslice) :=
  match l, sh with
  | [], _ => PyOk []
  | i :: r, n :: sr => pbind (norm_axis n i) (fun s => pbind (norm_axes r sr) (fun ss => PyOk (s :: ss)))
  | _ :: _, [] => PyRaise IndexError
  end.

Fixpoint num_axes (k : nat) (l : list item) : list nat :=
  match l with
  | [] => []
  | INum _ :: r => k :: num_axes (S k) r
  | _ :: r => num_axes (S k) r
  end.

Lemma norm_axis_no_ub n i : norm_axis n i <> PyUB.
Proof.
  destruct i as [i|a b k| |]; cbn [norm_axis]; try discriminate.
  - unfold int_to_start_stop. destruct (_ && _); [discriminate|]. destruct (_ || _); discriminate.
  - unfold slice_to_start_stop. destruct (negb _); [discriminate|].
    destruct a as [a|]; [destruct (_ && _); [|destruct (_ || _); [discriminate|]]|];
      (destruct (_ || _); discriminate).
Qed.

Lemma norm_axes_no_ub l : forall sh, norm_axes l sh <> PyUB.
Proof.
  induction l as [|i r IH]; intros [|n sr]; cbn [norm_axes]; try discriminate.
  assert (X := @norm_axis_no_ub n i). destruct (norm_axis n i); cbn [pbind]; [|discriminate|congruence].
  assert (Y := IH sr). destruct (norm_axes r sr); cbn [pbind]; [discriminate|discriminate|congruence].
Qed.

Lemma norm_axes_app l1 : forall l2 sh, norm_axes (l1 ++ l2) sh =
  pbind (norm_axes l1 (firstn (length l1) sh)) (fun a => pbind (norm_axes l2 (skipn (length l1) sh)) (fun b => PyOk (a ++ b))).
Proof.
  induction l1 as [|i r IH]; intros l2 sh.
  - cbn [app norm_axes length firstn skipn pbind]. destruct (norm_axes l2 sh); reflexivity.
  - destruct sh as [|n sr]; [reflexivity|]. cbn [app norm_axes length firstn skipn]. rewrite IH.
    destruct (norm_axis n i); cbn [pbind]; [|reflexivity|reflexivity].
    destruct (norm_axes r _); cbn [pbind]; [|reflexivity|reflexivity].
    destruct (norm_axes l2 _); reflexivity.
Qed.

Lemma num_axes_app l1 : forall l2 k, num_axes k (l1 ++ l2) = num_axes k l1 ++ num_axes (k + length l1) l2.
Proof.
  induction l1 as [|i r IH]; intros l2 k; cbn [app num_axes length].
  - now rewrite Nat.add_0_r.
  - rewrite IH. replace (S k + length r)%nat with (k + S (length r))%nat by lia. now destruct i.
Qed.

Lemma nth_skipn {A} (l : list A) k : nth_error l k = hd_error (skipn k l).
Proof. revert k. induction l as [|x l IH]; intros [|k]; try reflexivity. apply IH. Qed.
Lemma skipn_S {A} (l : list A) k x r : skipn k l = x :: r -> skipn (S k) l = r.
Proof.
  revert k. induction l as [|y l IH]; intros [|k]; cbn [skipn]; try discriminate.
  - intros H; now inversion H.
  - apply IH.
Qed.

Lemma loop_plain sh len l : forallb (fun i => negb (is_ellipsis i)) l = true -> forall acc found sq,
  (length acc + length l <= length sh)%nat ->
  normalize_loop l len sh acc found sq =
  pbind (norm_axes l (skipn (length acc) sh)) (fun ps => PyOk (acc ++ ps, sq ++ num_axes (length acc) l)).
Proof.
  induction l as [|i r IH]; intros E acc found sq L; cbn [normalize_loop norm_axes num_axes].
  - cbn [pbind]. now rewrite !app_nil_r.
  - cbn [forallb] in E. apply andb_true_iff in E. destruct E as [E1 E2]. cbn [length] in L.
    destruct (skipn (length acc) sh) as [|n sr] eqn:S.
    { assert (X := skipn_length (length acc) sh). rewrite S in X. cbn in X. lia. }
    rewrite nth_skipn, S. cbn [hd_error].
    assert (R : forall p sq', normalize_loop r len sh (acc ++ [p]) found sq' =
      pbind (norm_axes r sr) (fun ps => PyOk (acc ++ p :: ps, sq' ++ num_axes (Datatypes.S (length acc)) r))).
    { intros p sq'. rewrite IH; [|assumption|rewrite app_length; cbn; lia].
      rewrite app_length. cbn [length]. rewrite Nat.add_1_r, (skipn_S S).
      destruct (norm_axes r sr); cbn [pbind]; [|reflexivity|reflexivity]. now rewrite <- app_assoc. }
    destruct i as [i|a b k| |]; cbn [is_ellipsis negb norm_axis] in *; try discriminate.
    + destruct (int_to_start_stop i n); cbn [pbind]; [|reflexivity|reflexivity]. rewrite R.
      destruct (norm_axes r sr); cbn [pbind]; [|reflexivity|reflexivity]. now rewrite <- app_assoc.
    + destruct (slice_to_start_stop a b k n); cbn [pbind]; [|reflexivity|reflexivity]. rewrite R.
      destruct (norm_axes r sr); cbn [pbind]; reflexivity.
    + reflexivity.
Qed.

Lemma fill_up_ok sh rest fuel : forall acc, (length acc + rest <= length sh)%nat ->
  (length sh <= fuel + length acc + rest)%nat ->
  fill_up fuel rest sh acc =
  PyOk (acc ++ map (fun n => (Some 0, n)) (firstn (length sh - rest - length acc) (skipn (length acc) sh))).
Proof.
  induction fuel as [|f IH]; intros acc L F; cbn [fill_up].
  - destruct (Nat.ltb_spec (length acc + rest) (length sh)); [lia|].
    replace (length sh - rest - length acc)%nat with 0%nat by lia. cbn. now rewrite app_nil_r.
  - destruct (Nat.ltb_spec (length acc + rest) (length sh)).
    + rewrite nth_skipn. destruct (skipn (length acc) sh) as [|n sr] eqn:S.
      { assert (X := skipn_length (length acc) sh). rewrite S in X. cbn in X. lia. }
      cbn [hd_error]. rewrite IH by (rewrite app_length; cbn; lia).
      rewrite app_length. cbn [length]. rewrite Nat.add_1_r, (skipn_S S), <- app_assoc.
      replace (length sh - rest - length acc)%nat with (Datatypes.S (length sh - rest - Datatypes.S (length acc)))%nat by lia.
      reflexivity.
    + replace (length sh - rest - length acc)%nat with 0%nat by lia. cbn. now rewrite app_nil_r.
Qed.

(** A second ellipsis raises. *)
Lemma loop_second sh len l : existsb is_ellipsis l = true -> forall acc sq,
  raises (normalize_loop l len sh acc true sq).
Proof.
  induction l as [|i r IH]; intros E acc sq; [discriminate|]. cbn [existsb normalize_loop] in *.
  destruct i as [i|a b k| |]; cbn [is_ellipsis orb] in E.
  - destruct (nth_error sh (length acc)) as [n|]; [|now eexists].
    assert (X := @norm_axis_no_ub n (INum i)). cbn [norm_axis] in X.
    destruct (int_to_start_stop i n); cbn [pbind]; [apply IH, E|now eexists|congruence].
  - destruct (nth_error sh (length acc)) as [n|]; [|now eexists].
    assert (X := @norm_axis_no_ub n (ISlice a b k)). cbn [norm_axis] in X.
    destruct (slice_to_start_stop a b k n); cbn [pbind]; [apply IH, E|now eexists|congruence].
  - now eexists.
  - now eexists.
Qed.

Lemma entries_app l1 l2 : entries (l1 ++ l2) = (entries l1 + entries l2)%nat.
Proof. unfold entries. now rewrite filter_app, app_length. Qed.
Lemma entries_plain l : forallb (fun i => negb (is_ellipsis i)) l = true -> entries l = length l.
Proof.
  unfold entries. induction l as [|i r IH]; cbn [forallb filter length]; [reflexivity|].
  intros E. apply andb_true_iff in E. destruct E as [-> E]. cbn [length]. now rewrite IH.
Qed.
Lemma plain_no_ellipsis l : forallb (fun i => negb (is_ellipsis i)) l = true <-> existsb is_ellipsis l = false.
Proof.
  induction l as [|i r IH]; cbn [forallb existsb]; [tauto|]. destruct (is_ellipsis i); cbn; [|exact IH].
  split; discriminate.
Qed.
Lemma plain_filter l : forallb (fun i => negb (is_ellipsis i)) l = true -> filter is_ellipsis l = [].
Proof.
  induction l as [|i r IH]; cbn [forallb filter]; [reflexivity|]. destruct (is_ellipsis i); cbn; [discriminate|exact IH].
Qed.
Lemma plain_flat l (k : nat) : forallb (fun i => negb (is_ellipsis i)) l = true ->
  flat_map (fun i => if is_ellipsis i then repeat full_slice k else [i]) l = l.
Proof.
  induction l as [|i r IH]; cbn [forallb flat_map]; [reflexivity|]. destruct (is_ellipsis i); cbn; [discriminate|].
  intros E. now rewrite IH.
Qed.

(** The first ellipsis. *)
Lemma first_ellipsis l : forallb (fun i => negb (is_ellipsis i)) l = false ->
  exists pre post, l = pre ++ IEllipsis :: post /\ forallb (fun i => negb (is_ellipsis i)) pre = true.
Proof.
  induction l as [|i r IH]; cbn [forallb]; [discriminate|]. intros E.
  destruct i; cbn [is_ellipsis negb andb] in E;
    try (destruct (IH E) as [pre [post [-> P]]]; eexists (_ :: pre), post; split; [reflexivity|exact P]).
  exists [], r. now split.
Qed.

(** Running into the ellipsis. *)
Lemma loop_ellipsis sh len pre post : forallb (fun i => negb (is_ellipsis i)) pre = true ->
  (length pre + entries post <= length sh)%nat -> len = (length pre + 1 + length post)%nat ->
  normalize_loop (pre ++ IEllipsis :: post) len sh [] false [] =
  pbind (norm_axes pre sh) (fun a =>
    if existsb is_ellipsis post then
      pbind (fill_up (length sh) (length post) sh a) (fun n => normalize_loop post len sh n true (num_axes 0 pre))
    else
      pbind (norm_axes post (skipn (length sh - length post) sh)) (fun b =>
        PyOk (a ++ map (fun n => (Some 0, n)) (firstn (length sh - length post - length pre) (skipn (length pre) sh)) ++ b,
              num_axes 0 pre ++ num_axes (length sh - length post) post))).
Proof.
  intros E L LEN.
  assert (G : forall acc sq sh0, sh0 = skipn (length acc) sh -> (length acc + length pre <= length sh)%nat ->
    normalize_loop (pre ++ IEllipsis :: post) len sh acc false sq =
    pbind (norm_axes pre sh0) (fun a => normalize_loop (IEllipsis :: post) len sh (acc ++ a) false (sq ++ num_axes (length acc) pre))).
  { clear L LEN. induction pre as [|i r IH]; intros acc sq sh0 S L.
    - cbn [app norm_axes pbind num_axes]. now rewrite !app_nil_r.
    - cbn [forallb] in E. apply andb_true_iff in E. destruct E as [E1 E2]. cbn [length] in L.
      destruct sh0 as [|n sr].
      { assert (X := skipn_length (length acc) sh). rewrite <- S in X. cbn in X. lia. }
      symmetry in S.
      assert (R : forall p sq', normalize_loop (r ++ IEllipsis :: post) len sh (acc ++ [p]) false sq' =
        pbind (norm_axes r sr) (fun a => normalize_loop (IEllipsis :: post) len sh (acc ++ p :: a) false (sq' ++ num_axes (Datatypes.S (length acc)) r))).
      { intros p sq'. rewrite (IH E2 _ _ sr).
        - rewrite app_length. cbn [length]. rewrite Nat.add_1_r.
          destruct (norm_axes r sr); cbn [pbind]; [|reflexivity|reflexivity]. now rewrite <- app_assoc.
        - rewrite app_length. cbn [length]. rewrite Nat.add_1_r. symmetry. exact (skipn_S S).
        - rewrite app_length. cbn. lia. }
      cbn [app num_axes norm_axes]. cbn [normalize_loop] in R |- *. rewrite nth_skipn, S. cbn [hd_error].
      destruct i as [i|a b k| |]; cbn [is_ellipsis negb norm_axis] in *; try discriminate.
      + destruct (int_to_start_stop i n); cbn [pbind]; [|reflexivity|reflexivity]. rewrite R.
        destruct (norm_axes r sr); cbn [pbind]; [|reflexivity|reflexivity]. now rewrite <- app_assoc.
      + destruct (slice_to_start_stop a b k n); cbn [pbind]; [|reflexivity|reflexivity]. rewrite R.
        destruct (norm_axes r sr); cbn [pbind]; reflexivity.
      + reflexivity. }
  rewrite (G [] [] sh eq_refl) by (cbn; lia). cbn [app length].
  destruct (norm_axes pre sh) as [a|e|] eqn:NA; cbn [pbind]; [|reflexivity|reflexivity].
  assert (LA : length a = length pre).
  { clear -NA. revert sh a NA. induction pre as [|i r IH]; intros [|n sr] a; cbn [norm_axes]; intros H; try (inversion H; reflexivity).
    destruct (norm_axis n i); try discriminate. cbn [pbind] in H. destruct (norm_axes r sr) eqn:Q; try discriminate.
    cbn [pbind] in H. inversion H; subst. cbn [length]. f_equal. eapply IH, Q. }
  cbn [normalize_loop]. rewrite LA. replace (len - length pre - 1)%nat with (length post) by lia.
  destruct (existsb is_ellipsis post) eqn:X; [reflexivity|].
  apply plain_no_ellipsis in X. rewrite (entries_plain X) in L.
  rewrite fill_up_ok by lia. cbn [pbind]. rewrite LA.
  set (fl := map _ _).
  assert (LF : @length pslice fl = (length sh - length post - length pre)%nat).
  { unfold fl. change pslice with (option Z * Z)%type. rewrite map_length, firstn_length, skipn_length. lia. }
  rewrite loop_plain; [|assumption|rewrite app_length, LA, LF; lia].
  rewrite app_length, LA, LF.
  replace (length pre + (length sh - length post - length pre))%nat with (length sh - length post)%nat by lia.
  destruct (norm_axes post _); cbn [pbind]; [|reflexivity|reflexivity]. now rewrite <- app_assoc.
Qed.

Lemma np_axes_app l1 : forall l2 sh, np_axes sh (l1 ++ l2) =
  match np_axes (firstn (length l1) sh) l1, np_axes (skipn (length l1) sh) l2 with
  | Some a, Some b => Some (a ++ b)
  | _, _ => None
  end.
Proof.
  induction l1 as [|i r IH]; intros l2 sh.
  - cbn [app length firstn skipn np_axes]. destruct sh; cbn [np_axes]; destruct l2; try reflexivity.
    destruct (np_axis _ _), (np_axes sh l2); reflexivity.
  - destruct sh as [|n sr]; [reflexivity|]. cbn [app length firstn skipn np_axes]. rewrite IH.
    destruct (np_axis n i); [|reflexivity]. destruct (np_axes (firstn _ sr) r); [|reflexivity].
    destruct (np_axes (skipn _ sr) l2); reflexivity.
Qed.

Lemma np_axes_length l : forall sh ps, np_axes sh l = Some ps -> length ps = length sh /\ length l = length sh.
Proof.
  induction l as [|i r IH]; intros [|n sr] ps; cbn [np_axes]; intros H; try discriminate.
  - inversion H. now split.
  - destruct (np_axis n i); [|discriminate]. destruct (np_axes sr r) eqn:E; [|discriminate]. inversion H.
    destruct (IH _ _ E). cbn [length]. lia.
Qed.

Lemma axes_none l : forall sh, length l = length sh -> np_axes sh l = None -> raises (norm_axes l (map Z.of_N sh)).
Proof.
  induction l as [|i r IH]; intros [|n sr] L H; cbn [length np_axes norm_axes map] in *; try discriminate.
  destruct (np_axis n i) eqn:A.
  - assert (X := @norm_axis_no_ub (Z.of_N n) i). destruct (norm_axis (Z.of_N n) i); cbn [pbind]; [|now eexists|congruence].
    destruct (np_axes sr r) eqn:E; [discriminate|]. destruct (IH sr) as [e ->]; [lia|assumption|]. now eexists.
  - destruct (axis_none A) as [e ->]. now eexists.
Qed.

Lemma dropped_num n i p : np_axis n i = Some p -> forall k l, num_axes k (i :: l) =
  if p_dropped p then k :: num_axes (S k) l else num_axes (S k) l.
Proof.
  destruct i as [i|a b k| |]; cbn [np_axis]; intros H; try discriminate.
  - destruct (_ && _); [|discriminate]. inversion H. reflexivity.
  - destruct (match k with Some k => k =? 1 | None => true end); [|discriminate]. inversion H. reflexivity.
Qed.

Lemma axes_num l : forall sh ps k, np_axes sh l = Some ps -> num_axes k l = dropped_axes k ps.
Proof.
  induction l as [|i r IH]; intros [|n sr] ps k H; cbn [np_axes] in H; try discriminate.
  - now inversion H.
  - destruct (np_axis n i) eqn:A; [|discriminate]. destruct (np_axes sr r) eqn:E; [|discriminate]. inversion H.
    rewrite (dropped_num A), (IH _ _ _ E). cbn [dropped_axes]. reflexivity.
Qed.

(** The same for indices with odd entries ([reg] = false), which select nothing or
    start before the array. *)
Definition agr (reg : bool) (s : pslice) (p : pick) : Prop :=
  agrees s p \/ reg = false /\ (s = (None, 0) \/ exists k, 0 < k /\ s = (Some (- k), - k + 1)).
Definition regn (reg : bool) (n : N) (i : item) : Prop := reg = true -> ~ odd_entry n i.
Lemma axis_gen reg n i p : np_axis n i = Some p -> regn reg n i ->
  exists s, norm_axis (Z.of_N n) i = PyOk s /\ agr reg s p.
Proof.
  intros A R. assert (D : {odd_entry n i} + {~ odd_entry n i}).
  { destruct i as [i|[a|] b k| |]; cbn [odd_entry]; try (right; tauto); [apply Z.eq_dec|apply Z_lt_dec]. }
  destruct D as [O|O].
  - destruct reg; [elim (R eq_refl O)|]. destruct (axis_odd A O) as [[P ->]| ->]; eexists; (split; [reflexivity|]); right.
    + split; [reflexivity|]. right. exists (Z.of_N n). split; [lia|reflexivity].
    + split; [reflexivity|now left].
  - destruct (axis_some A O) as [s [-> G]]. eexists. split; [reflexivity|now left].
Qed.
Lemma regn_all reg sh : forall l, length l = length sh -> (reg = true -> Forall2 (fun n i => ~ odd_entry n i) sh l) ->
  Forall2 (regn reg) sh l.
Proof.
  destruct reg.
  - intros l _ H. specialize (H eq_refl). induction H; constructor; auto. now intros _.
  - induction sh as [|n sh IH]; intros [|i l] L _; cbn in L; try discriminate; constructor; [discriminate|].
    apply IH; [lia|discriminate].
Qed.

Lemma axes_some reg l : forall sh ps, np_axes sh l = Some ps -> Forall2 (regn reg) sh l ->
  exists ss, norm_axes l (map Z.of_N sh) = PyOk ss /\ Forall2 (agr reg) ss ps.
Proof.
  induction l as [|i r IH]; intros [|n sr] ps H O; cbn [np_axes norm_axes map] in *; try discriminate.
  - inversion H. exists []. now split.
  - destruct (np_axis n i) eqn:A; [|discriminate]. destruct (np_axes sr r) eqn:E; [|discriminate].
    inversion H; inversion O; subst. destruct (@axis_gen reg _ _ _ A) as [s [-> G]]; [assumption|].
    destruct (IH _ _ E) as [ss [-> GG]]; [assumption|]. cbn [pbind]. exists (s :: ss). split; [reflexivity|]. now constructor.
Qed.

Lemma full_axes sh : exists ps, np_axes sh (repeat full_slice (length sh)) = Some ps /\
  Forall2 agrees (map (fun n => (Some 0, n)) (map Z.of_N sh)) ps /\ forall k, dropped_axes k ps = [].
Proof.
  induction sh as [|n sr [ps [E [F D]]]]; cbn [length repeat np_axes map].
  - exists []. now repeat split.
  - rewrite E. cbn [np_axis full_slice]. eexists; split; [reflexivity|]. split.
    + constructor; [|assumption]. unfold agrees; cbn [fst snd p_count p_first]. repeat split; try lia.
    + intros k. cbn [dropped_axes p_dropped]. apply D.
Qed.

Lemma dropped_app ps1 : forall ps2 k, dropped_axes k (ps1 ++ ps2) = dropped_axes k ps1 ++ dropped_axes (k + length ps1) ps2.
Proof.
  induction ps1 as [|p r IH]; intros ps2 k; cbn [app dropped_axes length].
  - now rewrite Nat.add_0_r.
  - rewrite IH. replace (S k + length r)%nat with (k + S (length r))%nat by lia. now destruct (p_dropped p).
Qed.

Lemma skipn_skipn {A} m : forall n (l : list A), skipn m (skipn n l) = skipn (m + n) l.
Proof.
  intros n. induction n as [|n IH]; intros l; [now rewrite Nat.add_0_r|].
  rewrite Nat.add_succ_r. destruct l as [|x l]; [now rewrite !skipn_nil|]. cbn [skipn]. apply IH.
Qed.
Lemma app_same {A} (l1 : list A) : forall l2 m1 m2, l1 ++ l2 = m1 ++ m2 -> length l1 = length m1 -> l1 = m1 /\ l2 = m2.
Proof.
  induction l1 as [|x l1 IH]; intros l2 [|y m1] m2 E L; cbn in *; try discriminate; [now split|].
  inversion E; subst. destruct (IH l2 m1 m2); [assumption|lia|]. now subst.
Qed.
Lemma all2_len {A B} (P : A -> B -> Prop) l m : Forall2 P l m -> length l = length m.
Proof. induction 1; cbn; congruence. Qed.

Definition selects (reg : bool) (ss : list pslice) (sq : list nat) (ps : list pick) : Prop :=
  Forall2 (agr reg) ss ps /\ sq = dropped_axes 0 ps.

Lemma map_of_N_length sh : length (map Z.of_N sh) = length sh.
Proof. apply map_length. Qed.

(** The loop with an ellipsis, one more than the entries. *)
Lemma loop_expanded reg sh pre post : forallb (fun i => negb (is_ellipsis i)) pre = true ->
  forallb (fun i => negb (is_ellipsis i)) post = true -> (length pre + length post <= length sh)%nat ->
  let r := normalize_loop (pre ++ IEllipsis :: post) (length pre + 1 + length post) (map Z.of_N sh) [] false [] in
  let full := pre ++ repeat full_slice (length sh - (length pre + length post)) ++ post in
  (np_axes sh full = None -> raises r) /\
  (forall ps, np_axes sh full = Some ps -> Forall2 (regn reg) sh full ->
     exists ss sq, r = PyOk (ss, sq) /\ selects reg ss sq ps) /\ r <> PyUB.
Proof.
  intros E1 E2 L r full.
  set (m := (length sh - (length pre + length post))%nat) in *.
  assert (R : r = pbind (norm_axes pre (map Z.of_N sh)) (fun a =>
      pbind (norm_axes post (skipn (length sh - length post) (map Z.of_N sh))) (fun b =>
        PyOk (a ++ map (fun n => (Some 0, n)) (firstn m (skipn (length pre) (map Z.of_N sh))) ++ b,
              num_axes 0 pre ++ num_axes (length sh - length post) post)))).
  { unfold r. rewrite loop_ellipsis; [|assumption|rewrite (entries_plain E2), map_of_N_length; lia|lia].
    apply plain_no_ellipsis in E2. rewrite E2, map_of_N_length.
    replace (length sh - length post - length pre)%nat with m by (unfold m; lia). reflexivity. }
  assert (P : norm_axes pre (map Z.of_N sh) = norm_axes pre (firstn (length pre) (map Z.of_N sh))).
  { assert (X := norm_axes_app pre [] (map Z.of_N sh)). rewrite app_nil_r in X. rewrite X.
    cbn [norm_axes pbind]. destruct (norm_axes pre (firstn _ _)); cbn [pbind]; rewrite ?app_nil_r; reflexivity. }
  rewrite P in R. clear P. rewrite !firstn_map, !skipn_map, ?firstn_map in R.
  set (s1 := firstn (length pre) sh) in *. set (s2 := firstn m (skipn (length pre) sh)) in *.
  set (s3 := skipn (length sh - length post) sh) in *.
  assert (L1 : length s1 = length pre) by (unfold s1; rewrite firstn_length; lia).
  assert (L2 : length s2 = m) by (unfold s2; rewrite firstn_length, skipn_length; lia).
  assert (L3 : length s3 = length post) by (unfold s3; rewrite skipn_length; lia).
  assert (S : sh = s1 ++ s2 ++ s3).
  { unfold s1, s2, s3. rewrite <- (firstn_skipn (length pre) sh) at 1. f_equal.
    rewrite <- (firstn_skipn m (skipn (length pre) sh)) at 1. f_equal. rewrite skipn_skipn. f_equal. unfold m. lia. }
  destruct (full_axes s2) as [p2 [A2 [F2 D2]]]. rewrite L2 in A2.
  assert (NP : np_axes sh full = match np_axes s1 pre, np_axes s3 post with
    | Some a, Some b => Some (a ++ p2 ++ b) | _, _ => None end).
  { unfold full. rewrite np_axes_app. fold s1. destruct (np_axes s1 pre); [|reflexivity].
    rewrite np_axes_app, repeat_length. fold s2. rewrite A2, skipn_skipn.
    replace (m + length pre)%nat with (length sh - length post)%nat by (unfold m; lia). fold s3.
    destruct (np_axes s3 post); reflexivity. }
  rewrite NP. assert (U1 := @norm_axes_no_ub pre (map Z.of_N s1)). assert (U3 := @norm_axes_no_ub post (map Z.of_N s3)).
  split; [|split].
  - intros N0. rewrite R. destruct (np_axes s1 pre) as [a|] eqn:A1.
    + destruct (np_axes s3 post) as [b|] eqn:A3; [discriminate|].
      destruct (norm_axes pre (map Z.of_N s1)); cbn [pbind]; [|now eexists|congruence].
      destruct (@axes_none post s3) as [e ->]; [now symmetry|assumption|]. now eexists.
    + destruct (@axes_none pre s1) as [e ->]; [now symmetry|assumption|]. now eexists.
  - intros ps PS O. destruct (np_axes s1 pre) as [a|] eqn:A1; [|discriminate].
    destruct (np_axes s3 post) as [b|] eqn:A3; [|discriminate]. inversion PS; subst ps; clear PS.
    unfold full in O. rewrite S in O. apply Forall2_app_inv_l in O. destruct O as [x1 [x2 [O1 [O2 OE]]]].
    assert (x1 = pre /\ x2 = repeat full_slice m ++ post).
    { apply all2_len in O1 as LO. apply app_same; [now symmetry|lia]. }
    destruct H as [-> ->]. clear OE.
    apply Forall2_app_inv_l in O2. destruct O2 as [y1 [y2 [_ [O3 OE]]]].
    assert (y2 = post).
    { apply all2_len in O3 as LO. symmetry. eapply app_same; [exact OE|].
      apply (f_equal (@length _)) in OE. rewrite !app_length in OE. lia. }
    subst y2.
    destruct (axes_some A1 O1) as [ss1 [N1 G1]]. destruct (axes_some A3 O3) as [ss3 [N3 G3]].
    rewrite R, N1, N3. cbn [pbind]. eexists _, _. split; [reflexivity|]. split.
    + apply Forall2_app; [assumption|]. apply Forall2_app; [|assumption]. clear -F2. induction F2; constructor; [now left|assumption].
    + rewrite !dropped_app, D2, (axes_num _ A1), (axes_num _ A3). cbn [app].
      do 2 f_equal. destruct (np_axes_length A1) as [La _]. destruct (np_axes_length A2) as [Lb _]. lia.
  - rewrite R. destruct (norm_axes pre (map Z.of_N s1)); cbn [pbind]; [|discriminate|congruence].
    destruct (norm_axes post (map Z.of_N s3)); cbn [pbind]; [discriminate|discriminate|congruence].
Qed.

Theorem normalize_gen reg sh ix :
  let r := normalize_slices ix (map Z.of_N sh) in
  (np_select sh ix = None -> raises r) /\
  (forall ps, np_select sh ix = Some ps -> (reg = true -> regular_index sh ix) -> exists ss sq, r = PyOk (ss, sq) /\ selects reg ss sq ps) /\
  r <> PyUB.
Proof.
  intros r.
  assert (G : forall l, index_items ix = l ->
    r = (if Nat.ltb (length sh) (entries l) then PyRaise TypeError
         else let l' := if Nat.ltb (length l) (length sh) && negb (existsb is_ellipsis l) then l ++ [IEllipsis] else l in
              normalize_loop l' (length l') (map Z.of_N sh) [] false []) \/ (raises r /\ np_select sh ix = None)).
  { intros l <-. unfold r, normalize_slices. rewrite map_of_N_length.
    destruct ix as [l|i]; cbn [index_items]; [now left|]. destruct i; try now left.
    right. split; [now eexists|]. unfold np_select. cbn. destruct sh as [|n sr]; [reflexivity|]. cbn [length].
    destruct (Nat.ltb_spec (S (length sr)) 1); [lia|]. reflexivity. }
  destruct (G _ eq_refl) as [R|[R N0]].
  2:{ rewrite N0. split; [intros _; exact R|]. split; [discriminate|]. destruct R as [e R]. rewrite R. discriminate. }
  clear G. unfold np_select, regular_index, np_expand. set (l := index_items ix) in *.
  destruct (Nat.ltb_spec (length sh) (entries l)) as [B|B].
  { split; [intros _; rewrite R; now eexists|]. split; [discriminate|]. now rewrite R. }
  destruct (forallb (fun i => negb (is_ellipsis i)) l) eqn:P.
  - rewrite (plain_filter P). cbn [length]. rewrite (entries_plain P) in *.
    assert (X := proj1 (plain_no_ellipsis l) P). rewrite X, andb_true_r in R.
    destruct (Nat.ltb_spec (length l) (length sh)) as [C|C].
    + assert (Q := @loop_expanded reg sh l [] P eq_refl). cbn [length] in Q. rewrite !Nat.add_0_r in Q.
      specialize (Q ltac:(lia)). cbn zeta in Q. cbn zeta in R. rewrite app_length in R. cbn [length] in R. rewrite R.
      rewrite app_nil_r in Q. destruct Q as [Q1 [Q2 Q3]].
      split; [exact Q1|]. split; [|exact Q3]. intros ps S O. apply (Q2 ps S).
      apply regn_all; [exact (proj2 (np_axes_length S))|]. intros RG. now apply (O RG).
    + assert (LE : length l = length sh) by lia. replace (length sh - length l)%nat with 0%nat by lia.
      cbn [repeat]. rewrite app_nil_r.
      rewrite loop_plain in R; [|assumption|cbn; rewrite map_of_N_length; lia]. cbn [length skipn app] in R.
      split; [|split].
      * intros S. destruct (axes_none LE S) as [e Q]. rewrite R, Q. now eexists.
      * intros ps S O. destruct (@axes_some reg _ _ _ S) as [ss [Q F]]; [apply regn_all; [exact LE|]; intros RG; now apply (O RG)|]. rewrite R, Q. cbn [pbind].
        eexists _, _. split; [reflexivity|]. split; [assumption|]. apply (axes_num _ S).
      * rewrite R. assert (U := @norm_axes_no_ub l (map Z.of_N sh)).
        destruct (norm_axes l (map Z.of_N sh)); cbn [pbind]; [discriminate|discriminate|congruence].
  - destruct (first_ellipsis P) as [pre [post [LE PP]]].
    assert (X : existsb is_ellipsis l = true).
    { destruct (existsb is_ellipsis l) eqn:Y; [reflexivity|]. apply plain_no_ellipsis in Y. congruence. }
    rewrite X, andb_false_r in R. cbn zeta in R. rewrite LE in *.
    rewrite filter_app, (plain_filter PP). cbn [filter is_ellipsis app length].
    rewrite entries_app, (entries_plain PP) in B. unfold entries in B at 1. cbn [filter is_ellipsis negb] in B. fold (entries post) in B.
    rewrite app_length in R. cbn [length] in R. replace (length pre + S (length post))%nat with (length pre + 1 + length post)%nat in R by lia.
    destruct (existsb is_ellipsis post) eqn:Y.
    + assert (RR : raises r).
      { rewrite R, loop_ellipsis; [|assumption|rewrite map_of_N_length; lia|reflexivity]. rewrite Y.
        assert (U := @norm_axes_no_ub pre (map Z.of_N sh)).
        destruct (norm_axes pre (map Z.of_N sh)) as [a|e|] eqn:NA; cbn [pbind]; [|now eexists|congruence].
        assert (FU : forall fuel acc, (length sh <= fuel + length acc)%nat -> match fill_up fuel (length post) (map Z.of_N sh) acc with PyUB => False | _ => True end).
        { induction fuel as [|f IH]; intros acc FL; cbn [fill_up]; rewrite map_of_N_length;
            (destruct (Nat.ltb_spec (length acc + length post) (length sh)); [|exact Logic.I]).
          - lia.
          - destruct (nth_error _ _); [|exact Logic.I]. apply IH. rewrite app_length. cbn. lia. }
        specialize (FU (length (map Z.of_N sh)) a). rewrite map_of_N_length in FU. rewrite map_of_N_length. specialize (FU ltac:(lia)).
        destruct (fill_up _ _ _ a); cbn [pbind]; [|now eexists|tauto]. now apply loop_second. }
      assert (F : exists k, length (filter is_ellipsis post) = S k).
      { clear -Y. induction post as [|i r IH]; cbn in *; [discriminate|]. destruct (is_ellipsis i); [now eexists|apply IH, Y]. }
      destruct F as [k ->]. split; [intros _; exact RR|]. split; [discriminate|]. destruct RR as [e RR]. rewrite RR. discriminate.
    + apply plain_no_ellipsis in Y. rewrite (plain_filter Y). cbn [length].
      rewrite (entries_plain Y) in B.
      assert (Q := @loop_expanded reg sh pre post PP Y B). cbn zeta in Q. rewrite <- R in Q.
      rewrite entries_app, (entries_plain PP). change (entries (IEllipsis :: post)) with (entries post). rewrite (entries_plain Y).
      rewrite flat_map_app. cbn [flat_map is_ellipsis]. rewrite !plain_flat by assumption.
      destruct Q as [Q1 [Q2 Q3]]. split; [exact Q1|]. split; [|exact Q3]. intros ps S O. apply (Q2 ps S).
      apply regn_all; [exact (proj2 (np_axes_length S))|]. intros RG. now apply (O RG).
Qed.

Theorem normalize_spec sh ix :
  let r := normalize_slices ix (map Z.of_N sh) in
  (np_select sh ix = None -> raises r) /\
  (forall ps, np_select sh ix = Some ps -> regular_index sh ix -> exists ss sq, r = PyOk (ss, sq) /\ selects true ss sq ps) /\
  r <> PyUB.
Proof.
  destruct (normalize_gen true sh ix) as [A [B C]]. split; [exact A|]. split; [|exact C]. intros ps P R. now apply B.
Qed.
