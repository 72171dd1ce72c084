(** Proofs about the shapes rectify_shape accepts. *)
From Coq Require Import ZArith Lia ZifyBool ZifyNat ZifyN.
From Verif Require Import M_Base P_Base M_Key M_View M_Format M_Mode M_Dataset M_Sharded M_Access P_Access M_Python
  S_Array S_Grid S_Bytes S_Format S_Dataset S_Access S_Sharded S_Python P_Python.
Import ListNotations.
Local Open Scope list_scope.
Local Open Scope nat_scope.

Notation ones k := (repeat 1%N k).

Lemma shape_eqb_spec a : forall b, M_Access.shape_eqb a b = true <-> a = b.
Proof.
  induction a as [|x a IH]; intros [|y b]; cbn [M_Access.shape_eqb]; try (split; congruence).
  rewrite andb_true_iff, IH, N.eqb_eq. split; [intros [-> ->]; reflexivity|intros H; now inversion H].
Qed.

Lemma ones_snoc k : 1%N :: ones k = ones k ++ [1%N].
Proof. induction k; cbn; [reflexivity|]. now rewrite <- IHk. Qed.
Lemma ones_rev k : rev (ones k) = ones k.
Proof. induction k as [|k IH]; cbn [repeat rev]; [reflexivity|]. rewrite IH. now rewrite <- ones_snoc. Qed.
Lemma ones_app a b : ones a ++ ones b = ones (a + b).
Proof. now rewrite repeat_app. Qed.
Lemma prod_app a b : prod (a ++ b) = (prod a * prod b)%N.
Proof. induction a as [|x a IH]; cbn [app prod]; [lia|]. rewrite IH. lia. Qed.
Lemma prod_ones k : prod (ones k) = 1%N.
Proof. induction k as [|k IH]; cbn [repeat prod]; [reflexivity|]. lia. Qed.
Lemma hd_rev (l : shape) : hd 1%N (rev l) = last l 1%N.
Proof.
  destruct l as [|x l] using rev_ind; [reflexivity|]. rewrite rev_app_distr, last_last. reflexivity.
Qed.

Definition trimmed (c : shape) : Prop := hd 1%N c <> 1%N /\ last c 1%N <> 1%N.

Lemma strip_left a : forall a' (x x' : shape), ones a ++ x = ones a' ++ x' -> hd 1%N x <> 1%N -> hd 1%N x' <> 1%N ->
  a = a' /\ x = x'.
Proof.
  induction a as [|a IH]; intros [|a'] x x' E H H'; cbn [repeat app] in E.
  - now split.
  - subst x. cbn in H. congruence.
  - subst x'. cbn in H'. congruence.
  - inversion E as [E']. destruct (IH _ _ _ E' H H'). now subst.
Qed.

Lemma hd_app_trim (c r : shape) : trimmed c -> hd 1%N (c ++ r) <> 1%N.
Proof. intros [H _]. destruct c; cbn in *; [congruence|assumption]. Qed.

Lemma core_unique a b a' b' c c' : ones a ++ c ++ ones b = ones a' ++ c' ++ ones b' ->
  trimmed c -> trimmed c' -> c = c'.
Proof.
  intros E T T'. apply strip_left in E; [|now apply hd_app_trim|now apply hd_app_trim].
  destruct E as [_ E]. apply (f_equal (@rev N)) in E. rewrite !rev_app_distr, !ones_rev in E.
  apply strip_left in E; [|rewrite hd_rev; apply T|rewrite hd_rev; apply T'].
  destruct E as [_ E]. apply (f_equal (@rev N)) in E. now rewrite !rev_involutive in E.
Qed.

(** The loop removes leading and trailing ones. *)
Lemma important_spec fuel : forall l, length l <= fuel ->
  exists a b, l = ones a ++ important fuel l ++ ones b /\
    (length l <= length (important fuel l) + a + b) /\
    (l <> [] -> important fuel l <> []) /\
    (2 <= length (important fuel l) -> trimmed (important fuel l)).
Proof.
  induction fuel as [|f IH]; intros l L.
  - destruct l; [|cbn in L; lia]. exists 0, 0. cbn. repeat split; try congruence; lia.
  - cbn [important]. destruct (Nat.ltb_spec 1 (length l)) as [B|B].
    + destruct (N.eqb_spec (hd 0%N l) 1) as [H|H].
      * destruct l as [|x l]; cbn in B; [lia|]. cbn [hd tl length] in *. subst x.
        destruct (IH l) as [a [b [E [G1 [G2 G3]]]]]; [lia|]. exists (S a), b.
        split; [cbn [repeat app]; now rewrite <- E|]. split; [lia|]. split; [|exact G3].
        intros _. apply G2. destruct l; [cbn in B; lia|discriminate].
      * destruct (N.eqb_spec (last l 0%N) 1) as [H'|H'].
        -- destruct l as [|y l0] using rev_ind; [cbn in B; lia|]. clear IHl0.
           rewrite last_last in H'. subst y. rewrite removelast_last. rewrite app_length in *. cbn [length] in *.
           destruct (IH l0) as [a [b [E [G1 [G2 G3]]]]]; [lia|]. exists a, (S b).
           split; [rewrite E at 1; cbn [repeat]; rewrite ones_snoc, <- !app_assoc; reflexivity|].
           split; [lia|]. split; [|exact G3]. intros _. apply G2. destruct l0; [cbn in B; lia|discriminate].
        -- exists 0, 0. cbn [repeat app]. rewrite app_nil_r. repeat split; try lia; try congruence.
           ++ destruct l; [cbn in B; lia|exact H].
           ++ destruct l as [|y l0] using rev_ind; [cbn in B; lia|]. rewrite last_last in *. exact H'.
    + exists 0, 0. cbn [repeat app]. rewrite app_nil_r. repeat split; try congruence; try lia.
Qed.

(** The loop over the windows. *)
Lemma trailing_loop i ws : rectify_loop i false ws = true <-> Forall (fun w => w <> i /\ last w 1%N = 1%N) ws.
Proof.
  induction ws as [|w r IH]; cbn [rectify_loop]; [split; constructor|].
  destruct (M_Access.shape_eqb w i) eqn:E.
  - split; [discriminate|]. intros H. inversion H as [|? ? [H1 _]]. apply shape_eqb_spec in E. congruence.
  - assert (w <> i) by (intros X; apply shape_eqb_spec in X; congruence).
    destruct (N.eqb_spec (last w 1%N) 1) as [L|L]; cbn [negb].
    + rewrite IH. split; [intros; constructor; [now split|assumption]|intros X; now inversion X].
    + split; [discriminate|]. intros X. inversion X as [|? ? [_ ?]]. congruence.
Qed.

Lemma leading_loop i ws : rectify_loop i true ws = true <->
  Forall (fun w => w <> i /\ hd 1%N w = 1%N) ws \/
  exists pre post, ws = pre ++ i :: post /\ Forall (fun w => w <> i /\ hd 1%N w = 1%N) pre /\
    Forall (fun w => w <> i /\ last w 1%N = 1%N) post.
Proof.
  induction ws as [|w r IH]; cbn [rectify_loop].
  - split; [intros _; left; constructor|reflexivity].
  - destruct (M_Access.shape_eqb w i) eqn:E.
    + apply shape_eqb_spec in E. subst w. rewrite trailing_loop. split.
      * intros H. right. exists [], r. repeat split; auto.
      * intros [H|[pre [post [H1 [H2 H3]]]]]; [inversion H as [|? ? [X _]]; congruence|].
        destruct pre as [|p pre]; [now inversion H1; subst|]. inversion H1; subst. inversion H2 as [|? ? [X _]]. congruence.
    + assert (N0 : w <> i) by (intros X; apply shape_eqb_spec in X; congruence).
      destruct (N.eqb_spec (hd 1%N w) 1) as [L|L]; cbn [negb].
      * rewrite IH. split.
        -- intros [H|[pre [post [H1 [H2 H3]]]]]; [left; now constructor|]. right. exists (w :: pre), post.
           subst r. repeat split; auto.
        -- intros [H|[pre [post [H1 [H2 H3]]]]]; [left; now inversion H|].
           destruct pre as [|p pre]; [inversion H1; congruence|]. inversion H1; subst. inversion H2; subst.
           right. exists pre, post. repeat split; auto.
      * split; [discriminate|]. intros [H|[pre [post [H1 [H2 H3]]]]].
        -- inversion H as [|? ? [_ X]]. congruence.
        -- destruct pre as [|p pre]; [inversion H1; congruence|]. inversion H1; subst. inversion H2 as [|? ? [_ X]]. congruence.
Qed.

Lemma window_hd k j (m : shape) : 1 <= k -> hd 1%N (firstn k (skipn j m)) = nth j m 1%N.
Proof.
  intros K. revert j. induction m as [|x m IH]; intros [|j]; cbn [skipn nth].
  - now destruct k.
  - now destruct k.
  - destruct k; [lia|reflexivity].
  - apply IH.
Qed.
Lemma last_nth (l : shape) : last l 1%N = nth (length l - 1) l 1%N.
Proof.
  induction l as [|x l IH]; [reflexivity|]. destruct l as [|y l]; [reflexivity|].
  change (last (x :: y :: l) 1%N) with (last (y :: l) 1%N). rewrite IH. cbn [length].
  replace (S (S (length l)) - 1) with (S (S (length l) - 1)) by lia. reflexivity.
Qed.
Lemma window_last k j (m : shape) : 1 <= k -> j + k <= length m ->
  last (firstn k (skipn j m)) 1%N = nth (j + k - 1) m 1%N.
Proof.
  intros K B. rewrite last_nth, firstn_length, skipn_length. replace (Nat.min k (length m - j)) with k by lia.
  revert m B. induction j as [|j IH]; intros m B.
  - cbn [skipn]. clear -K. revert k K. induction m as [|x m IHm]; intros [|k] K; try lia.
    + now destruct (S k - 1), (0 + S k - 1).
    + cbn [firstn]. replace (S k - 1) with k by lia. replace (0 + S k - 1) with k by lia.
      destruct k; [reflexivity|]. cbn [nth]. specialize (IHm (S k)). replace (S k - 1) with k in IHm by lia.
      replace (0 + S k - 1) with k in IHm by lia. apply IHm. lia.
  - destruct m as [|x m]; cbn [length] in B; [lia|]. cbn [skipn].
    replace (S j + k - 1) with (S (j + k - 1)) by lia. cbn [nth]. apply IH. lia.
Qed.

Lemma all_ones (l : shape) : (forall j, j < length l -> nth j l 1%N = 1%N) -> l = ones (length l).
Proof.
  induction l as [|x l IH]; intros H; [reflexivity|]. cbn [length repeat]. f_equal.
  - apply (H 0). cbn. lia.
  - apply IH. intros j B. apply (H (S j)). cbn. lia.
Qed.

Lemma nth_firstn_lt (l : shape) : forall n j, j < n -> nth j (firstn n l) 1%N = nth j l 1%N.
Proof.
  induction l as [|x l IH]; intros [|n] [|j] B; try lia; cbn [firstn nth]; try reflexivity. apply IH. lia.
Qed.
Lemma nth_skipn' (l : shape) : forall n j, nth j (skipn n l) 1%N = nth (n + j) l 1%N.
Proof.
  induction l as [|x l IH]; intros [|n] j; cbn [skipn Nat.add]; try reflexivity.
  - now destruct j.
  - cbn [nth]. apply IH.
Qed.

Lemma nth_ones_app c : forall j (r : shape), j < c -> nth j (ones c ++ r) 1%N = 1%N.
Proof.
  induction c as [|c IH]; intros [|j] r B; try lia; cbn [repeat app nth]; [reflexivity|]. apply IH. lia.
Qed.

(** The windows of [m]. *)
Notation wins m k := (map (fun i => firstn k (skipn i m)) (seq 0 (length m - k + 1))).

Lemma in_wins (m : shape) k w : In w (wins m k) <-> exists j, j <= length m - k /\ w = firstn k (skipn j m).
Proof.
  rewrite in_map_iff. split.
  - intros [j [<- J]]. apply in_seq in J. exists j. split; [lia|reflexivity].
  - intros [j [B ->]]. exists j. split; [reflexivity|]. apply in_seq. lia.
Qed.

(** No window matched. *)
Lemma wins_leading (m : shape) k : 1 <= k -> k <= length m ->
  Forall (fun w => hd 1%N w = 1%N) (wins m k) ->
  m = ones (length m - k + 1) ++ skipn (length m - k + 1) m.
Proof.
  intros K B F. rewrite <- (firstn_skipn (length m - k + 1) m) at 1. f_equal.
  rewrite (@all_ones (firstn (length m - k + 1) m)).
  - rewrite firstn_length. f_equal. lia.
  - rewrite firstn_length. intros j J. rewrite Forall_forall in F.
    assert (X := F (firstn k (skipn j m))). rewrite window_hd in X by assumption.
    assert (Y : nth j (firstn (length m - k + 1) m) 1%N = nth j m 1%N).
    { apply nth_firstn_lt. lia. }
    rewrite Y. apply X. apply in_wins. exists j. split; [lia|reflexivity].
Qed.

Lemma seq_split3 (f : nat -> shape) : forall len s pre w post, map f (seq s len) = pre ++ w :: post ->
  exists i, i < len /\ i = length pre /\ w = f (s + i) /\
    pre = map f (seq s i) /\ post = map f (seq (s + i + 1) (len - i - 1)).
Proof.
  induction len as [|len IH]; intros s pre w post H; cbn [seq map] in H.
  - destruct pre; discriminate.
  - destruct pre as [|p pre]; cbn [app] in H; inversion H; subst.
    + exists 0. rewrite Nat.add_0_r. replace (S len - 0 - 1) with len by lia. rewrite Nat.add_1_r.
      repeat split; try lia.
    + destruct (IH (S s) pre w post) as [i [B [L [W [P Q]]]]]; [assumption|].
      exists (S i). replace (s + S i) with (S s + i) by lia. replace (S len - S i - 1) with (len - i - 1) by lia.
      repeat split; try assumption; try lia. cbn [length]. lia. cbn [seq map]. now rewrite <- P.
Qed.

Lemma wins_match (m core : shape) pre post : 1 <= length core -> length core <= length m ->
  wins m (length core) = pre ++ core :: post ->
  Forall (fun w => hd 1%N w = 1%N) pre -> Forall (fun w => last w 1%N = 1%N) post ->
  exists c d, m = ones c ++ core ++ ones d.
Proof.
  intros K B E F1 F2. set (k := length core) in *.
  apply seq_split3 in E. destruct E as [i [I [L [W [P Q]]]]]. cbn [Nat.add] in *. subst pre post.
  exists i, (length m - k - i).
  assert (M : m = firstn i m ++ firstn k (skipn i m) ++ skipn k (skipn i m)) by now rewrite !firstn_skipn.
  rewrite M at 1. rewrite <- W. f_equal; [|f_equal].
  - rewrite (@all_ones (firstn i m)).
    + rewrite firstn_length. f_equal. lia.
    + rewrite firstn_length. intros j J. rewrite Forall_forall in F1.
      assert (X := F1 (firstn k (skipn j m))). rewrite window_hd in X by assumption.
      assert (Y : nth j (firstn i m) 1%N = nth j m 1%N).
      { apply nth_firstn_lt. lia. }
      rewrite Y. apply X. apply in_map_iff. exists j. split; [reflexivity|]. apply in_seq. lia.
  - rewrite (@all_ones (skipn k (skipn i m))).
    + rewrite !skipn_length. f_equal. lia.
    + rewrite !skipn_length. intros j J. rewrite Forall_forall in F2.
      assert (Y : nth j (skipn k (skipn i m)) 1%N = nth (i + 1 + j + k - 1) m 1%N).
      { rewrite !nth_skipn'. f_equal. lia. }
      rewrite Y. rewrite <- window_last by lia. apply F2. apply in_map_iff.
      exists (i + 1 + j). split; [reflexivity|]. apply in_seq. lia.
Qed.

(** A padded core is found. *)
Lemma wins_found c d core : trimmed core ->
  rectify_loop core true (wins (ones c ++ core ++ ones d) (length core)) = true.
Proof.
  intros T. set (m := ones c ++ core ++ ones d). set (k := length core).
  assert (K : 1 <= k). { unfold k. destruct core; [destruct T as [T _]; cbn in T; congruence|cbn; lia]. }
  assert (LM : length m = c + k + d). { unfold m, k. rewrite !app_length, !repeat_length. lia. }
  apply leading_loop. right. exists (map (fun i => firstn k (skipn i m)) (seq 0 c)), (map (fun i => firstn k (skipn i m)) (seq (S c) d)).
  split; [|split].
  - replace (length m - k + 1) with (c + S d) by lia. rewrite seq_app, map_app. cbn [Nat.add]. f_equal.
    cbn [seq map]. f_equal. unfold m. rewrite skipn_app, repeat_length, Nat.sub_diag.
    rewrite skipn_all2 by now rewrite repeat_length. cbn [app skipn]. unfold k. rewrite firstn_app, Nat.sub_diag.
    now rewrite firstn_all, firstn_O, app_nil_r.
  - apply Forall_forall. intros w W. apply in_map_iff in W. destruct W as [j [<- J]]. apply in_seq in J.
    assert (X : hd 1%N (firstn k (skipn j m)) = 1%N).
    { rewrite window_hd by assumption. unfold m. now apply nth_ones_app. }
    split; [|exact X]. intros Y. rewrite Y in X. now apply (proj1 T).
  - apply Forall_forall. intros w W. apply in_map_iff in W. destruct W as [j [<- J]]. apply in_seq in J.
    assert (X : last (firstn k (skipn j m)) 1%N = 1%N).
    { rewrite window_last by lia. unfold m. rewrite app_assoc.
      rewrite app_nth2; rewrite app_length, repeat_length; fold k; [|lia].
      rewrite <- (app_nil_r (ones d)). apply nth_ones_app. lia. }
    split; [|exact X]. intros Y. rewrite Y in X. now apply (proj2 T).
Qed.

Lemma exists_trim (l : shape) : Exists (fun x => x <> 1%N) l -> exists a b c, l = ones a ++ c ++ ones b /\ trimmed c.
Proof.
  intros E. destruct (@important_spec (length l) l (le_n _)) as [a [b [Q [_ [G2 G3]]]]].
  exists a, b, (important (length l) l). split; [exact Q|].
  set (i := important (length l) l) in *.
  destruct (le_lt_dec 2 (length i)) as [B|B]; [now apply G3|].
  destruct i as [|x [|y r]] eqn:EI; cbn in B; [|clear B|lia].
  - assert (l <> []) by (intros ->; inversion E). elim (G2 H eq_refl).
  - assert (x <> 1%N). 2: split; assumption.
    intros ->. rewrite Q in E. apply Exists_exists in E. destruct E as [z [Z1 Z2]].
    rewrite !in_app_iff in Z1. destruct Z1 as [Z1|[[Z1|[]]|Z1]]; [apply repeat_spec in Z1|subst z|apply repeat_spec in Z1]; congruence.
Qed.

Lemma trim_exists (a b : nat) c : trimmed c -> Exists (fun x => x <> 1%N) (ones a ++ c ++ ones b).
Proof.
  intros [T _]. apply Exists_exists. exists (hd 1%N c). split; [|assumption]. rewrite !in_app_iff.
  right; left. destruct c; cbn in *; [congruence|now left].
Qed.

Lemma exists_or_ones (l : shape) : Exists (fun x => x <> 1%N) l \/ l = ones (length l).
Proof.
  induction l as [|x l IH]; [now right|]. destruct (N.eq_dec x 1) as [->|]; [|left; now constructor].
  destruct IH as [IH|IH]; [left; now constructor|right]. cbn [length repeat]. now rewrite <- IH.
Qed.

Lemma rectify_cases n m : rectify_shape n m = PyOk tt \/ rectify_shape n m = PyRaise ValueError.
Proof.
  unfold rectify_shape. destruct (M_Access.shape_eqb n m); [now left|]. cbn zeta.
  destruct (Nat.ltb _ _); [now right|]. destruct (rectify_loop _ _ _); [|now right]. destruct (_ =? _)%N; [now left|now right].
Qed.

Lemma important_core n a b c : n = ones a ++ c ++ ones b -> trimmed c -> important (length n) n = c.
Proof.
  intros E T. assert (X := trim_exists a b T). rewrite <- E in X.
  destruct (@important_spec (length n) n (le_n _)) as [a' [b' [Q [_ [G2 G3]]]]].
  set (i := important (length n) n) in *.
  assert (T' : trimmed i).
  { destruct (le_lt_dec 2 (length i)) as [B|B]; [now apply G3|].
    destruct i as [|x [|y r]] eqn:EI; cbn in B; [|clear B|lia].
    - assert (n <> []) by (intros Y; rewrite Y in X; inversion X). elim (G2 H eq_refl).
    - assert (x <> 1%N). 2: split; assumption.
      intros ->. rewrite Q in X. apply Exists_exists in X. destruct X as [z [Z1 Z2]].
      rewrite !in_app_iff in Z1. destruct Z1 as [Z1|[[Z1|[]]|Z1]]; [apply repeat_spec in Z1|subst z|apply repeat_spec in Z1]; congruence. }
  rewrite E in Q. symmetry. exact (core_unique Q T T').
Qed.

Lemma important_ones k : k <> 0 -> important (length (ones k)) (ones k) = [1%N].
Proof.
  rewrite repeat_length. assert (G : forall f, k <= f -> k <> 0 -> important f (ones k) = [1%N]).
  { induction k as [|k IH]; intros f L K; [lia|]. destruct f as [|f]; [lia|]. cbn [important].
    rewrite repeat_length. destruct (Nat.ltb_spec 1 (S k)).
    - cbn [repeat hd tl N.eqb Pos.eqb]. apply IH; lia.
    - destruct k; [reflexivity|lia]. }
  intros K. now apply G.
Qed.

Lemma core_prod n m : same_core n m -> prod n = prod m.
Proof.
  intros [core [a [b [c [d [-> ->]]]]]]. rewrite !prod_app, !prod_ones. lia.
Qed.

Theorem rectify_exact n m : rectify_shape n m = PyOk tt <-> accepted n m.
Proof.
  unfold rectify_shape. destruct (M_Access.shape_eqb n m) eqn:EQ.
  { apply shape_eqb_spec in EQ. split; [intros _; now left|reflexivity]. }
  assert (NE : n <> m) by (intros X; apply shape_eqb_spec in X; congruence). clear EQ.
  cbn zeta. rewrite !fold_mul, !N.mul_1_l. unfold sliding_window.
  destruct (exists_or_ones n) as [X|X].
  - destruct (exists_trim X) as [a [b [core [E T]]]]. rewrite (@important_core _ _ _ _ E T).
    assert (K : 1 <= length core). { destruct core; [destruct T as [T _]; cbn in T; congruence|cbn; lia]. }
    destruct (Nat.ltb_spec (length m) (length core)) as [B|B].
    + split; [discriminate|]. intros [A|[[_ [A _]]|[[_ A]|A]]].
      * congruence.
      * rewrite A in X. apply Exists_exists in X. destruct X as [z [Z1 Z2]]. apply repeat_spec in Z1. congruence.
      * destruct A as [c2 [a2 [b2 [c3 [d3 [E2 E3]]]]]].
        assert (X2 : Exists (fun x => x <> 1%N) c2).
        { rewrite E2 in X. apply Exists_exists in X. destruct X as [z [Z1 Z2]]. rewrite !in_app_iff in Z1.
          destruct Z1 as [Z1|[Z1|Z1]]; [apply repeat_spec in Z1; congruence| |apply repeat_spec in Z1; congruence].
          apply Exists_exists. now exists z. }
        destruct (exists_trim X2) as [a4 [b4 [c4 [E4 T4]]]].
        assert (c4 = core).
        { symmetry. apply (@core_unique a b (a2 + a4) (b4 + b2)); [|assumption|assumption].
          rewrite <- E, E2, E4, <- !ones_app, <- !app_assoc. reflexivity. }
        subst c4 c2 m. rewrite !app_length in B. lia.
      * destruct A as [c2 [a2 [b2 [lead [rest [E2 [L2 [H1 [H2 [E3 [L3 [L4 P]]]]]]]]]]]].
        assert (c2 = core) by (symmetry; apply (@core_unique a b a2 b2); [congruence|assumption|now split]).
        subst c2 m. rewrite app_length, repeat_length in B. lia.
    + split.
      * destruct (rectify_loop core true _) eqn:R; [|discriminate].
        destruct (N.eqb_spec (prod n) (prod m)) as [P|P]; [|discriminate]. intros _. right. right.
        apply leading_loop in R. destruct R as [R|[pre [post [R1 [R2 R3]]]]].
        -- right.
           exists core, a, b, (length m - length core + 1), (skipn (length m - length core + 1) m).
           assert (M : m = ones (length m - length core + 1) ++ skipn (length m - length core + 1) m).
           { apply wins_leading; [assumption|assumption|]. eapply Forall_impl; [|exact R]. cbn. tauto. }
           destruct T as [T1 T2].
           assert (2 <= length core).
           { destruct core as [|x [|y r]]; cbn [length] in *; [lia| |lia]. exfalso.
             replace (length m - 1 + 1) with (length m) in M by lia. rewrite skipn_all, app_nil_r in M.
             rewrite M, prod_ones, E, !prod_app, !prod_ones in P. cbn [prod hd] in *. lia. }
           repeat split; try assumption; try lia. rewrite skipn_length. lia.
        -- left. split; [assumption|].
           destruct (@wins_match m core pre post) as [c [d M]]; try assumption.
           { eapply Forall_impl; [|exact R2]. cbn. tauto. } { eapply Forall_impl; [|exact R3]. cbn. tauto. }
           exists core, a, b, c, d. now split.
      * intros [A|[[_ [A _]]|[[_ A]|A]]].
        -- congruence.
        -- rewrite A in X. apply Exists_exists in X. destruct X as [z [Z1 Z2]]. apply repeat_spec in Z1. congruence.
        -- assert (P := core_prod A). destruct A as [c2 [a2 [b2 [c3 [d3 [E2 E3]]]]]].
           assert (X2 : Exists (fun x => x <> 1%N) c2).
           { rewrite E2 in X. apply Exists_exists in X. destruct X as [z [Z1 Z2]]. rewrite !in_app_iff in Z1.
             destruct Z1 as [Z1|[Z1|Z1]]; [apply repeat_spec in Z1; congruence| |apply repeat_spec in Z1; congruence].
             apply Exists_exists. now exists z. }
           destruct (exists_trim X2) as [a4 [b4 [c4 [E4 T4]]]].
           assert (c4 = core).
           { symmetry. apply (@core_unique a b (a2 + a4) (b4 + b2)); [|assumption|assumption].
             rewrite <- E, E2, E4, <- !ones_app, <- !app_assoc. reflexivity. }
           subst c4. assert (M : m = ones (c3 + a4) ++ core ++ ones (b4 + d3)).
           { rewrite E3, E4, <- !ones_app, <- !app_assoc. reflexivity. }
           rewrite P, N.eqb_refl. clear P E3 B NE. subst m.
           rewrite (wins_found (c3 + a4) (b4 + d3) T). reflexivity.
        -- destruct A as [c2 [a2 [b2 [lead [rest [E2 [L2 [H1 [H2 [E3 [L3 [L4 P]]]]]]]]]]]].
           assert (c2 = core) by (symmetry; apply (@core_unique a b a2 b2); [congruence|assumption|now split]).
           subst c2. rewrite P, N.eqb_refl.
           assert (R : rectify_loop core true (wins m (length core)) = true).
           { apply leading_loop. left. apply Forall_forall. intros w W. apply in_wins in W. destruct W as [j [J ->]].
             assert (Y : hd 1%N (firstn (length core) (skipn j m)) = 1%N).
             { rewrite window_hd by assumption. rewrite E3. apply nth_ones_app.
               rewrite E3, app_length, repeat_length in J. lia. }
             split; [|exact Y]. intros Z. rewrite Z in Y. now apply H1. }
           now rewrite R.
  - destruct n as [|x n'].
    { cbn [important length]. destruct m as [|y m']; [congruence|]. cbn [Nat.ltb Nat.leb length firstn Nat.sub].
      rewrite Nat.add_1_r. cbn [seq map rectify_loop M_Access.shape_eqb]. split; [discriminate|].
      intros [A|[[A _]|[[A _]|A]]]; [congruence|congruence|inversion A|].
      destruct A as [c2 [a2 [b2 [lead [rest [E2 [L2 _]]]]]]]. apply (f_equal (@length N)) in E2.
      rewrite !app_length in E2. cbn in E2. lia. }
    set (n := x :: n') in *. assert (LN : length n <> 0) by (cbn; lia).
    assert (I : important (length n) n = [1%N]). { assert (Y := important_ones LN). rewrite <- X in Y. exact Y. }
    rewrite I. clear I. cbn [length].
    assert (PN : prod n = 1%N) by (rewrite X; apply prod_ones). rewrite PN.
    assert (NX : ~ Exists (fun x => x <> 1%N) n).
    { rewrite X. intros Y. apply Exists_exists in Y. destruct Y as [z [Z1 Z2]]. apply repeat_spec in Z1. congruence. }
    assert (NO : ~ odd_match n m).
    { intros [c2 [a2 [b2 [lead [rest [E2 [L2 [H1 [H2 _]]]]]]]]]. apply NX. rewrite E2. apply trim_exists. now split. }
    assert (AC : accepted n m <-> m = [1%N]).
    { split.
      - intros [A|[[_ [_ A]]|[[A _]|A]]]; [congruence|assumption|tauto|tauto].
      - intros A. right. left. split; [discriminate|]. now split. }
    rewrite AC. destruct m as [|y [|z m']].
    + cbn. split; discriminate.
    + cbn [length Nat.ltb Nat.leb Nat.sub Nat.add seq map skipn firstn rectify_loop M_Access.shape_eqb hd prod].
      destruct (N.eqb_spec y 1) as [->|Y]; cbn [andb].
      * cbn [rectify_loop]. split; reflexivity.
      * cbn [rectify_loop negb]. split; [discriminate|]. intros A. inversion A. congruence.
    + cbn [length Nat.ltb Nat.leb Nat.sub]. rewrite Nat.add_1_r. cbn [seq map skipn firstn rectify_loop M_Access.shape_eqb hd last].
      split; [|discriminate].
      destruct (N.eqb_spec y 1) as [->|Y]; cbn [andb negb]; [|discriminate].
      destruct (N.eqb_spec z 1) as [->|Z]; cbn [andb negb]; discriminate.
Qed.
