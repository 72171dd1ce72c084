(** Lemmas about the base vocabulary. *)
From Verif Require Import M_Base S_Array.

Lemma W64_val : W64 = 18446744073709551616. Proof. reflexivity. Qed.
Global Opaque W64.

Lemma addw_small a b : a + b < W64 -> addw a b = a + b.
Proof. intros H. unfold addw. apply N.mod_small. exact H. Qed.
Lemma mulw_small a b : a * b < W64 -> mulw a b = a * b.
Proof. intros H. unfold mulw. apply N.mod_small. exact H. Qed.
Lemma subw_small a b : b <= a -> a < W64 -> subw a b = a - b.
Proof.
  intros H1 H2. unfold subw. rewrite (N.mod_small b) by lia.
  replace (a + W64 - b) with ((a - b) + 1 * W64) by lia.
  rewrite N.mod_add by (rewrite W64_val; lia). apply N.mod_small. lia.
Qed.
Lemma subw_neg a b : a < b -> b < W64 -> subw a b = W64 - (b - a).
Proof.
  intros H1 H2. unfold subw. rewrite (N.mod_small b) by lia.
  rewrite N.mod_small by lia. lia.
Qed.
Lemma addw_lt a b : addw a b < W64.
Proof. unfold addw. apply N.mod_lt. rewrite W64_val; lia. Qed.
Lemma mulw_lt a b : mulw a b < W64.
Proof. unfold mulw. apply N.mod_lt. rewrite W64_val; lia. Qed.

Lemma lenN_nil A : lenN (@nil A) = 0. Proof. reflexivity. Qed.
Lemma lenN_cons A (x : A) l : lenN (x :: l) = lenN l + 1.
Proof. unfold lenN; cbn [length]; lia. Qed.
Lemma lenN_app A (l1 l2 : list A) : lenN (l1 ++ l2) = lenN l1 + lenN l2.
Proof. unfold lenN; rewrite app_length; lia. Qed.
Lemma lenN_length A B (l1 : list A) (l2 : list B) : lenN l1 = lenN l2 <-> length l1 = length l2.
Proof. unfold lenN; lia. Qed.

Lemma map2_length A B C (f : A -> B -> C) xs ys :
  length xs = length ys -> length (map2 f xs ys) = length xs.
Proof.
  revert ys; induction xs as [|x xs IH]; intros [|y ys] H; cbn in *; try lia.
  rewrite IH; lia.
Qed.

Lemma set_nth_length A n (l : list A) v : length (set_nth n l v) = length l.
Proof. revert n; induction l as [|x l IH]; intros [|n]; cbn; auto. Qed.
Lemma set_nth_same A n (l : list A) v :
  (n < length l)%nat -> nth_error (set_nth n l v) n = Some v.
Proof. revert n; induction l as [|x l IH]; intros [|n] H; cbn in *; try lia; auto. apply IH; lia. Qed.
Lemma set_nth_other A n m (l : list A) v :
  n <> m -> nth_error (set_nth n l v) m = nth_error l m.
Proof.
  revert n m; induction l as [|x l IH]; intros [|n] [|m] H; cbn in *; try lia; auto.
Qed.

Lemma getN_ok A (l : list A) i a : getN l i = Ok a <-> nth_error l (N.to_nat i) = Some a.
Proof.
  unfold getN. destruct (N.ltb_spec i (lenN l)) as [H|H].
  - destruct (nth_error l (N.to_nat i)) eqn:E; split; congruence.
  - assert (nth_error l (N.to_nat i) = None) as -> by (apply nth_error_None; unfold lenN in H; lia).
    split; congruence.
Qed.
Lemma getN_in A (l : list A) i : i < lenN l -> exists a, getN l i = Ok a.
Proof.
  intros H. destruct (nth_error l (N.to_nat i)) eqn:E.
  - exists a. apply getN_ok; exact E.
  - apply nth_error_None in E. unfold lenN in H; lia.
Qed.
Lemma getN_not_throw A (l : list A) i e : getN l i <> Throw e.
Proof.
  unfold getN. destruct (i <? lenN l); [|congruence].
  destruct (nth_error _ _); congruence.
Qed.
Lemma getN_bound A (l : list A) i a : getN l i = Ok a -> i < lenN l.
Proof. unfold getN. destruct (N.ltb_spec i (lenN l)); [auto|congruence]. Qed.
Lemma setN_ok A (l : list A) i v : i < lenN l -> setN l i v = Ok (set_nth (N.to_nat i) l v).
Proof. intros H. unfold setN. destruct (N.ltb_spec i (lenN l)); [reflexivity|lia]. Qed.
Lemma lenN_set_nth A n (l : list A) v : lenN (set_nth n l v) = lenN l.
Proof. unfold lenN; rewrite set_nth_length; reflexivity. Qed.
Lemma getN_set_same A (l : list A) i v :
  i < lenN l -> getN (set_nth (N.to_nat i) l v) i = Ok v.
Proof. intros H. apply getN_ok. apply set_nth_same. unfold lenN in H; lia. Qed.
Lemma getN_set_other A (l : list A) i j v :
  i <> j -> getN (set_nth (N.to_nat i) l v) j = getN l j.
Proof.
  intros H. unfold getN. rewrite lenN_set_nth. destruct (j <? lenN l); [|reflexivity].
  rewrite set_nth_other by lia. reflexivity.
Qed.

Lemma list_eq_getN A (l1 l2 : list A) :
  lenN l1 = lenN l2 -> (forall i, i < lenN l1 -> getN l1 i = getN l2 i) -> l1 = l2.
Proof.
  revert l2; induction l1 as [|x l1 IH]; intros [|y l2] Hl H.
  - reflexivity.
  - rewrite lenN_cons, lenN_nil in Hl; lia.
  - rewrite lenN_cons, lenN_nil in Hl; lia.
  - rewrite !lenN_cons in Hl. f_equal.
    + specialize (H 0). rewrite lenN_cons in H.
      assert (getN (x :: l1) 0 = Ok x) as E1 by (apply getN_ok; reflexivity).
      assert (getN (y :: l2) 0 = Ok y) as E2 by (apply getN_ok; reflexivity).
      rewrite E1, E2 in H. assert (Ok x = Ok y) as E by (apply H; lia). congruence.
    + apply IH; [lia|]. intros i Hi.
      specialize (H (i + 1)). rewrite lenN_cons in H.
      unfold getN in *. rewrite !lenN_cons in H.
      replace (N.to_nat (i + 1)) with (S (N.to_nat i)) in H by lia. cbn [nth_error] in H.
      replace (i + 1 <? lenN l1 + 1) with (i <? lenN l1) in H by lia.
      replace (i + 1 <? lenN l2 + 1) with (i <? lenN l2) in H by lia.
      apply H; lia.
Qed.

Lemma foldM_app A B (f : B -> A -> outcome B) xs ys acc :
  foldM f (xs ++ ys) acc = bind (foldM f xs acc) (fun a => foldM f ys a).
Proof.
  revert acc; induction xs as [|x xs IH]; intros acc; cbn; [reflexivity|].
  destruct (f acc x); cbn; auto.
Qed.

Lemma prod_pos l : Forall (fun x => 0 < x) l -> 0 < prod l.
Proof. induction 1; cbn [prod]; nia. Qed.

Lemma prod_app l1 l2 : prod (l1 ++ l2) = prod l1 * prod l2.
Proof. induction l1 as [|x l1 IH]; cbn [prod app]; [lia|]. rewrite IH; lia. Qed.

Lemma fold_mulw l a : a < W64 -> fold_left mulw l a = (a * prod l) mod W64.
Proof.
  revert a; induction l as [|x l IH]; intros a Ha; cbn [fold_left prod].
  - rewrite N.mul_1_r, N.mod_small by exact Ha. reflexivity.
  - rewrite IH by apply mulw_lt. unfold mulw.
    rewrite N.mul_mod_idemp_l by (rewrite W64_val; lia). f_equal; lia.
Qed.
Lemma prodw_mod l : prodw l = prod l mod W64.
Proof. unfold prodw. rewrite fold_mulw by (rewrite W64_val; lia). f_equal; lia. Qed.
Lemma prodw_small l : prod l < W64 -> prodw l = prod l.
Proof. intros H. rewrite prodw_mod. apply N.mod_small. exact H. Qed.

Lemma in_boxb_spec o n x : in_boxb o n x = true <-> in_box o n x.
Proof.
  split.
  - revert n x; induction o as [|o0 os IH]; intros [|n0 ns] [|x0 xs] H; cbn in H; try discriminate.
    + constructor.
    + apply andb_prop in H as [H H2]. apply andb_prop in H as [H0 H1].
      constructor; [lia|lia|auto].
  - induction 1; cbn [in_boxb]; [reflexivity|].
    rewrite IHin_box. lia.
Qed.

Lemma in_box_length o n x : in_box o n x -> length o = length x /\ length n = length x.
Proof. induction 1 as [|????????? [IH1 IH2]]; cbn; lia. Qed.

Lemma div_facts i p : 0 < p -> exists q r, i / p = q /\ i mod p = r /\ i = q * p + r /\ r < p.
Proof.
  intros H. exists (i / p), (i mod p). repeat split.
  - rewrite N.mul_comm. apply N.div_mod. lia.
  - apply N.mod_lt. lia.
Qed.

Lemma Forall2_len A B (R : A -> B -> Prop) l1 l2 : Forall2 R l1 l2 -> length l1 = length l2.
Proof. induction 1; cbn; congruence. Qed.
Lemma in_shape_len s c : in_shape s c -> length c = length s.
Proof. apply Forall2_len. Qed.
