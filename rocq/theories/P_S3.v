(** Proofs about the handles of the object store backend. *)
From Verif Require Import M_Base M_Text M_Key M_Bytes M_Mode M_Store M_S3 S_Text S_S3 P_Base P_Key.
Set Implicit Arguments.
Local Open Scope string_scope.

(** ** Strings *)

Lemma prefix_app a b : String.prefix a (a ++ b) = true.
Proof. induction a as [|c a IH]; cbn; [now destruct b|]. destruct (ascii_dec c c); [exact IH|contradiction]. Qed.
Lemma prefix_iff a b : String.prefix a b = true <-> exists r, b = a ++ r.
Proof.
  split; [|intros (r & ->); apply prefix_app].
  revert b. induction a as [|c a IH]; intros b H; [now exists b|]. destruct b as [|c' b]; [discriminate|]. cbn in H.
  destruct (ascii_dec c c') as [->|]; [|discriminate]. destruct (IH _ H) as (r & ->). now exists r.
Qed.
Lemma slength_app a b : String.length (a ++ b) = (String.length a + String.length b)%nat.
Proof. induction a; cbn; [easy|]. now rewrite IHa. Qed.
Lemma substring_all s : substring 0 (String.length s) s = s.
Proof. induction s; cbn; [easy|]. now rewrite IHs. Qed.
Lemma substring_skip a n b : substring (String.length a) n (a ++ b) = substring 0 n b.
Proof. induction a; cbn; [easy|]. exact IHa. Qed.
Lemma behind_app p r : behind p (p ++ r) = r.
Proof.
  unfold behind. rewrite slength_app, substring_skip. replace (_ - _)%nat with (String.length r) by lia. apply substring_all.
Qed.
Lemma last_slash a : substring (String.length (a ++ "/") - 1) 1 (a ++ "/") = "/".
Proof. rewrite slength_app. cbn [String.length]. replace (_ - _)%nat with (String.length a) by lia. now rewrite substring_skip. Qed.

Lemma split_app a b : forall cur, split_slash (a ++ "/" ++ b) cur = (split_slash a cur ++ split_slash b "")%list.
Proof.
  induction a as [|c a IH]; intros cur; [reflexivity|]. cbn [String.append split_slash]. destruct (Ascii.eqb c "/").
  - cbn [List.app]. f_equal. apply IH.
  - apply IH.
Qed.

Lemma up_to_slash_spec s p : up_to_slash s = Some p <-> exists c r, slash_free c = true /\ s = c ++ "/" ++ r /\ p = c ++ "/".
Proof.
  revert p. induction s as [|x s IH]; intros p; cbn [up_to_slash].
  - split; [discriminate|]. intros (c & r & _ & E & _). destruct c; discriminate.
  - destruct (Ascii.eqb_spec x "/") as [->|N].
    + split.
      * intros [= <-]. exists "", s. auto.
      * intros (c & r & Hc & E & ->). destruct c as [|y c]; [reflexivity|]. cbn in E. injection E as <- _. discriminate Hc.
    + destruct (up_to_slash s) as [q|] eqn:E.
      * split.
        -- intros [= <-]. destruct (proj1 (IH q) eq_refl) as (c & r & Hc & -> & ->). exists (String x c), r.
           cbn [slash_free]. rewrite (proj2 (Ascii.eqb_neq _ _) N). auto.
        -- intros (c & r & Hc & E' & ->). destruct c as [|y c]; cbn in E'; [injection E' as -> _; contradiction|].
           injection E' as <- ->. cbn in Hc. apply andb_true_iff in Hc as [_ Hc].
           assert (X : Some q = Some (c ++ "/")) by (apply IH; exists c, r; auto). injection X as ->. reflexivity.
      * split; [discriminate|]. intros (c & r & Hc & E' & ->). destruct c as [|y c]; cbn in E'; [injection E' as -> _; contradiction|].
        injection E' as <- ->. cbn in Hc. apply andb_true_iff in Hc as [_ Hc].
        assert (X : None = Some (c ++ "/")) by (apply IH; exists c, r; auto). discriminate.
Qed.

Lemma app_slash_inj c c' r r' : slash_free c = true -> slash_free c' = true -> c ++ "/" ++ r = c' ++ "/" ++ r' -> c = c' /\ r = r'.
Proof.
  intros H H' E. assert (A : up_to_slash (c ++ "/" ++ r) = Some (c ++ "/")) by (apply up_to_slash_spec; eauto).
  assert (B : up_to_slash (c ++ "/" ++ r) = Some (c' ++ "/")) by (apply up_to_slash_spec; rewrite E; eauto).
  rewrite A in B. injection B as B.
  assert (Q : forall a b : string, a ++ "/" = b ++ "/" -> a = b).
  { induction a as [|x a IH]; intros [|y b] X; try reflexivity; cbn in X; injection X.
    - intros Y _. destruct b; discriminate Y.
    - intros Y _. destruct a; discriminate Y.
    - intros Y ->. f_equal. now apply IH. }
  apply Q in B. subst c'. split; [reflexivity|]. now apply sapp_inj_l in E; injection E.
Qed.

(** ** Objects *)

Lemma lookup_in l k : (exists b, lookup l k = Some b) <-> In k (map fst l).
Proof.
  unfold lookup. destruct (find _ l) as [[k' b]|] eqn:E.
  - apply find_some in E as [H1 H2]. apply String.eqb_eq in H2. cbn in H2. subst k'. cbn [snd]. split; [|eauto].
    intros _. apply in_map_iff. exists (k, b). auto.
  - split; [intros (b & X); discriminate|]. intros H. apply in_map_iff in H as ([k' b] & <- & H).
    pose proof (find_none _ _ E _ H) as X. cbn in X. now rewrite String.eqb_refl in X.
Qed.
Lemma held_in s k : held s k <-> In k (map fst (objects s)).
Proof. apply lookup_in. Qed.

Lemma lookup_filter (f : string -> bool) l k : lookup (filter (fun kv => f (fst kv)) l) k = if f k then lookup l k else None.
Proof.
  unfold lookup. induction l as [|[k' b] l IH]; cbn [filter find fst snd]; [now destruct (f k)|].
  destruct (f k') eqn:F; cbn [find fst snd]; destruct (String.eqb_spec k' k) as [->|N]; try exact IH.
  - now rewrite F.
  - rewrite F in IH. now rewrite IH, F.
Qed.
Lemma lookup_put k b l k' : lookup (put_key k b l) k' = if String.eqb k' k then Some b else lookup l k'.
Proof.
  unfold put_key. unfold lookup at 1. cbn [find fst snd]. rewrite String.eqb_sym. destruct (String.eqb k' k) eqn:E; [reflexivity|].
  change (lookup (filter (fun kv => negb (String.eqb (fst kv) k)) l) k' = lookup l k').
  rewrite (lookup_filter (fun x => negb (String.eqb x k)) l k'). now rewrite E.
Qed.
Lemma lookup_delete ks l k : lookup (delete_keys ks l) k = if existsb (String.eqb k) ks then None else lookup l k.
Proof.
  unfold delete_keys. rewrite (lookup_filter (fun x => negb (existsb (String.eqb x) ks)) l k). now destruct (existsb _ ks).
Qed.

(** ** Requests *)

Lemma reliable_request A ef (an : _ -> A) s : reliable s ->
  exists s', request ef an s = (s', Some (an (objects s))) /\ objects s' = ef (objects s) /\ reliable s'.
Proof.
  unfold reliable, request. destruct s as [l f]. cbn [objects fates]. intros H. destruct f as [|x f].
  - eexists. split; [reflexivity|]. cbn. auto.
  - inversion H; subst. eexists. split; [reflexivity|]. cbn. auto.
Qed.
(** Whatever the fates, the objects are the old or the new ones. *)
Lemma request_any A ef (an : _ -> A) s s' r : request ef an s = (s', r) ->
  (objects s' = objects s \/ objects s' = ef (objects s)) /\ (forall a, r = Some a -> a = an (objects s) /\ objects s' = ef (objects s)).
Proof.
  unfold request. destruct s as [l f]. cbn [objects fates]. destruct f as [|[] f]; intros [= <- <-]; cbn; split; auto; try discriminate;
    intros a [= <-]; auto.
Qed.
Lemma request_read A (an : _ -> A) s s' r : request (fun l => l) an s = (s', r) -> objects s' = objects s /\ (forall a, r = Some a -> a = an (objects s)).
Proof. intros E. apply request_any in E as [[H|H] K]; split; auto; intros a Ha; now apply K. Qed.

Lemma request_fates A ef (an : _ -> A) s : fates (fst (request ef an s)) = tl (fates s).
Proof. unfold request. destruct s as [l f]. cbn [fates]. destruct f as [|[] f]; reflexivity. Qed.
Lemma deletes_all_tl s s' : fates s' = tl (fates s) -> deletes_all s -> deletes_all s'.
Proof. unfold deletes_all. intros -> H ks K. apply (H ks). destruct (fates s); [contradiction|now right]. Qed.
Lemma delete_objects_reliable b s : reliable s ->
  exists s', delete_objects b s = (s', Some tt) /\ objects s' = delete_keys b (objects s) /\ reliable s'.
Proof.
  intros R. replace (delete_objects b s) with (request (delete_keys b) (fun _ => tt) s); [exact (reliable_request (delete_keys b) (fun _ => tt) R)|].
  unfold delete_objects. destruct s as [l f]. cbn [fates]. destruct f as [|[] f]; try reflexivity. inversion R as [|x y Hx Hy]. discriminate Hx.
Qed.
Lemma delete_objects_any b s s' r : delete_objects b s = (s', r) ->
  fates s' = tl (fates s) /\
  (forall k, existsb (String.eqb k) b = false -> lookup (objects s') k = lookup (objects s) k) /\
  (forall k, lookup (objects s') k = lookup (objects s) k \/ lookup (objects s') k = None) /\
  (r = Some tt -> deletes_all s -> forall k, existsb (String.eqb k) b = true -> lookup (objects s') k = None).
Proof.
  intros E. unfold delete_objects in E. destruct (fates s) as [|[| | |ks] f] eqn:F.
  5:{ pose proof F as F0.
      injection E as <- <-. cbn [fates objects]. split; [reflexivity|]. split; [|split].
      - intros k H. rewrite lookup_delete. destruct (existsb (String.eqb k) (filter _ b)) eqn:X; [|reflexivity].
        apply existsb_exists in X as (k' & K & E). apply filter_In in K as [K _]. apply String.eqb_eq in E. subst k'.
        assert (existsb (String.eqb k) b = true); [apply existsb_exists; exists k; split; [assumption|apply String.eqb_refl]|congruence].
      - intros k. rewrite lookup_delete. destruct (existsb _ _); auto.
      - intros _ D. exfalso. apply (D ks). rewrite F0. now left. }
  all: pose proof (request_fates (delete_keys b) (fun _ => tt) s) as Q; rewrite E in Q; cbn [fst] in Q; rewrite F in Q;
    apply request_any in E as [O A]; split; [exact Q|]; split; [|split];
    [intros k H; destruct O as [-> | ->]; [reflexivity|]; now rewrite lookup_delete, H
    |intros k; destruct O as [-> | ->]; [auto|]; rewrite lookup_delete; destruct (existsb _ b); auto
    |intros -> _ k H; destruct (A tt eq_refl) as [_ ->]; now rewrite lookup_delete, H].
Qed.

(** ** Prefixes *)

Lemma node_prefix_inside h k : String.prefix (node_prefix h) k = true <-> inside (sh_name h) k.
Proof.
  unfold node_prefix, inside. destruct (sh_name h) as [|c n].
  - split; [auto|]. intros _. now destruct k.
  - rewrite prefix_iff. split.
    + intros (r & ->). right. exists r. now rewrite sapp_assoc.
    + intros [H|(r & ->)]; [discriminate|]. exists r. now rewrite sapp_assoc.
Qed.

Lemma matching_in p l k : In k (matching p l) <-> In k (map fst l) /\ String.prefix p k = true.
Proof. unfold matching. apply filter_In. Qed.

Lemma any_answer p l : negb (Nat.eqb (List.length (firstn 1 (matching p l))) 0) = true <-> exists k, In k (map fst l) /\ String.prefix p k = true.
Proof.
  destruct (matching p l) as [|k r] eqn:E.
  - cbn. split; [discriminate|]. intros (k & H). apply matching_in in H. now rewrite E in H.
  - cbn. split; [|auto]. intros _. exists k. apply matching_in. rewrite E. now left.
Qed.

Lemma any_reliable p s : reliable s -> exists s' b, any_with_prefix p s = (s', Ok b) /\ objects s' = objects s /\ reliable s' /\
  (b = true <-> exists k, held s k /\ String.prefix p k = true).
Proof.
  intros R. unfold any_with_prefix, or_throw.
  destruct (reliable_request (fun l => l) (fun l => negb (Nat.eqb (List.length (firstn 1 (matching p l))) 0)) R) as (s' & E & O & R').
  rewrite E. do 2 eexists. split; [reflexivity|]. split; [exact O|]. split; [exact R'|].
  rewrite any_answer. split; intros (k & H & K); exists k; split; auto; now apply held_in.
Qed.

Theorem s3_exists_spec h s : reliable s -> exists s' b, s3_exists h s = (s', Ok b) /\ objects s' = objects s /\ reliable s' /\
  (b = true <-> exists k, held s k /\ inside (sh_name h) k).
Proof.
  intros R. destruct (any_reliable (node_prefix h) R) as (s' & b & E & O & R' & H). exists s', b. repeat split; auto.
  - intros B. apply H in B as (k & K & P). exists k. split; [exact K|]. now apply node_prefix_inside.
  - intros (k & K & P). apply H. exists k. split; [exact K|]. now apply node_prefix_inside.
Qed.

Lemma object_exists_reliable k s : reliable s -> exists s' b, object_exists k s = (s', Ok b) /\ objects s' = objects s /\ reliable s' /\ (b = true <-> held s k).
Proof.
  intros R. unfold object_exists. destruct (reliable_request (fun l => l) (fun l => lookup l k) R) as (s' & E & O & R'). rewrite E.
  unfold held. destruct (lookup (objects s) k) as [x|]; do 2 eexists; (split; [reflexivity|]); (split; [exact O|]); (split; [exact R'|]).
  - split; eauto.
  - split; [discriminate|]. intros (b & X). discriminate.
Qed.

Lemma join_child n c : join_key n c = child n c.
Proof. unfold join_key, child. destruct n; [reflexivity|]. destruct (String.eqb_spec (String a n) ""); [discriminate|reflexivity]. Qed.

Theorem s3_in_spec h name s : reliable s -> child (sh_name h) name <> "" -> exists s' b, s3_in h name s = (s', Ok b) /\ objects s' = objects s /\ reliable s' /\
  (b = true <-> held s (child (sh_name h) name) \/ exists k, held s k /\ inside (child (sh_name h) name) k).
Proof.
  intros R NE. unfold s3_in. rewrite join_child. set (key := child _ _) in *. unfold abind.
  destruct (object_exists_reliable key R) as (s1 & b1 & E1 & O1 & R1 & H1). rewrite E1. destruct b1.
  - exists s1, true. repeat split; auto. intros _. left. now apply H1.
  - destruct (any_reliable (key ++ "/") R1) as (s2 & b2 & E2 & O2 & R2 & H2). exists s2, b2.
    split; [exact E2|]. split; [congruence|]. split; [exact R2|]. rewrite H2. unfold held at 1. rewrite O1. fold (held s).
    split.
    + intros (k & K & P). right. exists k. split; [exact K|]. apply prefix_iff in P as (r & ->). right. exists r. now rewrite sapp_assoc.
    + intros [K|(k & K & [P|(r & ->)])]; [apply H1 in K; discriminate|contradiction|]. exists (key ++ "/" ++ r). split; [exact K|].
      apply prefix_iff. exists r. now rewrite sapp_assoc.
Qed.

(** ** Listing *)

#[local] Opaque page_size.
Lemma page_pos : (0 < page_size)%nat.
Proof. Transparent page_size. unfold page_size. lia. Qed.
#[local] Opaque page_size.

Lemma skipn_more A (l : list A) : forall n m, skipn m (skipn n l) = skipn (n + m) l.
Proof. induction l as [|x l IH]; intros n m; [now rewrite !skipn_nil|]. destruct n; [reflexivity|]. cbn [skipn Nat.add]. apply IH. Qed.
Lemma page_split A (l : list A) t : (skipn t l = fst (page l t) ++ skipn (t + page_size) l)%list.
Proof.
  unfold page. cbn [fst]. rewrite <- skipn_more. now rewrite firstn_skipn.
Qed.
Lemma page_last A (l : list A) t : snd (page l t) = false -> skipn (t + page_size) l = [].
Proof. unfold page. cbn [snd]. intros H. apply Nat.ltb_ge in H. now apply skipn_all2. Qed.

Lemma list_pages_spec p : forall fuel t out s, reliable s -> (List.length (matching p (objects s)) - t < fuel)%nat ->
  exists s', list_pages fuel p t out s = (s', Ok (out ++ skipn t (matching p (objects s)))%list) /\ objects s' = objects s /\ reliable s'.
Proof.
  induction fuel as [|f IH]; intros t out s R F; [lia|]. cbn [list_pages]. unfold abind, or_throw.
  destruct (reliable_request (fun l => l) (fun l => page (matching p l) t) R) as (s1 & E & O & R1). rewrite E.
  rewrite (page_split (matching p (objects s)) t). destruct (snd (page (matching p (objects s)) t)) eqn:T.
  - destruct (IH (t + page_size)%nat (out ++ fst (page (matching p (objects s)) t))%list s1 R1) as (s2 & E2 & O2 & R2).
    + rewrite O. unfold page in T. cbn [snd] in T. apply Nat.ltb_lt in T. pose proof page_pos. lia.
    + exists s2. rewrite E2, O, <- app_assoc. split; [reflexivity|]. split; [congruence|exact R2].
  - rewrite (@page_last _ _ _ T), app_nil_r. exists s1. auto.
Qed.

Lemma matching_length p l : (List.length (matching p l) <= List.length l)%nat.
Proof. unfold matching. rewrite <- (map_length fst l). generalize (map fst l). intros m. induction m; cbn; [lia|]. destruct (String.prefix p a); cbn; lia. Qed.

Lemma list_all_spec p s : reliable s -> exists s', list_all_keys p s = (s', Ok (matching p (objects s))) /\ objects s' = objects s /\ reliable s'.
Proof.
  intros R. unfold list_all_keys. destruct (@list_pages_spec p (S (List.length (objects s))) 0 [] s R) as (s' & E & H); [pose proof (matching_length p (objects s)); lia|].
  exists s'. exact (conj E H).
Qed.

Lemma concat_batches A n : (0 < n)%nat -> forall fuel (l : list A), (List.length l <= fuel)%nat -> List.concat (batches fuel n l) = l.
Proof.
  intros P. induction fuel as [|f IH]; intros l H; [destruct l; [reflexivity|cbn in H; lia]|]. destruct l as [|x l]; [reflexivity|].
  cbn [batches List.concat]. rewrite IH; [apply firstn_skipn|]. rewrite skipn_length. cbn [List.length] in *. lia.
Qed.

Lemma delete_batches bs : forall s, reliable s -> exists s',
  afold (fun _ b => or_throw (delete_objects b)) bs tt s = (s', Ok tt) /\ reliable s' /\
  forall k, lookup (objects s') k = if existsb (String.eqb k) (List.concat bs) then None else lookup (objects s) k.
Proof.
  induction bs as [|b bs IH]; intros s R; [exists s; repeat split; auto|]. cbn [afold List.concat]. unfold abind, or_throw.
  destruct (delete_objects_reliable b R) as (s1 & E & O & R1). rewrite E.
  destruct (IH s1 R1) as (s2 & E2 & R2 & H2). exists s2. split; [exact E2|]. split; [exact R2|]. intros k. rewrite H2, O, lookup_delete.
  rewrite existsb_app. destruct (existsb _ b), (existsb _ (List.concat bs)); reflexivity.
Qed.

Theorem s3_remove_spec h s : reliable s -> can_write (sh_mode h) = true -> exists s', s3_remove h s = (s', Ok tt) /\ reliable s' /\
  forall k, (inside (sh_name h) k -> ~ held s' k) /\ (~ inside (sh_name h) k -> lookup (objects s') k = lookup (objects s) k).
Proof.
  intros R W. unfold s3_remove, delete_prefix. rewrite W. cbn [negb]. unfold abind.
  destruct (list_all_spec (node_prefix h) R) as (s1 & E1 & O1 & R1). rewrite E1. set (m := matching _ _) in *.
  destruct (delete_batches (batches (List.length m) page_size m) R1) as (s2 & E2 & R2 & H2). exists s2. split; [exact E2|]. split; [exact R2|].
  rewrite (concat_batches page_pos) in H2 by lia. intros k. split.
  - intros I (b & Hb). rewrite H2 in Hb. destruct (existsb (String.eqb k) m) eqn:X; [discriminate|]. rewrite O1 in Hb.
    assert (In k m). { apply matching_in. split; [apply lookup_in; eauto|]. now apply node_prefix_inside. }
    assert (existsb (String.eqb k) m = true); [|congruence]. apply existsb_exists. exists k. split; [assumption|]. apply String.eqb_refl.
  - intros I. rewrite H2. destruct (existsb (String.eqb k) m) eqn:X; [|now rewrite O1]. exfalso. apply I.
    apply existsb_exists in X as (k' & K & E). apply String.eqb_eq in E. subst k'. apply matching_in in K as [_ K]. now apply node_prefix_inside.
Qed.

(** Without assumptions on the requests. *)
Lemma list_pages_any p : forall fuel t out s s' r, list_pages fuel p t out s = (s', r) -> (List.length (matching p (objects s)) - t < fuel)%nat ->
  objects s' = objects s /\ (deletes_all s -> deletes_all s') /\ (r = Throw ERuntime \/ r = Ok (out ++ skipn t (matching p (objects s)))%list).
Proof.
  induction fuel as [|f IH]; intros t out s s' r E F; [lia|]. cbn [list_pages] in E. unfold abind, or_throw in E.
  pose proof (request_fates (fun l => l) (fun l => page (matching p l) t) s) as FT.
  destruct (request _ _ s) as [s1 [a|]] eqn:Q; cbn [fst] in FT; pose proof (@deletes_all_tl s s1 FT) as D.
  - apply request_read in Q as [O A]. rewrite (A a eq_refl) in E. rewrite (page_split (matching p (objects s)) t).
    destruct (snd (page (matching p (objects s)) t)) eqn:T.
    + apply IH in E as (O2 & D2 & E); [|rewrite O; unfold page in T; cbn [snd] in T; apply Nat.ltb_lt in T; pose proof page_pos; lia].
      split; [congruence|]. split; [auto|]. rewrite O, <- app_assoc in E. exact E.
    + unfold aret in E. injection E as <- <-. rewrite (@page_last _ _ _ T), app_nil_r. auto.
  - apply request_read in Q as [O _]. injection E as <- <-. auto.
Qed.

Lemma delete_batches_any bs : forall s s' r, afold (fun _ b => or_throw (delete_objects b)) bs tt s = (s', r) ->
  (r = Throw ERuntime \/ r = Ok tt) /\ (forall k, existsb (String.eqb k) (List.concat bs) = false -> lookup (objects s') k = lookup (objects s) k) /\
  (r = Ok tt -> deletes_all s -> forall k, existsb (String.eqb k) (List.concat bs) = true -> lookup (objects s') k = None) /\
  (forall k, lookup (objects s') k = lookup (objects s) k \/ lookup (objects s') k = None).
Proof.
  induction bs as [|b bs IH]; intros s s' r E.
  - injection E as <- <-. split; [auto|]. split; [auto|]. split; [discriminate|auto].
  - cbn [afold List.concat] in *. unfold abind, or_throw in E. destruct (delete_objects b s) as [s1 [[]|]] eqn:Q;
      apply delete_objects_any in Q as (F & A1 & A2 & A3).
    + destruct (IH _ _ _ E) as (R1 & R2 & R3 & R4).
      split; [exact R1|]. split; [|split].
      * intros k H. rewrite existsb_app in H. apply orb_false_iff in H as [H1 H2]. rewrite (R2 _ H2). now apply A1.
      * intros Hr D k H. rewrite existsb_app in H. apply orb_true_iff in H as [H|H]; [|apply R3; auto; now apply (@deletes_all_tl s s1 F)].
        destruct (R4 k) as [X|X]; [|exact X]. rewrite X. now apply A3.
      * intros k. destruct (R4 k) as [X|X]; [|auto]. rewrite X. apply A2.
    + injection E as <- <-. split; [auto|]. split; [|split; [discriminate|exact A2]].
      intros k H. rewrite existsb_app in H. apply orb_false_iff in H as [H1 H2]. now apply A1.
Qed.

Theorem s3_remove_any h s s' r : s3_remove h s = (s', r) ->
  (forall k, ~ inside (sh_name h) k -> lookup (objects s') k = lookup (objects s) k) /\
  (forall k, lookup (objects s') k = lookup (objects s) k \/ lookup (objects s') k = None) /\
  match r with
  | Ok _ => deletes_all s -> forall k, inside (sh_name h) k -> ~ held s' k
  | Throw e => e = ERuntime \/ e = EInvalidArgument /\ can_write (sh_mode h) = false /\ s' = s
  | UB => False
  end.
Proof.
  unfold s3_remove, delete_prefix. destruct (can_write (sh_mode h)) eqn:W; cbn [negb].
  2:{ intros [= <- <-]. split; [auto|]. split; auto. }
  unfold abind, list_all_keys. destruct (list_pages _ _ _ _ s) as [s1 r1] eqn:E1.
  apply list_pages_any in E1 as (O1 & D1 & E1); [|pose proof (matching_length (node_prefix h) (objects s)); lia].
  destruct E1 as [-> | ->].
  { intros [= <- <-]. rewrite O1. split; [auto|]. split; auto. }
  cbn [skipn List.app]. set (m := matching _ _) in *. intros E.
  apply delete_batches_any in E as (R1 & R2 & R3 & R4). rewrite (concat_batches page_pos) in R2, R3 by lia. rewrite O1 in *.
  split; [|split; [exact R4|]].
  - intros k I. apply R2. destruct (existsb (String.eqb k) m) eqn:X; [|reflexivity]. exfalso. apply I.
    apply existsb_exists in X as (k' & K & E). apply String.eqb_eq in E. subst k'. apply matching_in in K as [_ K]. now apply node_prefix_inside.
  - destruct R1 as [-> | ->]; [auto|]. intros D k I (b & Hb). destruct (existsb (String.eqb k) m) eqn:X; [rewrite (R3 eq_refl (D1 D) k X) in Hb; discriminate|].
    rewrite (R2 k X) in Hb. assert (In k m). { apply matching_in. split; [apply lookup_in; eauto|]. now apply node_prefix_inside. }
    assert (existsb (String.eqb k) m = true); [|congruence]. apply existsb_exists. exists k. split; [assumption|]. apply String.eqb_refl.
Qed.

(** ** keys() *)

Lemma entry_eqb_eq a b : entry_eqb a b = true <-> a = b.
Proof.
  destruct a, b; cbn; try (split; [discriminate|congruence]); rewrite String.eqb_eq; split; congruence.
Qed.

Definition entry_of (p k : string) : list_entry :=
  match up_to_slash (behind p k) with Some q => Common (p ++ q) | None => Object k end.

Lemma grouped_in p l e : In e (grouped p l) <-> exists k, In k (matching p l) /\ e = entry_of p k.
Proof.
  unfold grouped. induction (matching p l) as [|k m IH]; cbn [fold_right]; [split; [contradiction|intros (k & [] & _)]|].
  fold (entry_of p k). set (acc := fold_right _ _ _) in *. destruct (existsb (entry_eqb (entry_of p k)) acc) eqn:X.
  - rewrite IH. split; intros (k' & K & ->).
    + exists k'. cbn. auto.
    + destruct K as [->|K]; [|eauto]. apply existsb_exists in X as (e' & Y & Z). apply entry_eqb_eq in Z. subst e'. apply IH in Y. exact Y.
  - cbn [In]. rewrite IH. split.
    + intros [<-|(k' & K & ->)]; [exists k; cbn; auto|exists k'; cbn; auto].
    + intros (k' & [->|K] & ->); eauto.
Qed.
Lemma grouped_nodup p l : NoDup (grouped p l).
Proof.
  unfold grouped. induction (matching p l) as [|k m IH]; cbn [fold_right]; [constructor|].
  fold (entry_of p k). set (acc := fold_right _ _ _) in *. destruct (existsb (entry_eqb (entry_of p k)) acc) eqn:X; [exact IH|].
  constructor; [|exact IH]. intros H. assert (existsb (entry_eqb (entry_of p k)) acc = true); [|congruence].
  apply existsb_exists. exists (entry_of p k). split; [exact H|]. now apply entry_eqb_eq.
Qed.
Lemma grouped_length p l : (List.length (grouped p l) <= List.length l)%nat.
Proof.
  transitivity (List.length (matching p l)); [|apply matching_length]. unfold grouped.
  induction (matching p l) as [|k m IH]; cbn [fold_right]; [easy|]. destruct (existsb _ _); cbn [List.length]; lia.
Qed.


(** A common prefix behind a node's prefix names the child. *)
Lemma child_name_of h c : slash_free c = true -> child_name (node_prefix h ++ c ++ "/") = Ok (Some c).
Proof.
  intros Hc. unfold child_name. destruct (node_prefix h ++ c ++ "/") as [|x y] eqn:E.
  { destruct (node_prefix h); [|discriminate]. destruct c; discriminate. }
  rewrite <- E. rewrite <- sapp_assoc. rewrite last_slash. cbn [String.eqb Ascii.eqb Bool.eqb].
  change ((node_prefix h ++ c) ++ "/") with ((node_prefix h ++ c) ++ "/" ++ ""). rewrite split_app, rev_app_distr. cbn [split_slash rev List.app].
  unfold node_prefix. destruct (sh_name h) as [|a n] eqn:N.
  - cbn [String.append]. rewrite split_noslash by exact Hc. reflexivity.
  - rewrite sapp_assoc, split_app, rev_app_distr. rewrite (split_noslash "" Hc). reflexivity.
Qed.

Definition common_of (h : s3_handle) (e : list_entry) : Prop :=
  match e with Common q => exists c, slash_free c = true /\ q = node_prefix h ++ c ++ "/" | Object _ => True end.

Lemma entry_common h k : String.prefix (node_prefix h) k = true -> common_of h (entry_of (node_prefix h) k).
Proof.
  intros P. apply prefix_iff in P as (r & ->). unfold entry_of. rewrite behind_app. destruct (up_to_slash r) as [q|] eqn:E; [|exact Logic.I].
  apply up_to_slash_spec in E as (c & r' & Hc & -> & ->). cbn. eauto.
Qed.

Definition name_of (e : list_entry) : list string :=
  match e with Common q => match child_name q with Ok (Some c) => [c] | _ => [] end | Object _ => [] end.

Lemma page_names_ok h es : Forall (common_of h) es -> forall acc,
  foldM (fun acc e => match e with
    | Common p => let! o := child_name p in Ok (match o with Some n => (acc ++ [n])%list | None => acc end)
    | Object _ => Ok acc end) es acc = Ok (acc ++ flat_map name_of es)%list.
Proof.
  induction 1 as [|e es He _ IH]; intros acc; cbn [foldM flat_map]; [now rewrite app_nil_r|].
  destruct e as [q|k]; cbn [name_of bind].
  - destruct He as (c & Hc & ->). rewrite (child_name_of h Hc). cbn [bind]. rewrite IH, <- app_assoc. reflexivity.
  - rewrite IH. reflexivity.
Qed.

Lemma Forall_page A (P : A -> Prop) l t : Forall P l -> Forall P (fst (page l t)).
Proof.
  intros H. unfold page. cbn [fst]. rewrite Forall_forall in *. intros x X. apply H.
  rewrite <- (firstn_skipn t l). apply in_or_app. right. rewrite <- (firstn_skipn page_size (skipn t l)). apply in_or_app. now left.
Qed.

Lemma keys_pages_spec h : forall fuel t out s, reliable s -> Forall (common_of h) (grouped (node_prefix h) (objects s)) ->
  (List.length (grouped (node_prefix h) (objects s)) - t < fuel)%nat ->
  exists s', keys_pages fuel (node_prefix h) t out s = (s', Ok (out ++ flat_map name_of (skipn t (grouped (node_prefix h) (objects s))))%list)
    /\ objects s' = objects s /\ reliable s'.
Proof.
  induction fuel as [|f IH]; intros t out s R C F; [lia|]. cbn [keys_pages].
  destruct (reliable_request (fun l => l) (fun l => page (grouped (node_prefix h) l) t) R) as (s1 & E & O & R1). rewrite E.
  set (g := grouped _ _) in *. unfold abind, aret, page_names. rewrite (page_names_ok (Forall_page t C)). cbn [List.app].
  rewrite (page_split g t), flat_map_app. destruct (snd (page g t)) eqn:T.
  - destruct (IH (t + page_size)%nat (out ++ flat_map name_of (fst (page g t)))%list s1 R1) as (s2 & E2 & O2 & R2).
    + now rewrite O.
    + rewrite O. fold g. unfold page in T. cbn [snd] in T. apply Nat.ltb_lt in T. pose proof page_pos. lia.
    + exists s2. rewrite E2, O, <- app_assoc. fold g. split; [reflexivity|]. split; [congruence|exact R2].
  - rewrite (@page_last _ _ _ T). cbn [flat_map]. rewrite app_nil_r. exists s1. auto.
Qed.

Lemma node_prefix_child h c r : node_prefix h ++ c ++ "/" ++ r = child (sh_name h) c ++ "/" ++ r.
Proof.
  unfold node_prefix, child. destruct (sh_name h) as [|a n]; [reflexivity|].
  destruct (String.eqb_spec (String a n) ""); [discriminate|]. now rewrite !sapp_assoc.
Qed.

Theorem s3_keys_spec h s : reliable s -> exists s' l, s3_keys h s = (s', Ok l) /\ objects s' = objects s /\ reliable s' /\ NoDup l /\
  forall c, In c l <-> slash_free c = true /\ exists r, held s (child (sh_name h) c ++ "/" ++ r).
Proof.
  intros R. unfold s3_keys. set (p := node_prefix h).
  assert (C : Forall (common_of h) (grouped p (objects s))).
  { apply Forall_forall. intros e He. apply grouped_in in He as (k & K & ->). apply entry_common. now apply matching_in in K. }
  destruct (@keys_pages_spec h (S (List.length (objects s))) 0 [] s R C) as (s' & E & O & R'); [pose proof (grouped_length p (objects s)); fold p; lia|].
  exists s'. eexists. split; [exact E|]. split; [exact O|]. split; [exact R'|]. cbn [skipn List.app]. fold p. split.
  - pose proof (grouped_nodup p (objects s)) as ND. revert ND C. generalize (grouped p (objects s)). intros g. induction g as [|e g IH]; intros ND C; cbn [flat_map]; [constructor|].
    inversion ND as [|? ? N1 N2]; subst. inversion C as [|? ? C1 C2]; subst. destruct e as [q|k]; [|now apply IH].
    destruct C1 as (c & Hc & ->). cbn [name_of]. rewrite (child_name_of h Hc). cbn [List.app]. constructor; [|now apply IH].
    intros X. apply in_flat_map in X as (e & He & X). rewrite Forall_forall in C2. specialize (C2 _ He). destruct e as [q|k]; [|contradiction].
    destruct C2 as (c' & Hc' & ->). cbn [name_of] in X. rewrite (child_name_of h Hc') in X. destruct X as [->|[]]. contradiction.
  - intros c. rewrite in_flat_map. split.
    + intros (e & He & X). rewrite Forall_forall in C. pose proof (C _ He) as Ce. apply grouped_in in He as (k & K & ->).
      apply matching_in in K as [K1 K2]. unfold entry_of in *. destruct (up_to_slash (behind p k)) as [q|] eqn:U; [|contradiction].
      destruct Ce as (c' & Hc' & E'). cbn [name_of] in X. rewrite E', (child_name_of h Hc') in X. destruct X as [->|[]]. split; [exact Hc'|].
      apply prefix_iff in K2 as (r & ->). unfold p in U. rewrite behind_app in U. apply up_to_slash_spec in U as (c2 & r2 & Hc2 & -> & ->).
      apply sapp_inj_l in E'. exists r2. rewrite <- node_prefix_child. apply held_in. 
      assert (c2 = c). { apply (@app_slash_inj c2 c "" "" Hc2 Hc'). exact E'. } subst c2. exact K1.
    + intros (Hc & r & K). exists (Common (p ++ c ++ "/")). split.
      * apply grouped_in. exists (p ++ c ++ "/" ++ r). split.
        -- apply matching_in. split; [|apply prefix_app]. apply held_in. unfold p. now rewrite node_prefix_child.
        -- unfold entry_of. rewrite behind_app. replace (up_to_slash (c ++ "/" ++ r)) with (Some (c ++ "/")); [reflexivity|].
           symmetry. apply up_to_slash_spec. eauto.
      * cbn [name_of]. unfold p. rewrite (child_name_of h Hc). now left.
Qed.

(** ** Keys as paths *)

Lemma key_cons c q : q <> [] -> key_of (c :: q) = c ++ "/" ++ key_of q.
Proof. intros H. unfold key_of. cbn [String.concat]. destruct q; [contradiction|reflexivity]. Qed.
Lemma key_app p q : p <> [] -> q <> [] -> key_of (p ++ q) = key_of p ++ "/" ++ key_of q.
Proof.
  intros Hp Hq. induction p as [|c p IH]; [contradiction|]. destruct p as [|c' p].
  - cbn [List.app]. now apply key_cons.
  - change (((c :: c' :: p) ++ q)%list) with (c :: ((c' :: p) ++ q))%list. rewrite key_cons by discriminate. rewrite IH by discriminate.
    rewrite (key_cons c (q := c' :: p)) by discriminate. now rewrite !sapp_assoc.
Qed.
Lemma key_nonempty p : p <> [] -> Forall plain_name p -> key_of p <> "".
Proof.
  intros H F. inversion F as [|c q [Hc _] _]; subst; [contradiction|]. destruct q; [exact Hc|]. rewrite key_cons by discriminate.
  destruct c; [contradiction|discriminate].
Qed.
Lemma key_no_slash c : plain_name c -> forall q r, q <> [] -> Forall plain_name q -> key_of q = c ++ "/" ++ r -> exists q', q = c :: q' /\ q' <> [] /\ key_of q' = r.
Proof.
  intros [Hc Fc] q r Hq Fq E. inversion Fq as [|c' q' [Hc' Fc'] Fq']; subst; [contradiction|]. destruct q' as [|c2 q'].
  - cbn in E. exfalso. subst c'. rewrite slash_free_app in Fc'. cbn in Fc'. rewrite andb_false_r in Fc'. discriminate.
  - rewrite key_cons in E by discriminate. apply app_slash_inj in E as [-> <-]; auto. exists (c2 :: q'). split; [reflexivity|]. split; [discriminate|reflexivity].
Qed.

Theorem inside_path p q : Forall plain_name p -> Forall plain_name q -> p <> [] -> q <> [] ->
  inside (key_of p) (key_of q) <-> exists r, r <> [] /\ q = (p ++ r)%list.
Proof.
  intros Fp Fq Np Nq. split.
  - intros [E|(r & E)]; [now apply key_nonempty in E|].
    revert q Fq Nq E. induction p as [|c p IH]; intros q Fq Nq E; [contradiction|]. inversion Fp as [|? ? Pc Fp']; subst. destruct p as [|c' p].
    + destruct (key_no_slash Pc Nq Fq E) as (q' & -> & Nq' & _). exists q'. auto.
    + rewrite key_cons in E by discriminate. rewrite !sapp_assoc in E. destruct (key_no_slash Pc Nq Fq E) as (q' & -> & Nq' & E').
      inversion Fq; subst. destruct (IH Fp' ltac:(discriminate) q') as (r' & Nr & ->); auto. exists r'. auto.
  - intros (r & Nr & ->). right. exists (key_of r). now apply key_app.
Qed.
