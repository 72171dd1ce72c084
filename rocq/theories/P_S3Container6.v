(** Proofs about containers in an object store: failing requests, opening containers,
    relative names. *)
From Coq Require Import ZArith Ascii String.
From Verif Require Import M_Base P_Base M_Double M_Json M_Mode M_Key M_Blocking M_Metadata M_Fs M_Attributes M_Container M_Store M_S3 M_S3Container
  S_Container S_Text S_S3 S_S3Container P_Key P_S3 P_S3Fail P_S3Container P_S3Container2 P_S3Container4.
Import ListNotations.
Set Implicit Arguments.
Local Open Scope list_scope.
Local Open Scope N_scope.

(** * Which objects change *)

Definition touches {A} (D : string -> Prop) (a : act s3 A) : Prop :=
  forall s k, ~ D k -> lookup (objects (fst (a s))) k = lookup (objects s) k.

Section Touches.
Variable D : string -> Prop.
Lemma touches_ret A (o : outcome A) : touches D (aret o).
Proof using. now intros s k. Qed.
Lemma touches_bind A B (a : act s3 A) (f : A -> act s3 B) : touches D a -> (forall x, touches D (f x)) -> touches D (abind a f).
Proof using.
  intros H K s k N. unfold abind. pose proof (H s k N) as E. destruct (a s) as [s1 [x|e|]]; cbn [fst] in *; try exact E.
  rewrite <- E. now apply K.
Qed.
Lemma touches_map A B (f : A -> B) (a : act s3 A) : touches D a -> touches D (amap f a).
Proof using. intros H s k N. exact (H s k N). Qed.
Lemma touches_if A (b : bool) (a1 a2 : act s3 A) : touches D a1 -> touches D a2 -> touches D (if b then a1 else a2).
Proof using. now destruct b. Qed.
Lemma touches_request A ef (an : _ -> A) : (forall l k, ~ D k -> lookup (ef l) k = lookup l k) -> touches D (or_throw (request ef an)).
Proof using.
  intros H s k N. unfold or_throw. destruct (request ef an s) as [s1 o] eqn:Q. apply request_any in Q as [Q _].
  assert (E : lookup (objects s1) k = lookup (objects s) k) by (destruct Q as [-> | ->]; [reflexivity|now apply H]).
  destruct o; exact E.
Qed.
Lemma touches_get key : touches D (get_object key).
Proof using. now apply touches_request. Qed.
Lemma touches_object key : touches D (object_exists key).
Proof using.
  intros s k N. unfold object_exists. destruct (request _ _ s) as [s1 o] eqn:Q. apply request_any in Q as [Q _].
  assert (E : objects s1 = objects s) by (now destruct Q). destruct o as [[]|]; cbn [fst]; now rewrite E.
Qed.
Lemma touches_any p : touches D (any_with_prefix p).
Proof using. now apply touches_request. Qed.
Lemma touches_in h c : touches D (s3_in h c).
Proof using. apply touches_bind; [apply touches_object|]. intros []; [apply touches_ret|apply touches_any]. Qed.
Lemma touches_zarr k h : touches D (s3_handle_is_zarr k h).
Proof using. destruct k; (apply touches_bind; [apply touches_in|]; intros []; [apply touches_ret|apply touches_in]). Qed.
Lemma touches_put key b : D key -> touches D (put_object key b).
Proof using. intros K. apply touches_request. intros l k N. rewrite lookup_put. destruct (String.eqb_spec k key); [now subst|reflexivity]. Qed.

Variable T : text_codec.
Lemma touches_read key : touches D (s3_read_json T key).
Proof using. apply touches_bind; [apply touches_get|]. intros o. apply touches_ret. Qed.
Lemma touches_read_or h c j : touches D (io_read_or (s3_io T h) c j).
Proof using. apply touches_bind; [apply touches_read|]. intros o. apply touches_ret. Qed.
Lemma touches_write h c j : D (child (sh_name h) c) -> touches D (io_write (s3_io T h) c j).
Proof using. intros H. cbn [s3_io io_write]. apply touches_put. now rewrite join_child. Qed.
Lemma touches_v3 h z : touches D (g_is_v3 (s3_io T h) z).
Proof using. destruct z; [apply touches_object|apply touches_ret]. Qed.
Lemma touches_gen_read h z j : touches D (g_read_attributes (s3_io T h) z j).
Proof using.
  apply touches_bind; [apply touches_v3|]. intros []; [|apply touches_read_or].
  apply touches_bind; [apply touches_read|]. intros o. apply touches_ret.
Qed.

Section Attributes.
Variable h : s3_handle.
Hypothesis H : forall d, In d [".zattrs"; "zarr.json"; "attributes.json"]%string -> D (child (sh_name h) d).
Lemma touches_gen_write z j : touches D (g_write_attributes (s3_io T h) z j).
Proof using H.
  apply touches_bind; [apply touches_v3|]. intros [].
  - apply touches_bind; [apply touches_read_or|]. intros f. apply touches_bind; [apply touches_ret|]. intros a. apply touches_bind; [apply touches_ret|]. intros g.
    apply touches_write, H. cbn; tauto.
  - apply touches_bind; [apply touches_read_or|]. intros f. apply touches_bind; [apply touches_ret|]. intros a.
    apply touches_write, H. destruct z; cbn; tauto.
Qed.
Lemma touches_gen_remove z a : touches D (g_remove_attribute (s3_io T h) z a).
Proof using H.
  apply touches_bind; [apply touches_v3|]. intros [].
  - apply touches_bind; [apply touches_read|]. intros [f|]; [|apply touches_ret]. apply touches_bind; [apply touches_ret|]. intros g.
    apply touches_write, H. cbn; tauto.
  - apply touches_bind; [apply touches_read|]. intros [f|]; [|apply touches_ret]. apply touches_bind; [apply touches_ret|]. intros g.
    apply touches_write, H. destruct z; cbn; tauto.
Qed.
End Attributes.

Lemma touches_protected k h c : touches D (s3_protected k h c).
Proof using.
  destruct k; cbn [s3_protected].
  - apply touches_bind; [apply (@touches_zarr HFile)|]. intros z. apply touches_bind; [apply touches_ret|]. intros _. apply (@touches_zarr HFile).
  - apply (@touches_zarr HGroup).
  - apply touches_bind; [apply (@touches_zarr HDataset)|]. intros z. apply touches_bind; [apply touches_ret|]. intros _. apply touches_ret.
Qed.

Lemma touches_node_create h : touches D (s3_node_create h).
Proof using. apply touches_if; [apply touches_ret|]. apply touches_bind; [apply touches_any|]. intros e. apply touches_ret. Qed.
Lemma touches_file_create h : touches D (s3_file_create h).
Proof using. apply touches_if; [apply touches_ret|]. apply touches_bind; [apply touches_any|]. intros e. apply touches_ret. Qed.

Lemma touches_v3_group h : D (child (sh_name h) "zarr.json") -> touches D (g_write_v3_group (s3_io T h)).
Proof using.
  intros H. apply touches_bind; [apply touches_read_or|]. intros j0. do 3 (apply touches_bind; [apply touches_ret|]; intros ?). now apply touches_write.
Qed.
End Touches.

Theorem calls_touch T m n c s k : ~ may_change n c k ->
  lookup (objects (fst (bucket_call T m n c s))) k = lookup (objects s) k.
Proof.
  revert s k. change (touches (may_change n c) (bucket_call T m n c)).
  destruct c; cbn [bucket_call]; match goal with |- touches ?X _ => set (D := X) end; try apply touches_map.
  - apply touches_any.
  - apply touches_in.
  - apply touches_zarr.
  - apply touches_bind; [apply (@touches_zarr D HGroup)|]. intros z. unfold g_is_sub_group. cbn [s3_io io_node]. apply touches_bind; [apply touches_ret|].
    intros there. apply touches_if; [apply touches_ret|]. apply touches_if.
    + apply touches_bind; [apply touches_object|]. intros []; [|apply touches_object]. apply touches_bind; [apply touches_read_or|]. intros j.
      apply touches_bind; [apply touches_ret|]. intros nt. apply touches_ret.
    + apply touches_bind; [apply touches_read|]. intros [j|]; [|apply touches_ret]. apply touches_bind; [apply touches_ret|]. intros b. apply touches_ret.
  - apply touches_bind; [apply touches_zarr|]. intros z. apply touches_bind; [apply touches_gen_read|]. intros j. apply touches_ret.
  - apply touches_if; [apply touches_ret|]. apply touches_bind; [apply touches_protected|]. intros z. apply touches_gen_write.
    intros d I. cbn [sh_name]. exists d. auto.
  - apply touches_if; [apply touches_ret|]. apply touches_bind; [apply touches_protected|]. intros z. apply touches_gen_remove.
    intros d I. cbn [sh_name]. exists d. auto.
  - apply touches_bind; [apply (@touches_zarr D HGroup)|]. intros z. apply touches_bind.
    + apply touches_if; [|apply touches_ret]. apply touches_bind; [apply touches_get|]. intros [b|]; [apply touches_ret|].
      apply touches_bind; [apply touches_get|]. intros o. apply touches_ret.
    + intros ka. apply touches_bind; [apply touches_any|]. intros e. apply touches_if; [apply touches_ret|].
      apply touches_bind; [|intros md; apply touches_ret]. apply touches_bind; [apply touches_object|]. intros v3.
      apply touches_bind; [apply touches_if; [apply touches_ret|apply touches_object]|]. intros v2. apply touches_bind; [apply touches_read|]. intros [j|]; apply touches_ret.
  - apply touches_bind; [apply touches_file_create|]. intros _. unfold g_write_file_metadata. cbn [andb]. apply touches_if.
    + apply touches_v3_group. cbn [sh_name]. exists "zarr.json"%string. cbn; tauto.
    + apply touches_write. cbn [sh_name]. exists ".zgroup"%string. cbn; tauto.
  - apply touches_bind; [apply (@touches_zarr D HGroup)|]. intros z. apply touches_bind; [rewrite child_place; apply touches_node_create|]. intros _.
    rewrite child_place. unfold g_write_group_metadata. apply touches_if; [|apply touches_if; [|apply touches_ret]].
    + apply touches_v3_group. cbn [sh_name]. exists "zarr.json"%string. cbn; tauto.
    + apply touches_write. cbn [sh_name]. exists ".zgroup"%string. cbn; tauto.
  - apply touches_bind; [apply (@touches_zarr D HGroup)|]. intros z. apply touches_bind; [apply touches_ret|]. intros md.
    rewrite child_place. apply touches_bind; [apply touches_node_create|]. intros _. apply touches_bind; [|intros _; apply touches_ret].
    unfold g_write_dataset_metadata. apply touches_if.
    + apply touches_bind; [apply touches_read|]. intros ex. do 2 (apply touches_bind; [apply touches_ret|]; intros ?).
      apply touches_write. cbn [sh_name]. exists "zarr.json"%string. cbn; tauto.
    + apply touches_bind; [apply touches_ret|]. intros ?. apply touches_write. cbn [sh_name].
      exists (if md_zarr md then ".zarray" else "attributes.json")%string. split; [destruct (md_zarr md); cbn; tauto|reflexivity].
  - intros s k N. destruct (s3_remove _ s) as [s' r] eqn:E. apply s3_remove_any in E as [E _]. cbn [fst]. apply E. exact N.
Qed.

(** * Relative names *)

Lemma prefix_app a b : String.prefix a (a ++ b) = true.
Proof. induction a as [|c a IH]; cbn; [now destruct b|]. destruct (ascii_dec c c); [exact IH|contradiction]. Qed.
Lemma behind_app a b : behind a (a ++ b) = b.
Proof.
  unfold behind. assert (L : (String.length (a ++ b) - String.length a = String.length b)%nat).
  { induction a as [|c a IH]; cbn; [lia|exact IH]. }
  rewrite L. clear L. induction a as [|c a IH]; cbn; [|exact IH]. induction b as [|c b IH]; cbn; [reflexivity|]. now rewrite IH.
Qed.

Theorem relative_below n q r : Forall plain_name r ->
  s3_relative_path (place n q) (place n (q ++ r)) = key_of r.
Proof.
  intros Fr. rewrite place_app. destruct r as [|c r].
  - cbn [place fold_left key_of]. unfold s3_relative_path. destruct (place n q) as [|a x] eqn:E; [reflexivity|].
    pose proof (prefix_app (String a x) "") as P. pose proof (behind_app (String a x) "") as B. rewrite P_Key.sapp_nil in P, B. now rewrite P, B.
  - rewrite (@place_eq (c :: r) ltac:(discriminate) Fr (place n q)). unfold child, s3_relative_path. destruct (place n q) as [|a x] eqn:E; [reflexivity|].
    change (String.eqb (String a x) "") with false. cbv iota. rewrite prefix_app, behind_app. reflexivity.
Qed.

(** * Opening containers *)

Lemma file_doc_step T h fmt s : reliable s -> lookup (objects s) (child (sh_name h) "zarr.json") = None ->
  exists s', g_write_file_metadata (s3_io T h) true fmt s = (s', Ok tt) /\
    objects s' = put_key (child (sh_name h) (fst (new_doc true fmt))) (dump T (raw_doc fmt)) (objects s) /\ reliable s'.
Proof.
  intros R N. unfold g_write_file_metadata, raw_doc, new_doc. cbn [andb]. destruct (fmt =? 3)%Z; cbn [fst].
  - unfold g_write_v3_group, io_read_or. cbn [s3_io io_read io_write]. unfold s3_read_json, abind. rewrite join_child.
    unfold get_object, or_throw at 1. destruct (reliable_request (fun l => l) (fun l => lookup l (child (sh_name h) "zarr.json")) R) as (s1 & -> & O & R1).
    rewrite N. unfold aret. cbn.
    destruct (put_step (child (sh_name h) "zarr.json") (dump T (JObj [("zarr_format", JInt 3); ("node_type", JStr "group"); ("attributes", JObj [])]%string)) R1) as (s2 & E & O2 & R2).
    exists s2. unfold s3_write_json. rewrite E. rewrite O in O2. auto.
  - cbn [s3_io io_write]. unfold s3_write_json. rewrite join_child. apply put_step, R.
Qed.

Lemma inside_child n d : inside n (child n d).
Proof. unfold inside, child. destruct (String.eqb_spec n ""); [now left|]. right. now exists d. Qed.

Lemma made T h fmt s : text_ok T -> reliable s -> can_create (sh_mode h) = true -> ~ there (sh_name h) s ->
  exists s', s3_create_file T h true fmt s = (s', Ok tt) /\ only_new T (sh_name h) fmt s' /\ rest_same (sh_name h) s s'.
Proof.
  intros TOK R C N. unfold s3_create_file, s3_file_create. rewrite C. cbn [negb]. unfold abind.
  destruct (@s3_exists_spec h s R) as (s1 & b & -> & O & R1 & H). destruct b; [now elim N; apply H|]. unfold aret.
  destruct (@file_doc_step T h fmt s1 R1) as (s2 & -> & O2 & R2).
  { rewrite O. destruct (lookup (objects s) (child (sh_name h) "zarr.json")) as [b|] eqn:E; [|reflexivity]. elim N.
    exists (child (sh_name h) "zarr.json"). split; [now exists b|apply inside_child]. }
  exists s2. split; [reflexivity|]. rewrite O in O2. set (d := child (sh_name h) (fst (new_doc true fmt))) in *. split.
  - constructor; fold d.
    + exists (dump T (raw_doc fmt)). rewrite O2, lookup_put, String.eqb_refl. split; [reflexivity|]. rewrite <- raw_new. apply TOK.
    + intros k I NE [b E]. rewrite O2, lookup_put in E. destruct (String.eqb_spec k d); [contradiction|]. apply N. exists k. split; [now exists b|exact I].
  - intros k K. rewrite O2, lookup_put. destruct (String.eqb_spec k d) as [->|]; [|reflexivity]. elim K. apply inside_child.
Qed.

Theorem open_reliable T h fmt s : text_ok T -> reliable s ->
  let '(s', r) := s3_open_file T h fmt s in
  rest_same (sh_name h) s s' /\
  match sh_mode h with
  | Mode_r | Mode_r_p => objects s' = objects s /\ (there (sh_name h) s /\ r = Ok tt \/ ~ there (sh_name h) s /\ r = Throw EFilesystem)
  | Mode_a => r = Ok tt /\ (there (sh_name h) s /\ objects s' = objects s \/ ~ there (sh_name h) s /\ only_new T (sh_name h) fmt s')
  | Mode_w => r = Ok tt /\ only_new T (sh_name h) fmt s'
  | Mode_w_m => there (sh_name h) s /\ objects s' = objects s /\ r = Throw EFilesystem \/
                ~ there (sh_name h) s /\ only_new T (sh_name h) fmt s' /\ r = Ok tt
  end.
Proof.
  intros TOK R. unfold s3_open_file, abind.
  destruct (@s3_exists_spec h s R) as (s1 & b & -> & O1 & R1 & H). fold (there (sh_name h) s) in H.
  assert (TH : forall s', objects s' = objects s -> there (sh_name h) s' <-> there (sh_name h) s).
  { intros s' E. unfold there, held. now rewrite E. }
  assert (RS : forall s', objects s' = objects s -> rest_same (sh_name h) s s') by (intros s' E k _; now rewrite E).
  assert (NT : b = false -> ~ there (sh_name h) s) by (intros -> K; apply H in K; discriminate).
  destruct (b && should_truncate (sh_mode h)) eqn:BT.
  - apply andb_prop in BT as [-> ST]. assert (M : sh_mode h = Mode_w) by (destruct (sh_mode h); try discriminate; reflexivity).
    destruct (@s3_remove_spec h s1 R1) as (s2 & -> & R2 & L); [now rewrite M|].
    destruct (@s3_exists_spec h s2 R2) as (s3 & b & -> & O3 & R3 & H3).
    destruct b. { exfalso. destruct (proj1 H3 eq_refl) as (k & K & I). exact (proj1 (L k) I K). }
    assert (C : can_create (sh_mode h) = true) by now rewrite M. rewrite C. cbn [negb].
    destruct (@made T h fmt s3 TOK R3 C) as (s4 & -> & ON & RS4).
    { intros (k & [x K] & I). rewrite O3 in K. exact (proj1 (L k) I (ex_intro _ x K)). }
    split; [|rewrite M; auto]. intros k K. rewrite (RS4 k K), O3, (proj2 (L k) K), O1. reflexivity.
  - unfold aret at 1. destruct (@s3_exists_spec h s1 R1) as (s2 & b2 & -> & O2 & R2 & H2). fold (there (sh_name h) s1) in H2. rewrite (TH s1 O1) in H2.
    assert (b2 = b). { destruct b, b2; try reflexivity; exfalso; [pose proof (proj2 H2 (proj1 H eq_refl))|pose proof (proj2 H (proj1 H2 eq_refl))]; discriminate. } subst b2. rewrite O1 in O2.
    destruct b; unfold aret.
    + split; [now apply RS|]. cbn [andb] in BT. pose proof (proj1 H eq_refl) as Th.
      destruct (sh_mode h); try discriminate; cbn; auto.
    + specialize (NT eq_refl). destruct (can_create (sh_mode h)) eqn:C; cbn [negb].
      * destruct (@made T h fmt s2 TOK R2 C) as (s3 & -> & ON & RS3); [now rewrite (TH s2 O2)|].
        split; [intros k K; now rewrite (RS3 k K), O2|]. destruct (sh_mode h); try discriminate; auto.
      * split; [now apply RS|]. destruct (sh_mode h); try discriminate; auto.
Qed.

Theorem open_any T h fmt s : let s' := fst (s3_open_file T h fmt s) in
  rest_same (sh_name h) s s' /\ (can_create (sh_mode h) = false -> objects s' = objects s).
Proof.
  split.
  - intros k K. revert s k K. change (touches (inside (sh_name h)) (s3_open_file T h fmt)).
    apply touches_bind; [apply touches_any|]. intros e. apply touches_bind.
    + apply touches_if; [|apply touches_ret]. intros s k N. destruct (s3_remove h s) as [s' r] eqn:E. apply s3_remove_any in E as [E _]. exact (E k N).
    + intros _. apply touches_bind; [apply touches_any|]. intros []; [apply touches_ret|]. apply touches_if; [apply touches_ret|].
      apply touches_bind; [apply touches_file_create|]. intros _. unfold g_write_file_metadata. cbn [andb]. apply touches_if.
      * apply touches_v3_group. apply inside_child.
      * apply touches_write. apply inside_child.
  - intros C. unfold s3_open_file, abind. assert (ST : should_truncate (sh_mode h) = false) by (destruct (sh_mode h); try reflexivity; discriminate).
    rewrite ST. destruct (s3_exists h s) as [s1 r1] eqn:E1. apply s3_exists_any in E1 as [O1 _]. destruct r1 as [e|x|]; [|exact O1..].
    rewrite andb_false_r. unfold aret. destruct (s3_exists h s1) as [s2 r2] eqn:E2. apply s3_exists_any in E2 as [O2 _]. rewrite O1 in O2.
    destruct r2 as [[]|x|]; cbn [fst]; try exact O2. rewrite C. exact O2.
Qed.

Theorem relative_back n q r : r <> [] -> Forall plain_name r ->
  child (place n q) (s3_relative_path (place n q) (place n (q ++ r))) = place n (q ++ r).
Proof. intros N F. rewrite relative_below by exact F. rewrite place_app. symmetry. now apply place_eq. Qed.

(** * Groups of n5 containers *)

Lemma in_reliable h c s : reliable s -> exists s' b, s3_in h c s = (s', Ok b) /\ objects s' = objects s /\ reliable s' /\
  forall s2, objects s2 = objects s -> reliable s2 -> snd (s3_in h c s2) = Ok b.
Proof.
  intros R. assert (G : forall s2, objects s2 = objects s -> reliable s2 -> exists s', s3_in h c s2 =
    (s', Ok (match lookup (objects s) (join_key (sh_name h) c) with Some _ => true
             | None => negb (Nat.eqb (List.length (firstn 1 (matching (join_key (sh_name h) c ++ "/") (objects s)))) 0) end)) /\ objects s' = objects s /\ reliable s').
  { intros s2 O R2. unfold s3_in, abind, object_exists.
    destruct (reliable_request (fun l => l) (fun l => lookup l (join_key (sh_name h) c)) R2) as (s3 & -> & O3 & R3). rewrite O in *.
    destruct (lookup (objects s) (join_key (sh_name h) c)); [exists s3; auto|]. unfold any_with_prefix, or_throw.
    match goal with |- context [request ?ef ?an s3] => destruct (reliable_request ef an R3) as (s4 & -> & O4 & R4) end. rewrite O3 in *. exists s4. auto. }
  destruct (G s eq_refl R) as (s' & E & O & R'). exists s'. eexists. split; [exact E|]. split; [exact O|]. split; [exact R'|].
  intros s2 O2 R2. destruct (G s2 O2 R2) as (s3 & -> & _). reflexivity.
Qed.

Theorem n5_group_lost T h name fmt s : reliable s ->
  snd (s3_is_zarr_group h s) = Ok false -> snd (s3_exists (s3_child h name) s) = Ok false -> sh_mode h <> Mode_r ->
  let '(s', r) := s3_create_group T h name fmt s in r = Ok tt /\ objects s' = objects s.
Proof.
  intros R Z E M. unfold s3_create_group, s3_is_zarr_group in *. destruct (in_reliable h ".zgroup" R) as (s1 & b & E1 & O1 & R1 & _).
  unfold abind in *. rewrite E1 in *. destruct b; [discriminate Z|].
  destruct (in_reliable h "zarr.json" R1) as (s2 & b & E2 & O2 & R2 & _). rewrite E2 in *. cbn [snd] in Z. injection Z as ->.
  unfold s3_node_create. cbn [s3_child sh_mode]. assert (MR : is_mode_r (sh_mode h) = false) by (destruct (sh_mode h); try reflexivity; contradiction). rewrite MR.
  destruct (@s3_exists_spec (s3_child h name) s R) as (s3 & b3 & E3 & _ & _ & H3). rewrite E3 in E. injection E as ->.
  destruct (@s3_exists_spec (s3_child h name) s2 R2) as (s4 & b4 & E4 & O4 & R4 & H4). unfold s3_child in *. cbn [sh_name sh_mode] in *.
  unfold abind, aret. rewrite E4. destruct b4.
  - exfalso. destruct (proj1 H4 eq_refl) as (k & [x K] & I). rewrite O2, O1 in K. assert (false = true); [|discriminate]. apply H3. exists k. split; [now exists x|exact I].
  - unfold g_write_group_metadata. cbn [andb]. split; [reflexivity|]. cbn. congruence.
Qed.
