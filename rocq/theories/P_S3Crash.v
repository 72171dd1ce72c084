(** Writes to an object store that are cut off. *)
From Verif Require Import M_Base M_Text M_Key M_Blocking M_View M_Bytes M_N5Header M_Format
  M_Mode M_Shard M_Dataset M_Sharded M_Access M_Store M_S3
  S_Array S_Grid S_Bytes S_Text S_Format S_Shard S_Dataset S_Access S_Sharded S_Crash S_S3
  P_Base P_Blocking P_Roi P_View P_Bytes P_Key P_Format P_Dataset P_Access P_Read P_Shard P_Sharded P_ParSharded P_Crash P_Store P_S3 P_S3Sim P_S3Fail.
From Coq Require Import Sorted.
From Verif Require S_Tree.
Set Implicit Arguments.
Import List ListNotations.
Local Open Scope list_scope.

Definition stops (fs : list fate) : Prop := exists k (l : bool) n,
  fs = repeat Served k ++ (if l then [Lost] else []) ++ repeat Refused n.
Definition dead (fs : list fate) : Prop := exists n, fs = repeat Refused n.
Notation empty := (S3 [] []).
Notation bad r := (forall x, r <> Ok x).

Lemma dead_stops fs : dead fs -> stops fs.
Proof. intros [n ->]. exists 0%nat, false, n. reflexivity. Qed.

Lemma request_stops A ef (an : _ -> A) s : stops (fates s) ->
  (exists s', request ef an s = (s', Some (an (objects s))) /\ objects s' = ef (objects s) /\ stops (fates s')) \/
  (exists s', request ef an s = (s', None) /\ (objects s' = objects s \/ objects s' = ef (objects s)) /\ dead (fates s')).
Proof.
  intros (k & l & n & E). unfold request. rewrite E. destruct k as [|k]; cbn [repeat app].
  - destruct l; cbn [app].
    + right. eexists. split; [reflexivity|]. cbn. split; [auto|exists n; reflexivity].
    + destruct n as [|n]; cbn [repeat].
      * left. eexists. split; [reflexivity|]. cbn. split; [reflexivity|]. exists 0%nat, false, 0%nat. reflexivity.
      * right. eexists. split; [reflexivity|]. cbn. split; [auto|exists n; reflexivity].
  - left. eexists. split; [reflexivity|]. cbn. split; [reflexivity|]. exists k, l, n. reflexivity.
Qed.
Lemma request_dead A ef (an : _ -> A) s : dead (fates s) -> fates (fst (request ef an s)) <> [] ->
  exists s', request ef an s = (s', None) /\ objects s' = objects s /\ dead (fates s').
Proof.
  intros (n & E). unfold request. rewrite E. destruct n as [|n]; cbn [repeat fst]; [easy|]. intros _.
  eexists. split; [reflexivity|]. cbn. split; [reflexivity|]. exists n. reflexivity.
Qed.
Lemma request_ends A ef (an : _ -> A) s : fates s = [] -> fates (fst (request ef an s)) = [].
Proof. intros E. unfold request. now rewrite E. Qed.

(** ** Units: calls that read and then change one object *)

Record solid {A} (key : string) (a : act s3 A) : Prop := {
  so_ends : forall s, fates s = [] -> fates (fst (a s)) = [];
  so_frame : forall s x, x <> key -> lookup (objects (fst (a s))) x = lookup (objects s) x;
  so_stops : forall s, stops (fates s) -> fates (fst (a s)) <> [] ->
    snd (a s) = snd (a (quiet s)) /\ objects (fst (a s)) = objects (fst (a (quiet s))) /\ stops (fates (fst (a s))) \/
    snd (a s) = Throw ERuntime /\ (objects (fst (a s)) = objects s \/
      objects (fst (a s)) = objects (fst (a (quiet s))) /\ exists x, snd (a (quiet s)) = Ok x);
  so_dead : forall s, dead (fates s) -> fates (fst (a s)) <> [] -> objects (fst (a s)) = objects s /\
    (snd (a s) = Throw ERuntime \/ snd (a s) = snd (a empty) /\ bad (snd (a s)))
}.
Record full {A} (key : string) (a : act s3 A) : Prop := {
  fu_ends : forall s, fates s = [] -> fates (fst (a s)) = [];
  fu_frame : forall s x, x <> key -> lookup (objects (fst (a s))) x = lookup (objects s) x;
  fu_stops : forall s, stops (fates s) -> fates (fst (a s)) <> [] ->
    snd (a s) = snd (a (quiet s)) /\ objects (fst (a s)) = objects (fst (a (quiet s))) /\ stops (fates (fst (a s))) \/
    snd (a s) = Throw ERuntime /\ (objects (fst (a s)) = objects s \/
      objects (fst (a s)) = objects (fst (a (quiet s))) /\ exists x, snd (a (quiet s)) = Ok x) \/
    snd (a s) = snd (a empty) /\ bad (snd (a s)) /\ objects (fst (a s)) = objects s
}.
Lemma solid_full A key (a : act s3 A) : solid key a -> full key a.
Proof. intros [H1 H2 H3 H4]. split; auto. intros s Hs Hf. destruct (H3 s Hs Hf); auto. Qed.

Lemma solid_ext A key (a b : act s3 A) : (forall s, a s = b s) -> solid key a -> solid key b.
Proof. intros E [H1 H2 H3 H4]. split; intros s; rewrite <- !E; auto. Qed.
Lemma full_ext A key (a b : act s3 A) : (forall s, a s = b s) -> full key a -> full key b.
Proof. intros E [H1 H2 H3]. split; intros s; rewrite <- !E; auto. Qed.

Lemma solid_bad A key (o : outcome A) : bad o -> solid key (aret o).
Proof.
  intros H. split; cbn; auto.
Qed.
Lemma solid_let A B key (o : outcome A) (f : A -> act s3 B) : (forall x, o = Ok x -> solid key (f x)) -> solid key (abind (aret o) f).
Proof.
  intros H. destruct o as [x|e|].
  - apply (@solid_ext _ _ (f x)); [reflexivity|auto].
  - apply (@solid_ext _ _ (aret (Throw e))); [reflexivity|]. apply solid_bad. discriminate.
  - apply (@solid_ext _ _ (aret UB)); [reflexivity|]. apply solid_bad. discriminate.
Qed.
Lemma full_let A B key (o : outcome A) (f : A -> act s3 B) : (forall x, o = Ok x -> full key (f x)) -> full key (abind (aret o) f).
Proof.
  intros H. destruct o as [x|e|].
  - apply (@full_ext _ _ (f x)); [reflexivity|auto].
  - apply (@full_ext _ _ (aret (Throw e))); [reflexivity|]. apply solid_full, solid_bad. discriminate.
  - apply (@full_ext _ _ (aret UB)); [reflexivity|]. apply solid_full, solid_bad. discriminate.
Qed.
Lemma abind_assoc A B C (a : act s3 A) (f : A -> act s3 B) (g : B -> act s3 C) s :
  abind a (fun x => abind (f x) g) s = abind (abind a f) g s.
Proof. unfold abind. destruct (a s) as [t [x|e|]]; reflexivity. Qed.

(** The last request. *)
Lemma solid_last A ef key (b : A) : (forall l x, x <> key -> lookup (ef l) x = lookup l x) ->
  solid key (abind (or_throw (request ef (fun _ => tt))) (fun _ => aret (Ok b))).
Proof.
  intros F. unfold abind, or_throw. split.
  - intros s E. pose proof (request_ends ef (fun _ => tt) E) as K. destruct (request _ _ s) as [t [[]|]]; exact K.
  - intros s x N. destruct (request ef _ s) as [t o] eqn:Q. apply request_any in Q as [Q _].
    assert (lookup (objects t) x = lookup (objects s) x) by (destruct Q as [->| ->]; auto). destruct o; assumption.
  - intros s Hs _. rewrite (served ef (fun _ => tt) (s := quiet s) (Logic.eq_refl)). cbn [fst snd].
    destruct (request_stops ef (fun _ => tt) Hs) as [(s' & -> & E & S')|(s' & -> & E & D)]; cbn [fst snd aret objects].
    + left. split; [reflexivity|]. split; [|exact S']. exact E.
    + right. split; [reflexivity|]. destruct E as [E|E]; [left; exact E|right]. split; [exact E|eauto].
  - intros s Hs Hf. assert (X : fates (fst (request ef (fun _ => tt) s)) <> []) by (destruct (request ef (fun _ => tt) s) as [t [[]|]]; exact Hf).
    destruct (request_dead Hs X) as (s' & -> & E & _). cbn [fst snd]. auto.
Qed.

(** Reading an object. *)
Lemma solid_get A key k (f : option bytes -> act s3 A) : (forall o, solid key (f o)) -> solid key (abind (get_object k) f).
Proof.
  intros H. unfold abind, get_object, or_throw. set (an := fun l => lookup l k). split.
  - intros s E. pose proof (request_ends (fun l => l) an E) as K. destruct (request _ an s) as [t [o|]]; [now apply H|exact K].
  - intros s x N. destruct (request (fun l => l) an s) as [t o] eqn:Q. apply request_read in Q as [Q _].
    destruct o; cbn [fst]; [|now rewrite Q]. rewrite (so_frame (H o)) by exact N. now rewrite Q.
  - intros s Hs Hf. rewrite (served (fun l => l) an (s := quiet s) (Logic.eq_refl)). cbn [fst snd quiet objects].
    destruct (request_stops (fun l => l) an Hs) as [(s' & E0 & E & S')|(s' & E0 & E & D)]; rewrite E0 in *; cbn [fst snd objects] in *.
    + destruct (so_stops (H (an (objects s))) S' Hf) as [(K1 & K2 & K3)|(K1 & K2)]; unfold quiet in *; rewrite E in *; auto.
    + right. split; [reflexivity|]. left. tauto.
  - intros s Hs Hf. assert (X : fates (fst (request (fun l => l) an s)) <> []).
    { destruct (request (fun l => l) an s) as [t [o|]]; [|exact Hf]. cbn [fst]. intros E. apply Hf. now apply (so_ends (H o)). }
    destruct (request_dead Hs X) as (s' & -> & E & _). cbn [fst snd]. auto.
Qed.

(** Asking whether an object exists. *)
Lemma full_exists A key k (f : bool -> act s3 A) : (forall o, solid key (f o)) -> full key (abind (object_exists k) f).
Proof.
  intros H. unfold abind, object_exists. set (an := fun l => lookup l k). split.
  - intros s E. pose proof (request_ends (fun l => l) an E) as K. destruct (request _ an s) as [t [[o|]|]]; now apply H.
  - intros s x N. destruct (request (fun l => l) an s) as [t o] eqn:Q. apply request_read in Q as [Q _].
    destruct o as [[o|]|]; cbn [fst]; rewrite (so_frame (H _)) by exact N; now rewrite Q.
  - intros s Hs Hf. rewrite (served (fun l => l) an (s := quiet s) (Logic.eq_refl)).
    rewrite (served (fun l => l) an (s := empty) (Logic.eq_refl)). cbn [fst snd quiet objects].
    destruct (request_stops (fun l => l) an Hs) as [(s' & E0 & E & S')|(s' & E0 & E & D)]; rewrite E0 in *; cbn [fst snd objects] in *.
    + destruct (an (objects s)) as [o|].
      * destruct (so_stops (H true) S' Hf) as [(K1 & K2 & K3)|(K1 & K2)]; unfold quiet in *; rewrite E in *; auto.
      * destruct (so_stops (H false) S' Hf) as [(K1 & K2 & K3)|(K1 & K2)]; unfold quiet in *; rewrite E in *; auto.
    + assert (Ob : objects s' = objects s) by tauto. change (an []) with (@None bytes). cbv match.
      destruct (so_dead (H false) D Hf) as (K1 & [K2|(K2 & K3)]); rewrite K1, Ob.
      * right. left. rewrite K2. auto.
      * right. right. rewrite K2. repeat split; auto. rewrite <- K2. exact K3.
Qed.

(** ** Loops over units *)
Section Loop.
Variables (A B : Type) (f : B -> A -> act s3 B) (key : A -> string).

Lemma fold_ends l : (forall b x, In x l -> full (key x) (f b x)) -> forall acc s, fates s = [] -> fates (fst (afold f l acc s)) = [].
Proof.
  induction l as [|x l IH]; intros H acc s E; [exact E|]. cbn [afold]. unfold abind. pose proof (fu_ends (H acc x (or_introl Logic.eq_refl)) E) as K.
  destruct (f acc x s) as [t [b|e|]]; cbn [fst] in *; auto. apply IH; auto. intros b' y Hy. apply H. now right.
Qed.
Lemma fold_frame l : (forall b x, In x l -> full (key x) (f b x)) -> forall acc s k, ~ In k (map key l) ->
  lookup (objects (fst (afold f l acc s))) k = lookup (objects s) k.
Proof.
  induction l as [|x l IH]; intros H acc s k N; [reflexivity|]. cbn [afold]. unfold abind.
  assert (K : k <> key x) by (intros ->; apply N; now left). pose proof (fu_frame (H acc x (or_introl Logic.eq_refl)) s K) as F.
  destruct (f acc x s) as [t [b|e|]]; cbn [fst] in *; auto. rewrite IH; auto; [|intros Hi; apply N; now right].
  intros b' y Hy. apply H. now right.
Qed.

(** What a loop that is cut off leaves. *)
Lemma fold_cut l : (forall b x, In x l -> full (key x) (f b x)) -> NoDup (map key l) ->
  forall acc s, stops (fates s) -> let s' := fst (afold f l acc s) in let r := snd (afold f l acc s) in
  let new := afold f l acc (quiet s) in
  fates s' <> [] ->
  r = snd new /\ objects s' = objects (fst new) /\ stops (fates s') \/
  exists pre post, l = pre ++ post /\
    (exists b, snd (afold f pre acc (quiet s)) = Ok b /\ objects s' = objects (fst (afold f pre acc (quiet s))) /\
       (r = Throw ERuntime \/ exists x rest, post = x :: rest /\ r = snd (f b x empty) /\ bad r)) /\
    (forall x, In x pre -> lookup (objects s') (key x) = lookup (objects (fst new)) (key x)) /\
    (forall x, In x post -> lookup (objects s') (key x) = lookup (objects s) (key x)) /\
    (forall k, ~ In k (map key l) -> lookup (objects s') k = lookup (objects s) k).
Proof.
  induction l as [|x l IH]; intros H ND acc s Hs; cbv zeta; intros Hf; [left; cbn; auto|].
  assert (Hx : full (key x) (f acc x)) by (apply H; now left).
  assert (Hl : forall b y, In y l -> full (key y) (f b y)) by (intros b y Hy; apply H; now right).
  inversion ND as [|? ? NI ND']; subst. cbn [afold] in *. unfold abind in *.
  assert (Hf1 : fates (fst (f acc x s)) <> []).
  { intros E. apply Hf. destruct (f acc x s) as [t [b|e|]]; cbn [fst] in *; auto. now apply (fold_ends Hl). }
  pose proof (fu_frame Hx s) as Fr. pose proof (fu_ends Hx (s := quiet s) Logic.eq_refl) as En.
  pose proof (fu_frame Hx (quiet s)) as Frq.
  destruct (fu_stops Hx Hs Hf1) as [(K1 & K2 & K3)|K].
  - destruct (f acc x s) as [t r] eqn:Es. destruct (f acc x (quiet s)) as [tq rq] eqn:Eq. cbn [fst snd] in *. subst rq.
    assert (Q : tq = quiet t) by (destruct tq as [o q]; cbn [objects fates] in *; subst; reflexivity). subst tq.
    destruct r as [b|e|]; cbn [fst snd] in *; [|left; auto|left; auto].
    destruct (IH Hl ND' b t K3 Hf) as [D|(pre & post & E & (b' & P1 & P2 & P3) & Q1 & Q2 & Q3)]; [left; exact D|right].
    exists (x :: pre), post. split; [now rewrite E|]. split; [|split; [|split]].
    + exists b'. cbn [afold]. unfold abind. rewrite Eq. auto.
    + intros y [<-|Hy]; [|now apply Q1]. rewrite Q3 by exact NI. rewrite (fold_frame Hl) by exact NI. reflexivity.
    + intros y Hy. rewrite Q2 by exact Hy. apply Fr. intros Ek. apply NI. rewrite <- Ek. apply in_map. rewrite E. apply in_app_iff. now right.
    + intros k Nk. rewrite Q3 by (intros Hi; apply Nk; now right). apply Fr. intros ->. apply Nk. now left.
  - assert (R : bad (snd (f acc x s))).
    { destruct K as [[-> _]|(_ & B' & _)]; [discriminate|exact B']. }
    assert (X : (match f acc x s with (s', Ok a) => afold f l a s' | (s', Throw e) => (s', Throw e) | (s', UB) => (s', UB) end) = f acc x s).
    { destruct (f acc x s) as [t [b|e|]]; try reflexivity. exfalso. now apply (R b). }
    rewrite X. right.
    destruct K as [(K1 & [K2|(K2 & b & K3)])|(K1 & K2 & K3)].
    + exists [], (x :: l). split; [reflexivity|]. split.
      { exists acc. split; [reflexivity|]. split; [rewrite K2; reflexivity|]. left. exact K1. }
      rewrite K2. repeat split; auto. intros y [].
    + exists [x], l. split; [reflexivity|]. destruct (f acc x (quiet s)) as [tq rq] eqn:Eq. cbn [fst snd] in *. subst rq.
      split.
      { exists b. cbn [afold]. unfold abind. rewrite Eq. cbn [fst snd aret]. auto. }
      rewrite K2. split; [|split].
      * intros y [<-|[]]. now rewrite (fold_frame Hl) by exact NI.
      * intros y Hy. apply Frq. intros Ek. apply NI. rewrite <- Ek. now apply in_map.
      * intros k Nk. apply Frq. intros ->. apply Nk. now left.
    + exists [], (x :: l). split; [reflexivity|]. split.
      { exists acc. split; [reflexivity|]. split; [rewrite K3; reflexivity|]. right. exists x, l. auto. }
      rewrite K3. repeat split; auto. intros y [].
Qed.
End Loop.

(** ** The units of writes *)

Notation at_key name d c := (chunk_object name (chunk_key (d_key d) c)).

Lemma put_frame key b l x : x <> key -> lookup (put_key key b l) x = lookup l x.
Proof. intros N. rewrite lookup_put. now rewrite (proj2 (String.eqb_neq x key) N). Qed.
Lemma delete_frame key l x : x <> key -> lookup (delete_keys [key] l) x = lookup l x.
Proof. intros N. rewrite lookup_delete. cbn [existsb]. now rewrite (proj2 (String.eqb_neq x key) N). Qed.

Lemma solid_write_chunk name d c data vl vs A (b : A) :
  solid (at_key name d c) (abind (g_write_chunk (s3_policy name) d c data vl vs) (fun _ => aret (Ok b))).
Proof.
  unfold g_write_chunk. destruct (negb _).
  { apply (@solid_ext _ _ (aret (Throw EInvalidArgument))); [reflexivity|]. apply solid_bad. discriminate. }
  eapply solid_ext; [apply abind_assoc|]. apply solid_let. intros h E. apply handle_key in E.
  eapply solid_ext; [apply abind_assoc|]. apply solid_let. intros _ _.
  eapply solid_ext; [apply abind_assoc|]. apply solid_let. intros ob _. rewrite E.
  destruct ob as [v|]; cbn [p_write p_erase s3_policy].
  - apply solid_last. intros l x N. now apply put_frame.
  - apply solid_last. intros l x N. now apply delete_frame.
Qed.

Lemma solid_read_chunk name d c buf A key (f : bool * list cell -> act s3 A) : (forall r, solid key (f r)) ->
  solid key (abind (g_read_chunk (s3_policy name) d c buf) f).
Proof.
  intros H. unfold g_read_chunk.
  eapply solid_ext; [apply abind_assoc|]. apply solid_let. intros h E.
  eapply solid_ext; [apply abind_assoc|]. apply solid_let. intros _ _.
  eapply solid_ext; [apply abind_assoc|]. apply solid_get. intros [v|]; apply solid_let; auto.
Qed.

Lemma full_write_unit name d src off n buf c : full (at_key name d c) (g_write_unit (s3_policy name) d src off n buf c).
Proof.
  unfold g_write_unit, g_prepare_chunk.
  eapply full_ext; [apply abind_assoc|]. apply full_let. intros r _.
  eapply full_ext; [apply abind_assoc|]. apply full_let. intros cs _.
  destruct (r_complete r && _).
  { apply full_let. intros b _. apply solid_full, solid_write_chunk. }
  eapply full_ext; [apply abind_assoc|]. unfold g_plain_existing, g_chunk_exists.
  eapply full_ext; [apply abind_assoc|]. eapply full_ext; [apply abind_assoc|]. apply full_let. intros h E.
  apply full_exists. intros [|]; cbn [negb].
  - eapply solid_ext; [apply abind_assoc|]. apply solid_read_chunk. intros x. apply solid_let. intros e _. apply solid_let. intros b _. apply solid_write_chunk.
  - apply solid_let. intros e _. apply solid_let. intros b _. apply solid_write_chunk.
Qed.

Lemma full_shard_unit name sd src off n buf g :
  full (at_key name (sd_base sd) (fst g)) (g_shard_write_unit (s3_policy name) sd src off n buf g).
Proof.
  apply solid_full. unfold g_shard_write_unit, g_read_shard_blobs.
  eapply solid_ext; [apply abind_assoc|]. apply solid_let. intros h E.
  eapply solid_ext; [apply abind_assoc|]. apply solid_get. intros o.
  assert (K : forall bl, solid (at_key name (sd_base sd) (fst g))
    (do^ r <- aret (foldM (shard_write_chunk sd src off n) (snd g) (buf, bl)) in
     do^ _ <- g_write_shard_blobs (s3_policy name) sd (fst g) (snd r) in aret (Ok (fst r)))).
  { intros bl. apply solid_let. intros r _. unfold g_write_shard_blobs. destruct (negb _).
    { apply (@solid_ext _ _ (aret (Throw EInvalidArgument))); [reflexivity|]. apply solid_bad. discriminate. }
    eapply solid_ext; [apply abind_assoc|]. apply solid_let. intros h' E'. apply handle_key in E'. rewrite E'.
    destruct (all_slots_empty _); cbn [p_write p_erase s3_policy]; apply solid_last; intros l x N; [now apply delete_frame|now apply put_frame]. }
  destruct o as [v|]; [|apply solid_let; intros bl _; apply K].
  eapply solid_ext; [apply abind_assoc|]. apply solid_let. intros [es|] _; apply solid_let; intros bl _; apply K.
Qed.

(** ** Whole writes *)

Lemma cut_off_stops s : cut_off s -> stops (fates s).
Proof.
  intros (k & last & n & [<-|[<-|[]]] & ->); [exists k, false, (S n)|exists k, true, n]; reflexivity.
Qed.

Lemma files_keys A (key : A -> string) name l : map (fun x => chunk_object name (key x)) l = map (chunk_object name) (map key l).
Proof. now rewrite map_map. Qed.

Section Whole.
Variables (A B : Type) (f : B -> A -> act s3 B) (name : string) (key : A -> string) (l : list A).
Hypothesis units : forall b x, In x l -> full (chunk_object name (key x)) (f b x).
Hypothesis distinct : NoDup (map key l).

Lemma whole_cut acc s : stops (fates s) -> fates (fst (afold f l acc s)) <> [] ->
  others_same name s (fst (afold f l acc s)) /\
  stopped (map key l) (files name s) (files name (fst (afold f l acc (quiet s)))) (files name (fst (afold f l acc s))) /\
  ((exists x, snd (afold f l acc s) = Ok x) -> objects (fst (afold f l acc s)) = objects (fst (afold f l acc (quiet s)))).
Proof using units distinct.
  intros Hs Hf.
  assert (ND : NoDup (map (fun x => chunk_object name (key x)) l)).
  { rewrite files_keys. apply FinFun.Injective_map_NoDup; [|exact distinct]. intros x y. apply chunk_object_inj. }
  assert (OS : forall s0, others_same name s0 (fst (afold f l acc s0))).
  { intros s0 k N. apply (@fold_frame A B f (fun x => chunk_object name (key x)) l units). intros Hi. apply N. apply in_map_iff in Hi as (x & <- & _).
    exists (key x). reflexivity. }
  split; [apply OS|].
  assert (FR : forall s0 k, ~ In k (map key l) -> files name (fst (afold f l acc s0)) k = files name s0 k).
  { intros s0 k N. unfold files. apply (@fold_frame A B f (fun x => chunk_object name (key x)) l units). intros Hi. apply N. apply in_map_iff in Hi as (x & E & Hx).
    apply chunk_object_inj in E. subst k. now apply in_map. }
  destruct (@fold_cut A B f (fun x => chunk_object name (key x)) l units ND acc s Hs Hf) as [(K1 & K2 & K3)|(pre & post & E & (b & P1 & P2 & P3) & Q1 & Q2 & Q3)].
  - split; [|auto]. exists (map key l), []. split; [now rewrite app_nil_r|]. split; [|split; [intros k []|apply FR]].
    intros k _. unfold files. now rewrite K2.
  - split.
    + exists (map key pre), (map key post). split; [rewrite E; apply map_app|]. split; [|split; [|apply FR]].
      * intros k Hk. apply in_map_iff in Hk as (x & <- & Hx). now apply Q1.
      * intros k Hk. apply in_map_iff in Hk as (x & <- & Hx). now apply Q2.
    + intros (x & Ex). exfalso. destruct P3 as [P3|(y & rest & _ & _ & P3)]; [rewrite Ex in P3; discriminate|now apply (P3 x)].
Qed.
End Whole.

Theorem cut_write name d src off n s s' r : dataset_ok d -> region_ok d off n -> cut_off s ->
  g_write_request (s3_policy name) d src off n s = (s', r) -> fates s' <> [] ->
  others_same name s s' /\ exists cs, StronglySorted lex_lt cs /\ (forall c, In c cs <-> overlaps (d_shape d) (d_chunks d) off n c) /\
    stopped (map (chunk_key (d_key d)) cs) (files name s) (files name (fst (g_write_request (s3_policy name) d src off n (quiet s)))) (files name s') /\
    (r = Ok tt -> objects s' = objects (fst (g_write_request (s3_policy name) d src off n (quiet s)))).
Proof.
  intros ok Hr Hc E Hf. destruct (begin_request_sorted ok Hr) as (l & El & ND & _ & HI & SO).
  assert (Q : forall s0, g_write_request (s3_policy name) d src off n s0 =
    let t := afold (g_write_unit (s3_policy name) d src off n) l (repeat (d_fill d) (N.to_nat (prodw (d_chunks d)))) s0 in (fst t, omap (fun _ => tt) (snd t))).
  { intros s0. unfold g_write_request. rewrite El. unfold abind, aret. destruct (afold _ _ _ _) as [t [x|e|]]; reflexivity. }
  rewrite !Q in *. cbv zeta in *. injection E as <- <-. cbn [fst].
  destruct (@whole_cut _ _ (g_write_unit (s3_policy name) d src off n) name (chunk_key (d_key d)) l) with (acc := repeat (d_fill d) (N.to_nat (prodw (d_chunks d)))) (s := s) as (W1 & W2 & W3); auto.
  - intros b x _. apply full_write_unit.
  - apply FinFun.Injective_map_NoDup; [intros c c'; apply (key_inj ok)|exact ND].
  - now apply cut_off_stops.
  - split; [exact W1|]. exists l. repeat split; auto; try apply HI. intros R. apply W3.
    destruct (snd (afold _ _ _ s)) as [x|e|]; [eauto|discriminate|discriminate].
Qed.

Theorem cut_sharded_write name sd src off n s s' r : sharded_ok sd -> region_ok (sd_base sd) off n -> cut_off s ->
  g_sh_write_request (s3_policy name) sd src off n s = (s', r) -> fates s' <> [] ->
  others_same name s s' /\ exists ks, NoDup ks /\
    (forall k, In k ks <-> exists c, overlaps (d_shape (sd_base sd)) (d_chunks (sd_base sd)) off n c /\ shard_of (sd_cps sd) c = k) /\
    stopped (map (chunk_key (d_key (sd_base sd))) ks) (files name s) (files name (fst (g_sh_write_request (s3_policy name) sd src off n (quiet s)))) (files name s') /\
    (r = Ok tt -> objects s' = objects (fst (g_sh_write_request (s3_policy name) sd src off n (quiet s)))).
Proof.
  intros sok Hr Hc E Hf. destruct (request_groups sok Hr) as (reqs & gs & E1 & E2 & E3 & HG & ND1 & HM & ND).
  assert (KS : forall k, In k (map fst gs) <-> exists c, overlaps (d_shape (sd_base sd)) (d_chunks (sd_base sd)) off n c /\ shard_of (sd_cps sd) c = k).
  { intros k. split.
    - intros Hk. apply in_map_iff in Hk as ([k' cs] & <- & Hg). destruct (HG _ _ Hg) as [NE HO]. destruct cs as [|c cs]; [congruence|].
      exists c. apply HO. now left.
    - intros (c & Ho & <-). apply HM in Ho. apply in_concat in Ho as (cs & Hcs & Hc'). apply in_map_iff in Hcs as ([k cs'] & <- & Hg).
      destruct (HG _ _ Hg) as [_ HO]. destruct (HO c Hc') as [_ ->]. apply in_map_iff. exists (k, cs'). auto. }
  unfold g_sh_write_request in *. rewrite E1 in *. destruct (negb (can_write (d_mode (sd_base sd)))).
  { unfold abind, aret in *. injection E as <- <-. split; [intros k _; reflexivity|]. exists (map fst gs). split; [exact ND|]. split; [exact KS|].
    split; [|discriminate]. exists [], (map (chunk_key (d_key (sd_base sd))) (map fst gs)). split; [reflexivity|]. repeat split; try (intros k []); auto. }
  assert (Q : forall s0, (do^ _ <- aret (Ok reqs) in
       do^ cps <- aret (chunks_per_shard (sd_shard sd) (d_chunks (sd_base sd))) in
       do^ groups <- aret (group_chunks cps reqs) in
       do^ _ <- afold (g_shard_write_unit (s3_policy name) sd src off n) groups (repeat (d_fill (sd_base sd)) (N.to_nat (prodw (d_chunks (sd_base sd))))) in
       aret (Ok tt)) s0 =
    let t := afold (g_shard_write_unit (s3_policy name) sd src off n) gs (repeat (d_fill (sd_base sd)) (N.to_nat (prodw (d_chunks (sd_base sd))))) s0 in (fst t, omap (fun _ => tt) (snd t))).
  { intros s0. unfold abind, aret. rewrite E2, E3. destruct (afold _ _ _ _) as [t [x|e|]]; reflexivity. }
  change (abind (aret (Ok reqs)) _ s) with ((do^ _ <- aret (Ok reqs) in
       do^ cps <- aret (chunks_per_shard (sd_shard sd) (d_chunks (sd_base sd))) in
       do^ groups <- aret (group_chunks cps reqs) in
       do^ _ <- afold (g_shard_write_unit (s3_policy name) sd src off n) groups (repeat (d_fill (sd_base sd)) (N.to_nat (prodw (d_chunks (sd_base sd))))) in
       aret (Ok tt)) s) in E.
  change (abind (aret (Ok reqs)) _ (quiet s)) with ((do^ _ <- aret (Ok reqs) in
       do^ cps <- aret (chunks_per_shard (sd_shard sd) (d_chunks (sd_base sd))) in
       do^ groups <- aret (group_chunks cps reqs) in
       do^ _ <- afold (g_shard_write_unit (s3_policy name) sd src off n) groups (repeat (d_fill (sd_base sd)) (N.to_nat (prodw (d_chunks (sd_base sd))))) in
       aret (Ok tt)) (quiet s)).
  rewrite Q in *. cbv zeta in *. injection E as <- <-. cbn [fst].
  destruct (@whole_cut _ _ (g_shard_write_unit (s3_policy name) sd src off n) name (fun g => chunk_key (d_key (sd_base sd)) (fst g)) gs) with (acc := repeat (d_fill (sd_base sd)) (N.to_nat (prodw (d_chunks (sd_base sd))))) (s := s) as (W1 & W2 & W3); auto.
  - intros b x _. apply full_shard_unit.
  - rewrite <- (map_map fst (chunk_key (d_key (sd_base sd)))). apply FinFun.Injective_map_NoDup; [intros c c'; apply (key_inj (so_base sok))|exact ND].
  - now apply cut_off_stops.
  - split; [exact W1|]. exists (map fst gs). rewrite map_map. repeat split; auto; try apply KS. intros R. apply W3.
    destruct (snd (afold _ _ _ s)) as [x|e|]; [eauto|discriminate|discriminate].
Qed.

(** ** What the call reports, and what is read afterwards *)

Lemma whole_result A B (f : B -> A -> act s3 B) (key : A -> string) l acc s :
  (forall b x, In x l -> full (key x) (f b x)) -> NoDup (map key l) -> stops (fates s) -> fates (fst (afold f l acc s)) <> [] ->
  (forall pre x post b, l = pre ++ x :: post -> snd (afold f pre acc (quiet s)) = Ok b -> exists b', snd (f b x empty) = Ok b') ->
  (exists b, snd (afold f l acc (quiet s)) = Ok b) ->
  snd (afold f l acc s) = Throw ERuntime \/ exists b, snd (afold f l acc s) = Ok b.
Proof.
  intros U ND Hs Hf He (b0 & Hq).
  destruct (@fold_cut A B f key l U ND acc s Hs Hf) as [(K1 & _)|(pre & post & E & (b & P1 & P2 & [P3|(x & rest & -> & P3 & P4)]) & _)].
  - right. exists b0. now rewrite K1.
  - now left.
  - exfalso. destruct (He pre x rest b E P1) as (b' & X). rewrite P3 in P4. now apply (P4 b').
Qed.

Lemma rel_at (name : string) (s : s3) st A (a1 : act store A) a2 :
  rel (same_data name s) (fun _ => False) (fun _ => True) a1 a2 -> reliable s -> (forall k, st k = files name s k) ->
  snd (a2 s) = snd (a1 st) /\ forall k, files name (fst (a2 s)) k = fst (a1 st) k.
Proof.
  intros H Rl M. destruct (H st s) as [[(_ & M' & _) E]|(e & [] & _)].
  - split; [exact Rl|]. split; [exact M|]. intros k _. reflexivity.
  - split; [symmetry; exact E|]. intros k. symmetry. apply M'.
Qed.

Section PlainArray.
Variables (name : string) (d : dataset).
Hypothesis ok : dataset_ok d.
Hypothesis sep : fs_separator (k_delim (d_key d)).
Notation w := (t_width (d_type d)).
Notation key := (chunk_key (d_key d)).

Lemma unit_rel s0 src off n buf c : rel (same_data name s0) (fun _ => False) (fun _ => True)
  (g_write_unit fs_policy d src off n buf c) (g_write_unit (s3_policy name) d src off n buf c).
Proof using sep.
  apply (@rel_write_unit _ _ (same_data name s0) (fun _ => False) (fun _ => True) fs_policy (s3_policy name) (d_key d)); auto; intros ids; intros.
  - apply s3_read_rel.
  - now apply s3_write_rel.
  - apply s3_delete_rel.
  - apply s3_exists_rel.
Qed.

Lemma fold_buffer src off n l : can_write (d_mode d) = true ->
  region_ok d off n -> source_ok w n src -> (forall c, In c l -> overlaps (d_shape d) (d_chunks d) off n c) ->
  forall buf st C, any_buffer d buf -> holds d st C ->
  exists buf' st' C', foldS (write_unit d src off n) l buf st = (st', Ok buf') /\ any_buffer d buf' /\ holds d st' C'.
Proof using ok.
  intros Hm Hreg Hsrc. induction l as [|c l IH]; intros HO buf st C Hb HC; [exists buf, st, C; cbn; auto|].
  destruct (@write_unit_spec d ok src off n buf c st C) as (buf1 & v & E & B1 & _ & H1); auto; [apply HO; now left|].
  destruct (IH (fun c' H => HO c' (or_intror H)) buf1 _ _ B1 H1) as (buf2 & st2 & C2 & E2 & B2 & H2).
  exists buf2, st2, C2. split; [|auto]. cbn [foldS]. unfold sbind at 1. rewrite E. exact E2.
Qed.

Lemma op_calls ops st st1 : run_array_ops d ops st = (st1, Ok tt) ->
  history (fs_call d) (map S_Tree.op_call ops) st = (st1, map (fun _ => Ok AUnit) ops).
Proof.
  revert st. induction ops as [|o ops IH]; intros st H; [injection H as ->; reflexivity|].
  unfold run_array_ops in H. cbn [foldS] in H. unfold sbind in H. cbn [map history].
  assert (X : fs_call d (S_Tree.op_call o) st = (fst (run_array_op d o st), omap (fun _ => AUnit) (snd (run_array_op d o st)))) by (destruct o; reflexivity).
  rewrite X. destruct (run_array_op d o st) as [st2 [[]|e|]]; try discriminate. cbn [fst snd]. rewrite (IH st2 H). reflexivity.
Qed.

Theorem cut_array ops src off n s s1 l1 fs s2 r : can_write (d_mode d) = true -> Forall (array_op_ok d) ops ->
  array_op_ok d (AWrite off n src) -> reliable s ->
  (forall c, valid_chunk (d_shape d) (d_chunks d) c -> files name s (key c) = None) ->
  history (call (s3_policy name) d) (map S_Tree.op_call ops) s = (s1, l1) ->
  cut_off (S3 (objects s1) fs) -> g_write_request (s3_policy name) d src off n (S3 (objects s1) fs) = (s2, r) -> fates s2 <> [] ->
  (r = Throw ERuntime \/ r = Ok tt) /\
  exists fresh : shape -> bool,
    (forall c, fresh c = true -> overlaps (d_shape d) (d_chunks d) off n c) /\
    (r = Ok tt -> forall c, overlaps (d_shape d) (d_chunks d) off n c -> fresh c = true) /\
    forall ov off' out, region_ok d off' (v_shape ov) -> out_view_ok ov (lenN out) ->
      exists out', snd (g_read_subarray (s3_policy name) d ov off' out (quiet s2)) = Ok out' /\ lenN out' = lenN out /\
        forall i, in_shape (v_shape ov) i -> exists v,
          let expected := apply_ops d (ops ++ if fresh (chunk_of (d_chunks d) (vadd off' i)) then [AWrite off n src] else [])
                            (fun _ => d_fill d) (vadd off' i) in
          getN out' (v_off ov + lin (v_strides ov) i) = Ok v /\ same_value d v expected /\
          (t_float (d_type d) = false -> v = expected).
Proof using ok sep.
  intros Hm Hops Hop Rl Hst Hh Hc Hw Hf. pose proof Hop as [Hreg Hsrc].
  destruct (run_array_ops_spec ok Hm Hops (holds_empty Hst) (@represents_empty d)) as (st1 & C & Er & HO & HR & _).
  pose proof (@backends_same name d (map S_Tree.op_call ops) (files name s) s sep Rl (fun k => Logic.eq_refl)) as BS.
  rewrite (op_calls Er), Hh in BS. destruct BS as (_ & M1 & _).
  set (sb := S3 (objects s1) fs) in *.
  assert (FQ : forall k, st1 k = files name (quiet sb) k) by (intros k; apply M1).
  assert (RQ : reliable (quiet sb)) by constructor.
  destruct (run_array_op_spec ok (o := AWrite off n src) Hm Hop HO HR) as (st3 & C' & Ew & HO' & HR' & _). cbn [run_array_op] in Ew.
  assert (NEW : snd (g_write_request (s3_policy name) d src off n (quiet sb)) = Ok tt /\
    forall k, files name (fst (g_write_request (s3_policy name) d src off n (quiet sb))) k = st3 k).
  { pose proof (@rel_at name (quiet sb) st1 _ _ _ (@call_same name (quiet sb) d (KWriteArray src off n) sep) RQ FQ) as [X Y].
    rewrite fs_call_eq in X, Y. cbn [fs_call call] in X, Y. unfold amap in X, Y. rewrite Ew in X, Y. cbn [fst snd omap bind] in X, Y.
    split; [|exact Y]. destruct (snd (g_write_request _ _ _ _ _ _)) as [[]|e|]; [reflexivity|discriminate|discriminate]. }
  destruct NEW as [NEW1 NEW2].
  destruct (cut_write ok Hreg Hc Hw Hf) as (_ & cs & SO & HI & ST & RO).
  split.
  { clear ST RO. destruct (begin_request_ok ok Hreg) as (l & El & ND & _ & HL).
    assert (Q : forall s0, g_write_request (s3_policy name) d src off n s0 =
      let t := afold (g_write_unit (s3_policy name) d src off n) l (repeat (d_fill d) (N.to_nat (prodw (d_chunks d)))) s0 in (fst t, omap (fun _ => tt) (snd t))).
    { intros s0. unfold g_write_request. rewrite El. unfold abind, aret. destruct (afold _ _ _ _) as [t [x|e|]]; reflexivity. }
    rewrite Q in Hw, NEW1. cbv zeta in *. injection Hw as <- <-. cbn [fst snd] in *.
    destruct (@whole_result _ _ (g_write_unit (s3_policy name) d src off n) (fun c => chunk_object name (key c)) l (repeat (d_fill d) (N.to_nat (prodw (d_chunks d)))) sb)
      as [X|(b & X)]; auto; [..|left; now rewrite X|right; now rewrite X].
    - intros b x _. apply full_write_unit.
    - rewrite files_keys. apply FinFun.Injective_map_NoDup; [intros x y; apply chunk_object_inj|].
      apply FinFun.Injective_map_NoDup; [intros c c'; apply (key_inj ok)|exact ND].
    - now apply cut_off_stops.
    - intros pre x post b E P.
      assert (HP : forall c, In c pre -> overlaps (d_shape d) (d_chunks d) off n c) by (intros c Hc'; apply HL; rewrite E; apply in_app_iff; now left).
      assert (HX : overlaps (d_shape d) (d_chunks d) off n x) by (apply HL; rewrite E; apply in_app_iff; right; now left).
      assert (FR : rel (same_data name (quiet sb)) (fun _ => False) (fun _ => True)
         (afold (g_write_unit fs_policy d src off n) pre (repeat (d_fill d) (N.to_nat (prodw (d_chunks d)))))
         (afold (g_write_unit (s3_policy name) d src off n) pre (repeat (d_fill d) (N.to_nat (prodw (d_chunks d)))))).
      { apply rel_fold. intros b0 a0. apply unit_rel. }
      destruct (rel_at FR RQ FQ) as [X _]. rewrite P in X.
      rewrite (@same_fold _ _ (g_write_unit fs_policy d src off n) (write_unit d src off n) pre (fun b0 a0 => fs_write_unit d src off n b0 a0)) in X.
      destruct (@fold_buffer src off n pre Hm Hreg Hsrc HP _ st1 C (fill_buffer ok) HO) as (bf & st' & C1 & E1 & B1 & _). rewrite E1 in X.
      injection X as ->.
      destruct (@write_unit_spec d ok src off n bf x (fun _ => None) (fun _ => None)) as (buf2 & v & E2 & _); auto.
      { apply holds_empty. reflexivity. }
      exists buf2. destruct (@rel_at name empty (fun _ => None) _ _ _ (@unit_rel empty src off n bf x)) as [Y _]; [constructor|reflexivity|].
      rewrite Y, fs_write_unit, E2. reflexivity.
    - destruct (snd (afold _ _ _ _)) as [x|e|]; [eauto|discriminate|discriminate]. }
  destruct ST as (be & af & E & I1 & I2 & I3).
  assert (D : forall c, {In (key c) be} + {~ In (key c) be}) by (intros; apply in_dec, string_dec).
  assert (IK : forall c, In (key c) (map key cs) <-> In c cs) by (intros c; apply (in_key ok)).
  assert (DO : forall c, {In c cs} + {~ In c cs}) by (intros; apply in_dec, list_eq_dec, N.eq_dec).
  exists (fun c => match r with Ok _ => if DO c then true else false | _ => if D c then true else false end).
  set (fresh := fun c => match r with Ok _ => if DO c then true else false | _ => if D c then true else false end).
  assert (F1 : forall c, fresh c = true -> overlaps (d_shape d) (d_chunks d) off n c).
  { intros c Hfr. apply HI. unfold fresh in Hfr. destruct r; try (destruct (DO c); [assumption|discriminate]); apply IK; rewrite E; apply in_app_iff; left;
      destruct (D c); auto; discriminate. }
  split; [exact F1|]. split.
  { intros -> c Ho. unfold fresh. destruct (DO c); [reflexivity|]. exfalso. now apply n0, HI. }
  intros ov off' out Hreg' Hov.
  assert (K3 : forall c, (@None shape) <> Some c -> files name s2 (key c) = if fresh c then fst (write_request d src off n st1) (key c) else st1 (key c)).
  { intros c _. rewrite Ew. cbn [fst]. unfold fresh.
    assert (OLD : files name sb (key c) = st1 (key c)) by (symmetry; apply M1).
    assert (GEN : files name s2 (key c) = if D c then st3 (key c) else st1 (key c)).
    { destruct (D c) as [Hb|Hb]; [rewrite I1 by exact Hb; apply NEW2|]. rewrite <- OLD.
      destruct (in_dec string_dec (key c) af) as [Ha|Ha]; [now apply I2|]. apply I3. rewrite E, in_app_iff. tauto. }
    destruct r as [[]|e|]; [|now destruct (D c)|now destruct (D c)].
    assert (EQ : files name s2 (key c) = st3 (key c)). { rewrite <- NEW2. unfold files. now rewrite (RO Logic.eq_refl). }
    destruct (DO c) as [Hi|Hn]; [exact EQ|]. rewrite <- OLD. apply I3. now rewrite IK. }
  destruct (@mixed_array d ok ops src off n (files name s) st1 (files name s2) fresh None Hm Hops Hop Hst Er K3 ov off' out Hreg' Hov) as (out' & R1 & R2 & R3);
    [discriminate|]. exists out'. split; [|auto].
  pose proof (@rel_at name (quiet s2) (files name s2) _ _ _ (@call_same name (quiet s2) d (KReadArray ov off' out) sep)) as [X _]; [constructor|reflexivity|].
  rewrite fs_call_eq in X. cbn [fs_call call] in X. unfold amap in X. cbn [snd] in X. rewrite R1 in X.
  destruct (snd (g_read_subarray _ _ _ _ _ _)) as [y|e|]; cbn in X; congruence.
Qed.
End PlainArray.

Lemma nodup_front A (a b : list A) : NoDup (a ++ b) -> NoDup a.
Proof.
  induction a as [|x a IH]; cbn [app]; intros H; [constructor|]. inversion H; subst. constructor; [|auto]. rewrite in_app_iff in *. tauto.
Qed.
Lemma nodup_back A (a b : list A) : NoDup (a ++ b) -> NoDup b.
Proof. induction a as [|x a IH]; cbn [app]; intros H; [exact H|]. inversion H; auto. Qed.

Section ShardedArray.
Variables (name : string) (sd : sharded).
Hypothesis sok : sharded_ok sd.
Hypothesis sep : fs_separator (k_delim (d_key (sd_base sd))).
Notation d := (sd_base sd).
Notation cps := (sd_cps sd).
Notation w := (t_width (d_type (sd_base sd))).
Notation key := (chunk_key (d_key (sd_base sd))).

Lemma shard_unit_rel s0 src off n buf g : rel (same_data name s0) (fun _ => False) (fun _ => True)
  (g_shard_write_unit fs_policy sd src off n buf g) (g_shard_write_unit (s3_policy name) sd src off n buf g).
Proof using sep.
  unfold g_shard_write_unit. apply rel_bind.
  { apply (@rel_read_shard_blobs _ _ (same_data name s0) (fun _ => False) (fun _ => True) fs_policy (s3_policy name) (d_key d)); auto.
    intros ids. apply s3_read_rel. }
  intros blobs. apply rel_bind_ret. intros r _. apply rel_bind; [|intros _; apply rel_ret].
  apply (@rel_write_shard_blobs _ _ (same_data name s0) (fun _ => False) (fun _ => True) fs_policy (s3_policy name) (d_key d)); auto; intros ids; intros.
  - now apply s3_write_rel.
  - apply s3_delete_rel.
Qed.

Lemma sh_op_calls ops st st1 : run_sharded_ops sd ops st = (st1, Ok tt) ->
  history (fs_sh_call sd) (map S_Tree.op_call ops) st = (st1, map (fun _ => Ok AUnit) ops).
Proof.
  revert st. induction ops as [|o ops IH]; intros st H; [injection H as ->; reflexivity|].
  unfold run_sharded_ops in H. cbn [foldS] in H. unfold sbind in H. cbn [map history].
  assert (X : fs_sh_call sd (S_Tree.op_call o) st = (fst (run_sharded_op sd o st), omap (fun _ => AUnit) (snd (run_sharded_op sd o st)))) by (destruct o; reflexivity).
  rewrite X. destruct (run_sharded_op sd o st) as [st2 [[]|e|]]; try discriminate. cbn [fst snd]. rewrite (IH st2 H). reflexivity.
Qed.

Theorem cut_sharded_array ops src off n s s1 l1 fs s2 r : can_write (d_mode d) = true -> Forall (array_op_ok d) ops ->
  array_op_ok d (AWrite off n src) -> reliable s ->
  (forall c, valid_chunk (d_shape d) (d_chunks d) c -> files name s (shard_key sd c) = None) ->
  history (sh_call (s3_policy name) sd) (map S_Tree.op_call ops) s = (s1, l1) ->
  cut_off (S3 (objects s1) fs) -> g_sh_write_request (s3_policy name) sd src off n (S3 (objects s1) fs) = (s2, r) -> fates s2 <> [] ->
  (r = Throw ERuntime \/ r = Ok tt) /\
  exists fresh : shape -> bool,
    (forall k, fresh k = true -> exists c, overlaps (d_shape d) (d_chunks d) off n c /\ shard_of cps c = k) /\
    (r = Ok tt -> forall c, overlaps (d_shape d) (d_chunks d) off n c -> fresh (shard_of cps c) = true) /\
    forall ov off' out, region_ok d off' (v_shape ov) -> out_view_ok ov (lenN out) ->
      exists out', snd (g_sh_read_subarray (s3_policy name) sd ov off' out (quiet s2)) = Ok out' /\ lenN out' = lenN out /\
        forall i, in_shape (v_shape ov) i -> exists v,
          let expected := apply_ops d (ops ++ if fresh (shard_of cps (chunk_of (d_chunks d) (vadd off' i))) then [AWrite off n src] else [])
                            (fun _ => d_fill d) (vadd off' i) in
          getN out' (v_off ov + lin (v_strides ov) i) = Ok v /\ same_value d v expected /\
          (t_float (d_type d) = false -> v = expected).
Proof using sok sep.
  intros Hm Hops Hop Rl Hst Hh Hc Hw Hf. pose proof Hop as [Hreg Hsrc]. pose proof (so_base sok) as ok.
  destruct (so_blob sok) as (m & X1 & X2).
  set (T := fun _ : shape => True). assert (HT : forall k, T k) by (intros; exact Logic.I).
  destruct (@run_sharded_ops_spec sd sok m X1 X2 (own_blob sd) (@own_blob_ok sd) own_shard (@own_shard_ok sd) T ops HT Hm Hops (files name s) _ _ (@holds_sh_empty sd sok m X1 X2 (own_blob sd) (@own_blob_ok sd) own_shard (@own_shard_ok sd) T (files name s) Hst) (@represents_empty (sd_base sd)))
    as (st1 & C & Er & HO & HR & _).
  pose proof (@backends_same_sharded name sd (map S_Tree.op_call ops) (files name s) s sep Rl (fun k => Logic.eq_refl)) as BS.
  rewrite (sh_op_calls Er), Hh in BS. destruct BS as (_ & M1 & _).
  set (sb := S3 (objects s1) fs) in *.
  assert (FQ : forall k, st1 k = files name (quiet sb) k) by (intros k; apply M1).
  assert (RQ : reliable (quiet sb)) by constructor.
  destruct (@run_sharded_op_spec sd sok m X1 X2 (own_blob sd) (@own_blob_ok sd) own_shard (@own_shard_ok sd) T (AWrite off n src) _ _ _ HT Hm Hop HO HR)
    as (st3 & C' & Ew & HO' & HR' & _). cbn [run_sharded_op] in Ew.
  assert (NEW : snd (g_sh_write_request (s3_policy name) sd src off n (quiet sb)) = Ok tt /\
    forall k, files name (fst (g_sh_write_request (s3_policy name) sd src off n (quiet sb))) k = st3 k).
  { pose proof (@rel_at name (quiet sb) st1 _ _ _ (@sh_call_same name (quiet sb) sd (KWriteArray src off n) sep) RQ FQ) as [X Y].
    rewrite fs_sh_call_eq in X, Y. cbn [fs_sh_call sh_call] in X, Y. unfold amap in X, Y. rewrite Ew in X, Y. cbn [fst snd omap bind] in X, Y.
    split; [|exact Y]. destruct (snd (g_sh_write_request _ _ _ _ _ _)) as [[]|e|]; [reflexivity|discriminate|discriminate]. }
  destruct NEW as [NEW1 NEW2].
  destruct (cut_sharded_write sok Hreg Hc Hw Hf) as (_ & ks & NDK & HI & ST & RO).
  split.
  { clear ST RO. destruct (request_groups sok Hreg) as (reqs & gs & E1 & E2 & E3 & HG & ND1 & HM & ND).
    assert (Q : forall s0, g_sh_write_request (s3_policy name) sd src off n s0 =
      let t := afold (g_shard_write_unit (s3_policy name) sd src off n) gs (repeat (d_fill d) (N.to_nat (prodw (d_chunks d)))) s0 in (fst t, omap (fun _ => tt) (snd t))).
    { intros s0. unfold g_sh_write_request. rewrite E1. unfold abind, aret. rewrite Hm. cbn [negb]. rewrite E2, E3. destruct (afold _ _ _ _) as [t [x|e|]]; reflexivity. }
    rewrite Q in Hw, NEW1. cbv zeta in *. injection Hw as <- <-. cbn [fst snd] in *.
    destruct (@whole_result _ _ (g_shard_write_unit (s3_policy name) sd src off n) (fun g => chunk_object name (key (fst g))) gs (repeat (d_fill d) (N.to_nat (prodw (d_chunks d)))) sb)
      as [X|(b & X)]; auto; [..|left; now rewrite X|right; now rewrite X].
    - intros b x _. apply full_shard_unit.
    - rewrite (files_keys (fun g : shape * list shape => key (fst g)) name gs). apply FinFun.Injective_map_NoDup; [intros x y; apply chunk_object_inj|].
      rewrite <- (map_map fst key). apply FinFun.Injective_map_NoDup; [intros c c'; apply (key_inj ok)|exact ND].
    - now apply cut_off_stops.
    - intros pre x post b E P.
      assert (FR : rel (same_data name (quiet sb)) (fun _ => False) (fun _ => True)
         (afold (g_shard_write_unit fs_policy sd src off n) pre (repeat (d_fill d) (N.to_nat (prodw (d_chunks d)))))
         (afold (g_shard_write_unit (s3_policy name) sd src off n) pre (repeat (d_fill d) (N.to_nat (prodw (d_chunks d)))))).
      { apply rel_fold. intros b0 a0. apply shard_unit_rel. }
      destruct (rel_at FR RQ FQ) as [X _]. rewrite P in X.
      rewrite (@same_fold _ _ (g_shard_write_unit fs_policy sd src off n) (shard_write_unit sd src off n) pre (fun b0 a0 => fs_shard_write_unit sd src off n b0 a0)) in X.
      rewrite E, map_app, concat_app in ND1.
      destruct (@sharded_fold sd sok m X1 X2 (own_blob sd) (@own_blob_ok sd) own_shard (@own_shard_ok sd) T src off n pre Hm Hreg Hsrc) with
        (buf := repeat (d_fill d) (N.to_nat (prodw (d_chunks d)))) (st := st1) (C := C) as (bf & st' & C1 & E4 & B1 & _); auto.
      { intros k cs Hi. apply HG. rewrite E. apply in_app_iff. now left. }
      { clear - ND1. apply nodup_front in ND1. exact ND1. }
      { apply (fill_buffer ok). }
      rewrite E4 in X. injection X as ->.
      destruct (@sharded_fold sd sok m X1 X2 (own_blob sd) (@own_blob_ok sd) own_shard (@own_shard_ok sd) T src off n [x] Hm Hreg Hsrc) with
        (buf := bf) (st := (fun _ => None) : store) (C := (fun _ => None) : shape -> option (list cell)) as (bf2 & st2' & C2 & E5 & _); auto.
      { intros k cs [->|[]]. apply HG. rewrite E. apply in_app_iff. right. now left. }
      { cbn [map concat]. rewrite app_nil_r. cbn [map concat] in ND1. apply nodup_back in ND1. apply nodup_front in ND1. exact ND1. }
      { apply (@holds_sh_empty sd sok m X1 X2 (own_blob sd) (@own_blob_ok sd) own_shard (@own_shard_ok sd) T). reflexivity. }
      destruct (@rel_at name empty (fun _ => None) _ _ _ (@shard_unit_rel empty src off n bf x)) as [Y _]; [constructor|reflexivity|].
      rewrite Y, fs_shard_write_unit. cbn [foldS] in E5. unfold sbind, pure in E5.
      destruct (shard_write_unit sd src off n bf x (fun _ => None)) as [q [y|e|]]; [exists y; reflexivity|discriminate|discriminate].
    - destruct (snd (afold _ _ _ _)) as [x|e|]; [eauto|discriminate|discriminate]. }
  destruct ST as (be & af & E & I1 & I2 & I3).
  assert (D : forall c, {In (key c) be} + {~ In (key c) be}) by (intros; apply in_dec, string_dec).
  assert (IK : forall c, In (key c) (map key ks) <-> In c ks) by (intros c; apply (in_key ok)).
  assert (DO : forall c, {In c ks} + {~ In c ks}) by (intros; apply in_dec, list_eq_dec, N.eq_dec).
  set (fresh := fun c => match r with Ok _ => if DO c then true else false | _ => if D c then true else false end). exists fresh.
  split.
  { intros c Hfr. apply HI. unfold fresh in Hfr. destruct r; try (destruct (DO c); [assumption|discriminate]); apply IK; rewrite E; apply in_app_iff; left;
      destruct (D c); auto; discriminate. }
  split.
  { intros -> c Ho. unfold fresh. destruct (DO (shard_of cps c)) as [|n0]; [reflexivity|]. exfalso. apply n0, HI. eauto. }
  intros ov off' out Hreg' Hov.
  assert (K3 : forall k, (@None shape) <> Some k -> files name s2 (key k) = if fresh k then fst (sh_write_request sd src off n st1) (key k) else st1 (key k)).
  { intros c _. rewrite Ew. cbn [fst]. unfold fresh.
    assert (OLD : files name sb (key c) = st1 (key c)) by (symmetry; apply M1).
    assert (GEN : files name s2 (key c) = if D c then st3 (key c) else st1 (key c)).
    { destruct (D c) as [Hb|Hb]; [rewrite I1 by exact Hb; apply NEW2|]. rewrite <- OLD.
      destruct (in_dec string_dec (key c) af) as [Ha|Ha]; [now apply I2|]. apply I3. rewrite E, in_app_iff. tauto. }
    destruct r as [[]|e|]; [|now destruct (D c)|now destruct (D c)].
    assert (EQ : files name s2 (key c) = st3 (key c)). { rewrite <- NEW2. unfold files. now rewrite (RO Logic.eq_refl). }
    destruct (DO c) as [Hi|Hn]; [exact EQ|]. rewrite <- OLD. apply I3. now rewrite IK. }
  destruct (@mixed_sharded sd sok ops src off n (files name s) st1 (files name s2) fresh None Hm Hops Hop Hst Er K3 ov off' out Hreg' Hov) as (out' & R1 & R2 & R3);
    [discriminate|]. exists out'. split; [|auto].
  pose proof (@rel_at name (quiet s2) (files name s2) _ _ _ (@sh_call_same name (quiet s2) sd (KReadArray ov off' out) sep)) as [X _]; [constructor|reflexivity|].
  rewrite fs_sh_call_eq in X. cbn [fs_sh_call sh_call] in X. unfold amap in X. cbn [snd] in X. rewrite R1 in X.
  destruct (snd (g_sh_read_subarray _ _ _ _ _ _)) as [y|e|]; cbn in X; congruence.
Qed.
End ShardedArray.
