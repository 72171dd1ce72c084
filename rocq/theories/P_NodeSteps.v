(** Calls on nodes in steps. *)
From Coq Require Import ZArith String.
From Verif Require Import M_Base M_Json M_Mode M_Metadata M_Fs M_Attributes M_Container M_Pool M_AttrSteps M_NodeSteps
  S_Attributes S_AttrSteps S_NodeSteps P_Base P_Attributes P_Container P_AttrSteps.
Import List ListNotations.
Local Open Scope list_scope.

Lemma below_trans p q r : below p q = true -> below q r = true -> below p r = true.
Proof.
  revert q r. induction p as [|a p IH]; intros [|b q] [|c r]; cbn; try discriminate; try reflexivity.
  rewrite !andb_true_iff, !String.eqb_eq. intros [-> A] [-> B]. split; [reflexivity|eauto].
Qed.
Lemma inside_below T p q : inside T p -> below p q = true -> inside T q.
Proof. intros (r & I & B) H. exists r. split; [exact I|]. exact (below_trans B H). Qed.
Lemma inside_doc T p d : inside T p -> inside T (p ++ [d]).
Proof. intros H. exact (inside_below H (below_app p [d])). Qed.

(** *** What code sees and leaves *)
(** [s'] has the same files at the nodes [T] and in [R]; on the way to the nodes it may have
    more directories. *)
Definition way (T : list path) (q : path) : Prop := exists p, In p T /\ below q p = true.
Record agreed (T : list path) (R : path -> Prop) (s s' : fsys) : Prop := {
  ag_own : forall q, inside T q \/ R q -> s q = s' q;
  ag_way : forall q, way T q -> s q = s' q \/ s q = None /\ s' q = Some NDir
}.
Inductive nlocal (T : list path) (R : path -> Prop) : ncode -> Prop :=
| nlocal_ret o : nlocal T R (NRet o)
| nlocal_act f :
    (forall s s', agreed T R s s' -> snd (f s) = snd (f s') /\ agreed T R (fst (f s)) (fst (f s')) /\
       forall q, s q = s' q -> fst (f s) q = fst (f s') q) ->
    (forall s q, inside T q \/ fst (f s) q = s q \/ way T q /\ s q = None /\ fst (f s) q = Some NDir) ->
    (forall s, nlocal T R (snd (f s))) -> nlocal T R (NAct f).

Section Local.
Variables (T : list path) (R : path -> Prop).
Notation loc := (nlocal T R).
Lemma nlocal_lift {A} (o : outcome A) k : (forall a, loc (k a)) -> loc (nlift o k).
Proof. intros H. destruct o; cbn; [apply H|constructor|constructor]. Qed.
Lemma nlocal_look f : (forall s, fst (f s) = s) -> (forall s s', agreed T R s s' -> snd (f s) = snd (f s')) ->
  (forall s, loc (snd (f s))) -> loc (NAct f).
Proof.
  intros E A L. constructor; [| |exact L].
  - intros s s' H. rewrite !E. split; [now apply A|]. split; [exact H|auto].
  - intros s q. rewrite E. auto.
Qed.
Lemma nlocal_exists q k : inside T q \/ R q -> (forall e, loc (k e)) -> loc (nexists q k).
Proof. intros F H. apply nlocal_look; cbn; auto. intros s s' A. unfold fs_exists. now rewrite (ag_own A F). Qed.
Lemma nlocal_isdir q k : inside T q \/ R q -> (forall e, loc (k e)) -> loc (nisdir q k).
Proof. intros F H. apply nlocal_look; cbn; auto. intros s s' A. unfold fs_isdir. now rewrite (ag_own A F). Qed.

(** A node that the code may look at. *)
Definition visible (p : path) : Prop := inside T p \/ R p /\ forall d, In d documents -> R (p ++ [d]).
Lemma visible_node p : visible p -> inside T p \/ R p.
Proof. intros [H|[H _]]; auto. Qed.
Lemma visible_doc p d : visible p -> In d documents -> inside T (p ++ [d]) \/ R (p ++ [d]).
Proof. intros [H|[_ H]] D; [left; now apply inside_doc|auto]. Qed.
Lemma visible_inside p : inside T p -> visible p.
Proof. now left. Qed.

Lemma nlocal_is_zarr p cont : visible p -> (forall z, loc (cont z)) -> loc (nsteps_is_zarr p cont).
Proof.
  intros V H. apply nlocal_exists; [now apply visible_node|]. intros []; cbn [negb]; [|constructor].
  apply nlocal_exists; [apply visible_doc; cbn; auto|]. intros []; [apply H|].
  apply nlocal_exists; [apply visible_doc; cbn; auto|exact H].
Qed.
Lemma nlocal_read p name cont : visible p -> In name documents -> (forall o, loc (cont o)) -> loc (nsteps_read p name cont).
Proof.
  intros V D H. apply nlocal_exists; [now apply visible_doc|]. intros []; cbn [negb]; [|apply H].
  apply nlocal_look; cbn; [reflexivity| |].
  - intros s s' A. now rewrite (ag_own A (visible_doc V D)).
  - intros s. destruct (s (p ++ [name])) as [[]|]; try constructor. apply H.
Qed.
Lemma nlocal_parse p name cont : visible p -> In name documents -> (forall j, loc (cont j)) -> loc (nsteps_parse p name cont).
Proof.
  intros V D H. apply nlocal_look; cbn; [reflexivity| |].
  - intros s s' A. unfold parse_doc. now rewrite (ag_own A (visible_doc V D)).
  - intros s. now apply nlocal_lift.
Qed.
(** A step that changes files of the own nodes only. *)
Lemma nlocal_own f : (forall s s', agreed T R s s' -> snd (f s) = snd (f s') /\ (forall q, inside T q -> fst (f s) q = fst (f s') q)) ->
  (forall s q, inside T q \/ fst (f s) q = s q) -> (forall q, inside T q \/ ~ inside T q) -> (forall s, loc (snd (f s))) -> loc (NAct f).
Proof.
  intros A F D L. constructor; [| |exact L].
  - intros s s' H. destruct (A s s' H) as [E I]. split; [exact E|].
    assert (O : forall s q, ~ inside T q -> fst (f s) q = s q) by (intros s0 q N; destruct (F s0 q); tauto).
    split; [split|]; intros q Hq; (destruct (D q) as [Iq|Nq]; [specialize (I q Iq); auto|]); rewrite !O by exact Nq.
    + apply (ag_own H Hq).
    + apply (ag_way H Hq).
    + exact Hq.
  - intros s q. destruct (F s q); auto.
Qed.
Lemma inside_dec q : inside T q \/ ~ inside T q.
Proof.
  destruct (existsb (fun p => below p q) T) eqn:E.
  - left. apply existsb_exists in E. exact E.
  - right. intros (p & I & B). assert (existsb (fun p => below p q) T = true) by (apply existsb_exists; eauto). congruence.
Qed.
Lemma nlocal_write p name j k : inside T p -> loc k -> loc (nsteps_write p name j k).
Proof.
  intros I H. pose proof (inside_doc name I) as I'.
  apply nlocal_own; [| |apply inside_dec|].
  - intros s s' A. unfold fs_isdir. rewrite (ag_own A (or_introl I)), (ag_own A (or_introl I')).
    destruct (_ && _); cbn [fst snd]; (split; [reflexivity|]); intros q Hq; [|exact (ag_own A (or_introl Hq))].
    destruct (path_eqb q (p ++ [name])); [reflexivity|]. exact (ag_own A (or_introl Hq)).
  - intros s q. destruct (_ && _); cbn [fst]; [|now right]. destruct (path_eqb q (p ++ [name])) eqn:E; [|now right].
    apply path_eqb_eq in E. subst q. now left.
  - intros s. destruct (_ && _); cbn [snd]; [|exact H]. apply nlocal_own; cbn [fst snd]; [| |apply inside_dec|auto].
    + intros s0 s1 A. split; [reflexivity|]. intros q Hq. destruct (path_eqb q (p ++ [name])); [reflexivity|]. exact (ag_own A (or_introl Hq)).
    + intros s0 q. destruct (path_eqb q (p ++ [name])) eqn:E; [|now right]. apply path_eqb_eq in E. subst q. now left.
Qed.

Lemma prefix_known p q : inside T p -> below q p = true -> inside T q \/ way T q.
Proof.
  intros (r & I & B) H. destruct (below r q) eqn:E; [left; exists r; auto|]. right. exists r. split; [exact I|].
  clear I. revert p q B H E. induction r as [|a r IH]; intros [|b p] [|c q]; cbn; try discriminate; try reflexivity.
  rewrite !andb_true_iff, !String.eqb_eq. intros [-> B] [-> H]. rewrite String.eqb_refl. cbn. intros E. split; [reflexivity|eauto].
Qed.
Lemma nlocal_look_dirs l k : (forall q, In q l -> inside T q \/ way T q) -> loc k -> loc (nsteps_look l k).
Proof.
  intros K H. induction l as [|q l IH]; cbn [nsteps_look]; [exact H|]. apply nlocal_look; cbn [fst snd]; [reflexivity| |].
  - intros s s' A. unfold fs_exists, fs_isdir.
    destruct (K q (or_introl eq_refl)) as [I|W]; [now rewrite (ag_own A (or_introl I))|].
    destruct (ag_way A W) as [E|[E E']]; [now rewrite E|now rewrite E, E'].
  - intros s. destruct (_ && _); [constructor|]. apply IH. intros x Hx. apply K. now right.
Qed.
Lemma nlocal_make_dirs l k : (forall q, In q l -> inside T q \/ way T q) -> loc k -> loc (nsteps_make l k).
Proof.
  intros K H. induction l as [|q l IH]; cbn [nsteps_make]; [exact H|].
  assert (L : loc (nsteps_make l k)) by (apply IH; intros x Hx; apply K; now right).
  constructor.
  - intros s s' A.
    assert (C : s q = s' q \/ way T q /\ s q = None /\ s' q = Some NDir).
    { destruct (K q (or_introl eq_refl)) as [I|W]; [left; exact (ag_own A (or_introl I))|]. destruct (ag_way A W) as [E|E]; auto. }
    assert (G : agreed T R (fun x => if path_eqb x q then Some NDir else s x) (fun x => if path_eqb x q then Some NDir else s' x)).
    { split; intros x Hx; (destruct (path_eqb x q); [now (reflexivity || left)|]); [exact (ag_own A Hx)|exact (ag_way A Hx)]. }
    destruct C as [E|(W & E & E')].
    + rewrite <- E. destruct (s q) as [[]|]; cbn [fst snd]; (split; [reflexivity|]); (split; [exact A || exact G|]); intros x Hx;
        try exact Hx. now rewrite Hx.
    + rewrite E, E'. cbn [fst snd]. split; [reflexivity|].
      split; [split|]; intros x Hx; (destruct (path_eqb x q) eqn:Ex; [apply path_eqb_eq in Ex; subst x|]); auto.
      * exact (ag_own A Hx).
      * exact (ag_way A Hx).
  - intros s x. destruct (s q) as [[]|] eqn:E; cbn [fst]; auto. destruct (path_eqb x q) eqn:Ex; auto.
    apply path_eqb_eq in Ex. subst x. destruct (K q (or_introl eq_refl)) as [I|W]; auto.
  - intros s. destruct (s q) as [[]|]; cbn [snd]; (exact L || constructor).
Qed.
Lemma nlocal_mkdirs p k : inside T p -> loc k -> loc (nsteps_mkdirs p k).
Proof.
  intros I H. assert (K : forall q, In q (prefixes p) -> inside T q \/ way T q).
  { intros q Hq. apply prefixes_below in Hq. exact (prefix_known I Hq). }
  apply nlocal_look_dirs; [exact K|]. now apply nlocal_make_dirs.
Qed.
Lemma nlocal_create b p k : inside T p -> loc k -> loc (nsteps_create b p k).
Proof.
  intros I H. unfold nsteps_create. destruct b; cbn [negb]; [|constructor].
  apply nlocal_exists; [now left|]. intros []; [constructor|]. now apply nlocal_mkdirs.
Qed.
Lemma nlocal_v3_group p k : inside T p -> loc k -> loc (nsteps_v3_group p k).
Proof.
  intros I H. apply nlocal_read; [now left|cbn; auto|]. intros o. apply nlocal_lift. intros j. now apply nlocal_write.
Qed.
Lemma nlocal_file_metadata p z fmt k : inside T p -> loc k -> loc (nsteps_file_metadata p z fmt k).
Proof.
  intros I H. unfold nsteps_file_metadata. destruct (z && _); [now apply nlocal_v3_group|]. destruct z; [now apply nlocal_write|].
  apply nlocal_read; [now left|cbn; auto 6|]. intros o. apply nlocal_lift. intros j. now apply nlocal_write.
Qed.
Lemma nlocal_group_metadata p z fmt k : inside T p -> loc k -> loc (nsteps_group_metadata p z fmt k).
Proof.
  intros I H. unfold nsteps_group_metadata. destruct (z && _); [now apply nlocal_v3_group|]. destruct z; [now apply nlocal_write|exact H].
Qed.
Lemma nlocal_dataset_metadata p m k : inside T p -> loc k -> loc (nsteps_dataset_metadata p m k).
Proof.
  intros I H. unfold nsteps_dataset_metadata. destruct (_ && _).
  - apply nlocal_read; [now left|cbn; auto|]. intros o. apply nlocal_lift. intros j. now apply nlocal_write.
  - apply nlocal_lift. intros j. now apply nlocal_write.
Qed.
Lemma nlocal_create_dataset h ka m : inside T (h_path h) -> loc (nsteps_create_dataset h ka m).
Proof.
  intros I. apply nlocal_create; [exact I|]. apply nlocal_dataset_metadata; [exact I|]. apply nlocal_lift. intros. constructor.
Qed.
Lemma nlocal_chunk_config p cont : visible p -> (forall ka, loc (cont ka)) -> loc (nsteps_chunk_config p cont).
Proof.
  intros V H. apply nlocal_exists; [apply visible_doc; cbn; auto|]. intros [].
  - apply nlocal_parse; [exact V|cbn; auto|]. intros j. now apply nlocal_lift.
  - apply nlocal_exists; [apply visible_doc; cbn; auto|]. intros [].
    + apply nlocal_parse; [exact V|cbn; auto|]. intros j. now apply nlocal_lift.
    + apply H.
Qed.
Lemma nlocal_metadata p cont : visible p -> (forall m, loc (cont m)) -> loc (nsteps_metadata p cont).
Proof.
  intros V H. apply nlocal_exists; [apply visible_doc; cbn; auto|]. intros a.
  apply nlocal_exists; [apply visible_doc; cbn; auto|]. intros b.
  apply nlocal_exists; [apply visible_doc; cbn; auto 6|]. intros c.
  destruct (_ && _); [constructor|]. destruct (_ && _); [constructor|].
  apply nlocal_parse; [exact V|destruct b; [cbn; auto|destruct a; cbn; auto 6]|]. intros j. now apply nlocal_lift.
Qed.
Lemma nlocal_open root key : visible (h_path root) -> visible (h_path root ++ key) -> loc (nsteps_open_dataset root key).
Proof.
  intros V W.
  assert (G : forall ka, loc (nexists (h_path root ++ key) (fun e =>
    if negb e then NRet (Throw ERuntime)
    else nsteps_metadata (h_path root ++ key) (fun m => nlift (make_dataset (Handle (h_path root ++ key) (h_mode root)) ka m) (fun d => NRet (Ok (Object d))))))).
  { intros ka. apply nlocal_exists; [now apply visible_node|]. intros []; cbn [negb]; [|constructor].
    apply nlocal_metadata; [exact W|]. intros m. apply nlocal_lift. intros. constructor. }
  apply nlocal_is_zarr; [exact V|]. intros []; [now apply nlocal_chunk_config|apply G].
Qed.
Lemma nlocal_remove h : inside T (h_path h) -> loc (nsteps_remove h).
Proof.
  intros I. unfold nsteps_remove. destruct (can_write _); cbn [negb]; [|constructor].
  apply nlocal_exists; [now left|]. intros []; cbn [negb]; [|constructor].
  apply nlocal_own; cbn [fst snd]; [| |apply inside_dec|constructor].
  - intros s s' A. split; [reflexivity|]. intros q Hq. destruct (below _ q); [reflexivity|]. exact (ag_own A (or_introl Hq)).
  - intros s q. destruct (below (h_path h) q) eqn:B; [|now right]. left. exact (inside_below I B).
Qed.
(** The calls on attributes. *)
Lemma nlocal_attr w p c : visible p -> (w = true -> inside T p) -> local w p c -> loc (of_acode c).
Proof.
  intros V W L. induction L as [o|f F1 F2 F3 F4 IH]; cbn [of_acode]; [constructor|].
  assert (G : forall s s', agreed T R s s' -> agree p s s').
  { intros s s' A q [-> | (d & D & ->)]; apply (ag_own A); [now apply visible_node|now apply visible_doc]. }
  destruct w.
  - specialize (W eq_refl). apply nlocal_own; [| |apply inside_dec|].
    + intros s s' A. destruct (F1 s s' (G _ _ A)) as [E Af].
      assert (O : forall q, inside T q -> fst (f s) q = fst (f s') q).
      { intros q Hq. destruct (doc_dec p q) as [D|N]; [apply Af; now right|]. rewrite !F2 by exact N. exact (ag_own A (or_introl Hq)). }
      destruct (f s) as [s1 c1], (f s') as [s2 c2]. cbn [fst snd] in *. split; [now rewrite E|exact O].
    + intros s q. destruct (doc_dec p q) as [(d & D & ->)|N]; [left; now apply inside_doc|]. right. rewrite <- (F2 s q N). destruct (f s). reflexivity.
    + intros s. specialize (IH s). destruct (f s). exact IH.
  - apply nlocal_look.
    + intros s. rewrite <- (F3 eq_refl s) at 2. destruct (f s). reflexivity.
    + intros s s' A. destruct (F1 s s' (G _ _ A)) as [E _]. destruct (f s) as [s1 c1], (f s') as [s2 c2]. cbn [fst snd] in *. now rewrite E.
    + intros s. specialize (IH s). destruct (f s). exact IH.
Qed.

Lemma nlocal_call c : (forall p, works_on c = Some p -> inside T p) -> (forall p, In p (looks_at c) -> visible p) ->
  loc (steps_of_ncall c).
Proof.
  intros W V. destruct c as [c|h z fmt|root key fmt|root key dn sh ch cn o fill delim fmt enc shard|root key m|root key|h|h|h key];
    cbn [steps_of_ncall works_on looks_at] in *.
  - apply (@nlocal_attr (is_change c) (call_node c)); [apply V; now left| |apply local_call].
    destruct c; cbn [is_change call_node] in *; [discriminate| |]; intros _; now apply W.
  - apply nlocal_create; [now apply W|]. apply nlocal_file_metadata; [now apply W|constructor].
  - apply nlocal_is_zarr; [apply V; now left|]. intros z. apply nlocal_create; [now apply W|]. apply nlocal_group_metadata; [now apply W|constructor].
  - apply nlocal_is_zarr; [apply V; now left|]. intros z. apply nlocal_lift. intros m. apply nlocal_create_dataset. now apply W.
  - apply nlocal_create_dataset. now apply W.
  - apply nlocal_open; apply V; cbn; auto.
  - apply nlocal_remove. now apply W.
  - apply nlocal_exists; [apply visible_node, V; now left|constructor].
  - apply nlocal_isdir; [apply visible_node, V; now left|constructor].
Qed.
End Local.

Lemma nrun_agreed T R c : nlocal T R c -> forall s s', agreed T R s s' ->
  snd (run_nsteps c s) = snd (run_nsteps c s') /\ agreed T R (fst (run_nsteps c s)) (fst (run_nsteps c s')).
Proof.
  induction 1 as [o|f F1 F2 F3 IH]; intros s s' A; cbn [run_nsteps]; [auto|].
  destruct (F1 s s' A) as (E & A' & _). specialize (IH s (fst (f s)) (fst (f s')) A').
  destruct (f s) as [s1 c1], (f s') as [s2 c2]. cbn [fst snd] in *. subst c2. exact IH.
Qed.

(** *** Without interruption the steps do what the call does *)
Definition nequal (a b : fsys * outcome answer) : Prop := same (fst a) (fst b) /\ snd a = snd b.
Lemma nequal_refl a : nequal a a.
Proof. split; [intros q|]; reflexivity. Qed.
Lemma nequal_sym a b : nequal a b -> nequal b a.
Proof. intros [A B]. split; [intros q; symmetry; apply A|now symmetry]. Qed.
Lemma nequal_trans a b c : nequal a b -> nequal b c -> nequal a c.
Proof. intros [A B] [C D]. split; [intros q; rewrite A; apply C|congruence]. Qed.

(** Everything is visible. *)
Notation all := (fun _ : path => True).
Lemma nrun_same T c s s' : nlocal T all c -> same s s' -> nequal (run_nsteps c s) (run_nsteps c s').
Proof.
  intros L S. assert (A : agreed T all s s') by (split; [intros q _; apply S|intros q _; left; apply S]).
  destruct (nrun_agreed L A) as [E A']. split; [|exact E]. intros q. apply (ag_own A'). now right.
Qed.

(** [c] does what [g] says. *)
Definition does (c : ncode) (g : fact answer) : Prop := forall s, nequal (run_nsteps c s) (g s).
Lemma does_ret o : does (NRet o) (fret o).
Proof. intros s. apply nequal_refl. Qed.
Lemma does_lift {A} (o : outcome A) k g : (forall a, does (k a) (g a)) -> does (nlift o k) (do* a <- fret o in g a).
Proof. intros H s. unfold fbind, fret. destruct o; cbn; [apply H|apply nequal_refl|apply nequal_refl]. Qed.
Lemma does_is_zarr p k g : (forall z, does (k z) (g z)) -> does (nsteps_is_zarr p k) (do* z <- freading (fun s => is_zarr_group s p) in g z).
Proof.
  intros H s. unfold nsteps_is_zarr, nexists, fbind, freading, is_zarr_group. cbn [run_nsteps]. destruct (fs_exists s p); cbn [negb run_nsteps]; [|apply nequal_refl].
  destruct (fs_exists s (p ++ [".zgroup"%string])); cbn [orb run_nsteps]; apply H.
Qed.
Lemma does_read p name k g : (forall o, does (k o) (g o)) -> does (nsteps_read p name k) (do* o <- freading (fun s => read_doc s p name) in g o).
Proof.
  intros H s. unfold nsteps_read, nexists, fbind, freading, read_doc, fs_exists. cbn [run_nsteps].
  destruct (s (p ++ [name])) as [[]|] eqn:E; cbn [negb run_nsteps]; rewrite ?E; try apply H; apply nequal_refl.
Qed.
Lemma does_parse p name k g : (forall j, does (k j) (g j)) -> does (nsteps_parse p name k) (do* j <- freading (fun s => parse_doc s p name) in g j).
Proof.
  intros H s. unfold nsteps_parse, fbind, freading. cbn [run_nsteps]. destruct (parse_doc s p name); cbn; [apply H|apply nequal_refl|apply nequal_refl].
Qed.
Lemma does_write T p name j k g : nlocal T all k -> does k g -> does (nsteps_write p name j k) (do* _ <- write_doc p name j in g).
Proof.
  intros L H s. unfold nsteps_write, fbind, write_doc. cbn [run_nsteps]. destruct (_ && _); cbn [run_nsteps]; [|apply H].
  refine (nequal_trans _ (H _)). refine (nrun_same L _). intros q. destruct (path_eqb q (p ++ [name])); reflexivity.
Qed.
Lemma run_look l k s : run_nsteps (nsteps_look l k) s =
  if existsb (fun q => fs_exists s q && negb (fs_isdir s q)) l then (s, Throw EFilesystem) else run_nsteps k s.
Proof.
  induction l as [|q l IH]; cbn [nsteps_look existsb run_nsteps]; [reflexivity|].
  destruct (fs_exists s q && negb (fs_isdir s q)); cbn [orb run_nsteps]; [reflexivity|exact IH].
Qed.
Lemma run_make T l k : nlocal T all k -> forall s, (forall q, In q l -> s q = None \/ s q = Some NDir) ->
  nequal (run_nsteps (nsteps_make l k) s) (run_nsteps k (fun q => if existsb (path_eqb q) l then Some NDir else s q)).
Proof.
  intros L. induction l as [|p l IH]; intros s F; cbn [nsteps_make existsb]; [apply nequal_refl|]. cbn [run_nsteps].
  assert (G : forall s1, (forall q, s1 q = if path_eqb q p then Some NDir else s q) ->
    nequal (run_nsteps (nsteps_make l k) s1) (run_nsteps k (fun q => if path_eqb q p || existsb (path_eqb q) l then Some NDir else s q))).
  { intros s1 E. refine (nequal_trans (IH s1 _) _).
    - intros q Hq. rewrite E. destruct (path_eqb q p); [now right|]. apply F. now right.
    - refine (nrun_same L _). intros q. rewrite E. destruct (existsb (path_eqb q) l), (path_eqb q p); reflexivity. }
  destruct (F p (or_introl eq_refl)) as [E|E]; rewrite E; cbn [fst snd]; apply G.
  - reflexivity.
  - intros q. destruct (path_eqb q p) eqn:Eq; [|reflexivity]. apply path_eqb_eq in Eq. now subst q.
Qed.
Lemma does_mkdirs T p k g : nlocal T all k -> does k g -> does (nsteps_mkdirs p k) (do* _ <- fs_mkdirs p in g).
Proof.
  intros L H s. unfold nsteps_mkdirs, fbind, fs_mkdirs. rewrite run_look. destruct (existsb _ (prefixes p)) eqn:E; [apply nequal_refl|].
  refine (nequal_trans (run_make L _) (nequal_trans _ (H _))).
  - intros q Hq. destruct (s q) as [[]|] eqn:Eq; auto; exfalso;
      (assert (X : existsb (fun q => fs_exists s q && negb (fs_isdir s q)) (prefixes p) = true);
       [apply existsb_exists; exists q; split; [exact Hq|]; unfold fs_exists, fs_isdir; now rewrite Eq|congruence]).
  - refine (nrun_same L _). intros q. destruct (existsb (path_eqb q) (prefixes p)) eqn:X.
    + apply existsb_exists in X. destruct X as (x & I & Ex). apply path_eqb_eq in Ex. subst x. apply prefixes_below in I. now rewrite I.
    + destruct (below q p) eqn:B; [|reflexivity]. exfalso. apply prefixes_below in B.
      assert (existsb (path_eqb q) (prefixes p) = true) by (apply existsb_exists; exists q; split; [exact B|apply path_eqb_refl]). congruence.
Qed.
Lemma does_create T (b : bool) p k g : nlocal T all k -> does k g ->
  does (nsteps_create b p k) (do* _ <- (fun s => (if negb b then fret (Throw EInvalidArgument)
     else if fs_exists s p then fret (Throw EInvalidArgument) else fs_mkdirs p) s) in g).
Proof.
  intros L H s. unfold nsteps_create, nexists, fbind, fret. destruct b; cbn [negb run_nsteps]; [|apply nequal_refl].
  destruct (fs_exists s p); [apply nequal_refl|]. apply (does_mkdirs p L H).
Qed.
Lemma does_ext c g g' : does c g -> (forall s, nequal (g s) (g' s)) -> does c g'.
Proof. intros H E s. exact (nequal_trans (H s) (E s)). Qed.

Lemma does_v3_group T p k g : nlocal T all k -> does k g -> does (nsteps_v3_group p k) (do* _ <- write_v3_group p in g).
Proof.
  intros L H. unfold nsteps_v3_group.
  eapply does_ext; [apply does_read; intros o; apply does_lift; intros j; eapply does_write; eassumption|].
  intros s. unfold write_v3_group, fbind, freading, fret, read_doc_or. destruct (read_doc s p "zarr.json") as [o|e|]; cbn -[jput jfind]; try apply nequal_refl.
  set (j0 := match o with Some x => x | None => JNull end). change (match o with Some j => j | None => JNull end) with j0.
  destruct (jput "zarr_format" (JInt 3) j0) as [j1|e|]; cbn -[jput jfind]; try apply nequal_refl.
  destruct (jput "node_type" _ j1) as [j2|e|]; cbn -[jput jfind]; try apply nequal_refl.
  destruct (jfind "attributes" j2); [apply nequal_refl|]. destruct (jput _ _ j2); apply nequal_refl.
Qed.
Lemma does_file_metadata T p z fmt k g : nlocal T all k -> does k g ->
  does (nsteps_file_metadata p z fmt k) (do* _ <- write_file_metadata p z fmt in g).
Proof.
  intros L H. unfold nsteps_file_metadata, write_file_metadata. destruct (z && _); [eapply does_v3_group; eassumption|].
  destruct z; [eapply does_write; eassumption|].
  eapply does_ext; [apply does_read; intros o; apply does_lift; intros j; eapply does_write; eassumption|].
  intros s. unfold fbind, freading, fret, read_doc_or. destruct (read_doc s p _) as [o|e|]; cbn -[jput]; try apply nequal_refl.
  destruct (jput _ _ _); apply nequal_refl.
Qed.
Lemma does_group_metadata T p z fmt k g : nlocal T all k -> does k g ->
  does (nsteps_group_metadata p z fmt k) (do* _ <- write_group_metadata p z fmt in g).
Proof.
  intros L H. unfold nsteps_group_metadata, write_group_metadata. destruct (z && _); [eapply does_v3_group; eassumption|].
  destruct z; [eapply does_write; eassumption|exact H].
Qed.
Lemma does_dataset_metadata T p m k g : nlocal T all k -> does k g ->
  does (nsteps_dataset_metadata p m k) (do* _ <- write_dataset_metadata p m in g).
Proof.
  intros L H. unfold nsteps_dataset_metadata, write_dataset_metadata. destruct (md_zarr m && _).
  - eapply does_ext; [apply does_read; intros o; apply does_lift; intros j; eapply does_write; eassumption|].
    intros s. unfold fbind, freading, fret. destruct (read_doc s p _) as [o|e|]; cbn -[jput jfind to_json]; try apply nequal_refl.
    destruct (to_json m) as [j|e|]; cbn -[jput jfind]; try apply nequal_refl.
    destruct o as [x|]; [|apply nequal_refl]. destruct (jfind "attributes" x); [|apply nequal_refl]. destruct (jput _ _ j); apply nequal_refl.
  - eapply does_ext; [apply does_lift; intros j; eapply does_write; eassumption|].
    intros s. unfold fbind, fret. destruct (to_json m); apply nequal_refl.
Qed.

Lemma with_bind {A B} (f : B -> answer) (a : fact A) (b : A -> fact B) s :
  with_answer f ((do* x <- a in b x) s) = (do* x <- a in (fun s => with_answer f (b x s))) s.
Proof. unfold fbind, with_answer. destruct (a s) as [s' [x|e|]]; reflexivity. Qed.
Lemma does_create_dataset h ka m : does (nsteps_create_dataset h ka m) (fun s => with_answer Object (fs_create_dataset h ka m s)).
Proof.
  assert (F : forall T R, nlocal T R (nlift (make_dataset h ka m) (fun d => NRet (Ok (Object d))))) by (intros; apply nlocal_lift; constructor).
  assert (I : inside [h_path h] (h_path h)) by (exists (h_path h); split; [now left|apply below_refl]).
  eapply does_ext.
  - eapply does_create; [apply (nlocal_dataset_metadata m I (F _ all))|].
    eapply does_dataset_metadata; [apply (F [h_path h])|]. apply does_lift. intros d. apply does_ret.
  - intros s. unfold fs_create_dataset. rewrite with_bind. unfold node_create, fbind. destruct (is_mode_r _); cbn [negb]; [apply nequal_refl|].
    destruct (fs_exists s (h_path h)); [apply nequal_refl|]. destruct (fs_mkdirs (h_path h) s) as [s1 [[]|e|]]; try apply nequal_refl.
    unfold with_answer. destruct (write_dataset_metadata (h_path h) m s1) as [s2 [[]|e|]]; cbn; try apply nequal_refl.
    unfold fret. destruct (make_dataset h ka m); apply nequal_refl.
Qed.
Lemma keys_config s p : chunk_config s p =
  if fs_exists s (p ++ ["zarr.json"%string]) then bind (parse_doc s p "zarr.json") keys_v3
  else if fs_exists s (p ++ [".zarray"%string]) then bind (parse_doc s p ".zarray") keys_v2
  else Ok (KeyArgs "." 2 "default").
Proof. reflexivity. Qed.
Lemma run_chunk_config p k s : run_nsteps (nsteps_chunk_config p k) s =
  match chunk_config s p with Ok ka => run_nsteps (k ka) s | Throw e => (s, Throw e) | UB => (s, UB) end.
Proof.
  rewrite keys_config. unfold nsteps_chunk_config, nexists, nsteps_parse. cbn [run_nsteps].
  destruct (fs_exists s (p ++ ["zarr.json"%string])); cbn [run_nsteps].
  - destruct (parse_doc s p "zarr.json") as [j|e|]; cbn; try reflexivity. destruct (keys_v3 j); reflexivity.
  - destruct (fs_exists s (p ++ [".zarray"%string])); cbn [run_nsteps]; [|reflexivity].
    destruct (parse_doc s p ".zarray") as [j|e|]; cbn; try reflexivity. destruct (keys_v2 j); reflexivity.
Qed.
Lemma run_metadata p k s : run_nsteps (nsteps_metadata p k) s =
  match read_dataset_metadata s p with Ok m => run_nsteps (k m) s | Throw e => (s, Throw e) | UB => (s, UB) end.
Proof.
  unfold nsteps_metadata, nexists, nsteps_parse, read_dataset_metadata, metadata_doc. cbn [run_nsteps].
  destruct (_ && _); [reflexivity|]. destruct (_ && _); [reflexivity|]. cbn [bind run_nsteps].
  destruct (parse_doc s p _) as [j|e|]; cbn [bind nlift run_nsteps]; try reflexivity. destruct (from_json j _); reflexivity.
Qed.
Lemma run_open root key s : run_nsteps (nsteps_open_dataset root key) s = with_answer Object (s, open_dataset s root key).
Proof.
  unfold nsteps_open_dataset, open_dataset, nsteps_is_zarr, nexists, is_zarr_group. cbn [run_nsteps].
  destruct (fs_exists s (h_path root)); cbn [negb run_nsteps bind]; [|reflexivity].
  set (h := Handle (h_path root ++ key) (h_mode root)).
  assert (G : forall ka, run_nsteps (nexists (h_path h) (fun e =>
    if negb e then NRet (Throw ERuntime)
    else nsteps_metadata (h_path h) (fun m => nlift (make_dataset h ka m) (fun d => NRet (Ok (Object d)))))) s =
    with_answer Object (s, fs_open_dataset s h ka)).
  { intros ka. unfold nexists, fs_open_dataset. cbn [run_nsteps]. destruct (fs_exists s (h_path h)); cbn [negb run_nsteps]; [|reflexivity].
    rewrite run_metadata. destruct (read_dataset_metadata s (h_path h)) as [m|e|]; cbn [bind]; try reflexivity. destruct (make_dataset h ka m); reflexivity. }
  assert (K : run_nsteps (nsteps_chunk_config (h_path h) (fun ka => nexists (h_path h) (fun e =>
    if negb e then NRet (Throw ERuntime)
    else nsteps_metadata (h_path h) (fun m => nlift (make_dataset h ka m) (fun d => NRet (Ok (Object d))))))) s =
    with_answer Object (s, bind (chunk_config s (h_path root ++ key)) (fs_open_dataset s h))).
  { rewrite run_chunk_config. cbn [h h_path]. destruct (chunk_config s (h_path root ++ key)) as [ka|e|]; cbn [bind]; [apply G|reflexivity|reflexivity]. }
  destruct (fs_exists s (h_path root ++ [".zgroup"%string])); cbn [orb run_nsteps]; [exact K|].
  destruct (fs_exists s (h_path root ++ ["zarr.json"%string])); [exact K|apply G].
Qed.
Lemma run_of_acode c s : run_nsteps (of_acode c) s = with_answer Attrs (run_steps c s).
Proof.
  revert c s. fix IH 1. intros c s. destruct c as [o|f]; cbn [of_acode run_nsteps run_steps].
  - destruct o; reflexivity.
  - destruct (f s) as [s' c']. apply IH.
Qed.

Theorem nsteps_alone c : does (steps_of_ncall c) (ncall_alone c).
Proof.
  destruct c as [c|h z fmt|root key fmt|root key dn sh ch cn o fill delim fmt enc shard|root key m|root key|h|h|h key];
    cbn [steps_of_ncall].
  - intros s. cbn [ncall_alone]. rewrite run_of_acode. destruct (steps_alone c s) as [A B]. split; [exact A|]. unfold with_answer. cbn [snd]. now rewrite B.
  - assert (I : inside [h_path h] (h_path h)) by (exists (h_path h); split; [now left|apply below_refl]).
    eapply does_ext; [eapply does_create; [exact (nlocal_file_metadata z fmt I (nlocal_ret _ all _))|eapply does_file_metadata; [exact (nlocal_ret [h_path h] all _)|apply does_ret]]|].
    intros s0. cbn [ncall_alone]. unfold create_file. rewrite with_bind. unfold file_create, fbind. destruct (can_create _); cbn [negb]; [|apply nequal_refl].
    destruct (fs_exists s0 (h_path h)); [apply nequal_refl|]. destruct (fs_mkdirs (h_path h) s0) as [s1 [[]|e|]]; try apply nequal_refl.
    unfold with_answer. destruct (write_file_metadata (h_path h) z fmt s1) as [s2 [[]|e|]]; apply nequal_refl.
  - set (p := h_path root ++ key). assert (I : inside [p] p) by (exists p; split; [now left|apply below_refl]).
    eapply does_ext; [apply does_is_zarr; intros z; eapply does_create; [exact (nlocal_group_metadata z fmt I (nlocal_ret _ all _))|eapply does_group_metadata; [exact (nlocal_ret [p] all _)|apply does_ret]]|].
    intros s0. cbn [ncall_alone]. unfold create_group. rewrite with_bind. unfold fbind, freading. destruct (is_zarr_group s0 (h_path root)) as [z|e|]; try apply nequal_refl.
    unfold node_create. cbn [h_path h_mode]. fold p. destruct (is_mode_r _); cbn [negb]; [apply nequal_refl|].
    destruct (fs_exists s0 p); [apply nequal_refl|]. destruct (fs_mkdirs p s0) as [s1 [[]|e|]]; try apply nequal_refl.
    unfold with_answer. destruct (write_group_metadata p z fmt s1) as [s2 [[]|e|]]; apply nequal_refl.
  - eapply does_ext; [apply does_is_zarr; intros z; apply does_lift; intros m; apply does_create_dataset|].
    intros s0. cbn [ncall_alone]. unfold create_dataset. rewrite with_bind. unfold fbind, freading. destruct (is_zarr_group s0 (h_path root)) as [z|e|]; try apply nequal_refl.
    unfold fret. destruct (create_metadata dn sh ch z cn o fill delim fmt enc shard); apply nequal_refl.
  - apply does_create_dataset.
  - intros s. rewrite run_open. apply nequal_refl.
  - intros s. cbn [ncall_alone]. unfold nsteps_remove, nexists, node_remove, fret, fs_remove_all. destruct (can_write _); cbn [negb run_nsteps]; [|apply nequal_refl].
    destruct (fs_exists s (h_path h)); apply nequal_refl.
  - intros s. apply nequal_refl.
  - intros s. apply nequal_refl.
Qed.
