(** Interrupted calls on nodes. *)
From Coq Require Import ZArith String.
From Verif Require Import M_Base M_Double M_Json M_Mode M_Metadata M_Fs M_Attributes M_Container M_Pool M_AttrSteps M_NodeSteps
  S_Attributes S_AttrSteps S_Metadata S_Container S_NodeSteps P_Base P_Attributes P_Container P_Container2 P_AttrSteps P_NodeSteps P_NodeSteps2.
Import List ListNotations.
Local Open Scope list_scope.

(** *** What an interrupted call may have changed *)
Lemma ncrash_frame T R c : nlocal T R c -> forall s s', ncrash c s s' -> forall q,
  inside T q \/ s' q = s q \/ way T q /\ s q = None /\ s' q = Some NDir.
Proof.
  induction 1 as [o|f F1 F2 F3 IH]; intros s s' C q.
  - inversion C; subst. auto.
  - inversion C as [? ?|? ? ? C'|f' ? q0 j b E1 E2|f' ? ? E1 E2]; subst.
    + auto.
    + destruct (IH s _ _ C' q) as [H|[H|(H & E & E')]]; auto.
      * rewrite H. apply F2.
      * destruct (F2 s q) as [X|[X|(X & _ & X')]]; [auto| |congruence]. right. right. split; [exact H|]. split; congruence.
    + destruct (path_eqb q q0) eqn:Eq; [|auto]. apply path_eqb_eq in Eq. subst q0.
      destruct (F2 s q) as [X|[X|(_ & X & _)]]; [auto|congruence|congruence].
    + destruct (E1 q) as [H|[H H']]; [auto|]. destruct (F2 s q) as [X|[X|(_ & _ & X)]]; [auto| |congruence]. right. left. congruence.
Qed.

Lemma with_dirs {A} (f : A -> answer) r : fst (with_answer f r) = fst r.
Proof. reflexivity. Qed.

(** Directories stay. *)
Definition keeps_dirs {A} (g : fact A) : Prop := forall s q, s q = Some NDir -> fst (g s) q = Some NDir.
Lemma keeps_ret {A} (o : outcome A) : keeps_dirs (fret o).
Proof. intros s q H. exact H. Qed.
Lemma keeps_reading {A} (f : fsys -> outcome A) : keeps_dirs (freading f).
Proof. intros s q H. exact H. Qed.
Lemma keeps_bind {A B} (a : fact A) (b : A -> fact B) : keeps_dirs a -> (forall x, keeps_dirs (b x)) -> keeps_dirs (fbind a b).
Proof.
  intros H K s q D. unfold fbind. specialize (H s q D). destruct (a s) as [s' [x|e|]]; cbn [fst] in *; [now apply K|exact H|exact H].
Qed.
Lemma keeps_write p name j : keeps_dirs (write_doc p name j).
Proof.
  intros s q D. unfold write_doc. destruct (fs_isdir s p && negb (fs_isdir s (p ++ [name]))) eqn:E; cbn [fst]; [|exact D].
  destruct (path_eqb q (p ++ [name])) eqn:Eq; [|exact D]. apply path_eqb_eq in Eq. subst q.
  apply andb_true_iff in E. destruct E as [_ E]. unfold fs_isdir in E. now rewrite D in E.
Qed.
Ltac keeps := repeat first [apply keeps_write | apply keeps_ret | apply keeps_reading | apply keeps_bind; [|intros ?]].
Lemma keeps_v3_group p : keeps_dirs (write_v3_group p).
Proof. unfold write_v3_group. keeps. Qed.
Lemma keeps_file_metadata p z fmt : keeps_dirs (write_file_metadata p z fmt).
Proof. unfold write_file_metadata. destruct (z && _); [apply keeps_v3_group|]. destruct z; keeps. Qed.
Lemma keeps_group_metadata p z fmt : keeps_dirs (write_group_metadata p z fmt).
Proof. unfold write_group_metadata. destruct (z && _); [apply keeps_v3_group|]. destruct z; keeps. Qed.
Lemma keeps_dataset_metadata p m : keeps_dirs (write_dataset_metadata p m).
Proof. unfold write_dataset_metadata. destruct (md_zarr m && _); keeps. Qed.
Lemma mkdirs_dirs p s s' : fs_mkdirs p s = (s', Ok tt) -> forall q, below q p = true -> s' q = Some NDir.
Proof. unfold fs_mkdirs. destruct (existsb _ _); intros E; [discriminate|]. injection E as <-. intros q ->. reflexivity. Qed.
Lemma create_dataset_dirs h ka m s s' o : fs_create_dataset h ka m s = (s', Ok o) -> forall q, below q (h_path h) = true -> s' q = Some NDir.
Proof.
  unfold fs_create_dataset, fbind at 1, node_create. intros E q B. destruct (is_mode_r _); [discriminate|].
  destruct (fs_exists s (h_path h)); [discriminate|]. destruct (fs_mkdirs (h_path h) s) as [s1 [[]|e|]] eqn:M; try discriminate.
  pose proof (@mkdirs_dirs _ _ _ M q B) as D. unfold fbind in E. pose proof (@keeps_dataset_metadata (h_path h) m _ _ D) as D'.
  destruct (write_dataset_metadata (h_path h) m s1) as [s2 [[]|e|]]; try discriminate. unfold fret in E.
  assert (s' = s2) as -> by congruence. exact D'.
Qed.
Lemma made_dirs c p s : makes c = true -> works_on c = Some p -> is_ok (snd (ncall_alone c s)) = true ->
  forall q, below q p = true -> fst (ncall_alone c s) q = Some NDir.
Proof.
  intros M W O q B.
  destruct c as [c|h z fmt|root key fmt|root key dn sh ch cn o fill delim fmt enc shard|root key m|root key|h|h|h key];
    cbn [makes works_on ncall_alone] in *; try discriminate; injection W as <-.
  - revert O. rewrite with_dirs. unfold create_file, fbind, file_create. destruct (negb _); [discriminate|].
    destruct (fs_exists s (h_path h)); [discriminate|]. destruct (fs_mkdirs (h_path h) s) as [s1 [[]|e|]] eqn:Mk; try discriminate.
    intros _. exact (@keeps_file_metadata _ _ _ _ _ (@mkdirs_dirs _ _ _ Mk q B)).
  - revert O. rewrite with_dirs. unfold create_group, fbind, freading, node_create. cbn [h_path h_mode]. destruct (is_zarr_group s (h_path root)) as [z|e|]; try discriminate.
    destruct (is_mode_r _); [discriminate|].
    destruct (fs_exists s (h_path root ++ key)); [discriminate|]. destruct (fs_mkdirs (h_path root ++ key) s) as [s1 [[]|e|]] eqn:Mk; try discriminate.
    intros _. exact (@keeps_group_metadata _ _ _ _ _ (@mkdirs_dirs _ _ _ Mk q B)).
  - revert O. rewrite with_dirs. unfold with_answer, create_dataset, fbind, freading, fret. destruct (is_zarr_group s (h_path root)) as [z|e|]; try discriminate.
    destruct (create_metadata _ _ _ _ _ _ _ _ _ _ _) as [m|e|]; try discriminate.
    destruct (fs_create_dataset _ _ m s) as [s1 [x|e|]] eqn:E; try discriminate. intros _. exact (@create_dataset_dirs _ _ _ _ _ _ E q B).
  - revert O. rewrite with_dirs. unfold with_answer, create_dataset_md.
    destruct (fs_create_dataset _ _ m s) as [s1 [x|e|]] eqn:E; try discriminate. intros _. exact (@create_dataset_dirs _ _ _ _ _ _ E q B).
Qed.

(** *** The steps of creation *)
Lemma crash_same_mild c s s' : ncrash c s s' -> (forall f, c = NAct f -> fst (f s) = s) ->
  s' = s \/ (exists f, c = NAct f /\ ncrash (snd (f s)) s s') \/ same s' s.
Proof.
  intros C H. inversion C as [? ?|f ? ? C'|f ? q0 j b E1 E2|f ? ? E1 E2]; subst; [now left| | |].
  - specialize (H _ eq_refl). rewrite H in C'. right. left. eauto.
  - specialize (H _ eq_refl). rewrite H in E2. congruence.
  - specialize (H _ eq_refl). right. right. intros q. destruct (E1 q) as [E|[E E']]; [exact E|]. rewrite H in E'. congruence.
Qed.
Lemma crash_look f s s' : (forall s, fst (f s) = s) -> ncrash (NAct f) s s' -> same s' s \/ ncrash (snd (f s)) s s'.
Proof.
  intros H C. destruct (crash_same_mild C) as [->|[(f' & E & C')|E]].
  - intros f' E. injection E as <-. apply H.
  - left. intros q. reflexivity.
  - injection E as <-. now right.
  - now left.
Qed.
Lemma crash_exists q k s s' : ncrash (nexists q k) s s' -> same s' s \/ ncrash (k (fs_exists s q)) s s'.
Proof. intros C. unfold nexists in C. apply crash_look in C; [exact C|reflexivity]. Qed.
Lemma crash_ret o s s' : ncrash (NRet o) s s' -> s' = s.
Proof. intros C. inversion C. reflexivity. Qed.
Lemma crash_lift {A} (o : outcome A) k s s' : ncrash (nlift o k) s s' -> same s' s \/ exists a, o = Ok a /\ ncrash (k a) s s'.
Proof.
  destruct o as [a|e|]; cbn [nlift]; intros C; [right; eauto| |]; left; rewrite (crash_ret C); intros q; reflexivity.
Qed.
Lemma crash_is_zarr p k s s' : ncrash (nsteps_is_zarr p k) s s' -> same s' s \/ exists z, is_zarr_group s p = Ok z /\ ncrash (k z) s s'.
Proof.
  unfold nsteps_is_zarr, is_zarr_group. intros C. apply crash_exists in C. destruct C as [C|C]; [now left|].
  destruct (fs_exists s p); cbn [negb] in *; [|left; rewrite (crash_ret C); intros q; reflexivity].
  apply crash_exists in C. destruct C as [C|C]; [now left|]. destruct (fs_exists s (p ++ [".zgroup"%string])); cbn [orb]; [right; eauto|].
  apply crash_exists in C. destruct C as [C|C]; [now left|]. right. eauto.
Qed.
Lemma crash_read p name k s s' : ncrash (nsteps_read p name k) s s' ->
  same s' s \/ exists o, read_doc s p name = Ok o /\ ncrash (k o) s s'.
Proof.
  unfold nsteps_read, read_doc. intros C. apply crash_exists in C. destruct C as [C|C]; [now left|].
  unfold fs_exists in C. destruct (s (p ++ [name])) as [n|] eqn:E; cbn [negb] in C; [|right; eauto].
  apply crash_look in C; [|reflexivity]. destruct C as [C|C]; [now left|]. cbn [snd] in C. rewrite E in C.
  destruct n as [|j|b]; [left; rewrite (crash_ret C); intros q; reflexivity|right; eauto|left; rewrite (crash_ret C); intros q; reflexivity].
Qed.

(** Directories on the way. *)
Definition mild (p : path) (s s' : fsys) : Prop := forall q, s' q = s q \/ below q p = true /\ s q = None /\ s' q = Some NDir.
Lemma mild_same p s s' : same s' s -> mild p s s'.
Proof. intros H q. left. apply H. Qed.
Lemma mild_trans p s s1 s' : mild p s s1 -> mild p s1 s' -> mild p s s'.
Proof.
  intros A B q. destruct (A q) as [E|(W & E & E')], (B q) as [F|(W' & F & F')].
  - left. congruence.
  - right. rewrite E in F. auto.
  - right. rewrite E' in F. auto.
  - congruence.
Qed.
Lemma crash_look_dirs l k s s' : ncrash (nsteps_look l k) s s' -> same s' s \/ ncrash k s s'.
Proof.
  induction l as [|q l IH]; cbn [nsteps_look]; [now right|]. intros C. apply crash_look in C; [|reflexivity].
  destruct C as [C|C]; [now left|]. cbn [snd] in C. destruct (_ && _); [left; rewrite (crash_ret C); intros x; reflexivity|auto].
Qed.
Lemma crash_make p l k : (forall q, In q l -> below q p = true) -> forall s s', ncrash (nsteps_make l k) s s' ->
  mild p s s' \/ exists s1, mild p s s1 /\ (forall q, In q l -> s1 q = Some NDir) /\ ncrash k s1 s'.
Proof.
  induction l as [|q l IH]; intros B s s' C; cbn [nsteps_make] in C.
  - right. exists s. split; [apply mild_same; intros x; reflexivity|]. split; [intros x []|exact C].
  - assert (B' : forall x, In x l -> below x p = true) by (intros x Hx; apply B; now right).
    assert (Dir : forall s1 x, mild p s s1 -> s x = Some NDir -> s1 x = Some NDir).
    { intros s1 x M E. destruct (M x) as [F|(_ & F & _)]; congruence. }
    set (s0 := fun x => if path_eqb x q then Some NDir else s x).
    destruct (s q) as [n|] eqn:Eq.
    + assert (Z : same s' s \/ n = NDir /\ ncrash (nsteps_make l k) s s').
      { inversion C as [? ?|f ? ? C'|f ? q0 j b E1 E2|f ? ? E1 E2]; subst.
        - left. intros x. reflexivity.
        - rewrite Eq in C'. destruct n; cbn [fst snd] in C'; [right; auto| |]; left; rewrite (crash_ret C'); intros x; reflexivity.
        - rewrite Eq in E2. destruct n; cbn [fst] in E2; congruence.
        - left. intros x. destruct (E1 x) as [E|[E E']]; [exact E|]. rewrite Eq in E'. destruct n; cbn [fst] in E'; congruence. }
      destruct Z as [Z|[-> Z]]; [left; now apply mild_same|]. destruct (IH B' _ _ Z) as [M|(s1 & M & D & K)]; [now left|].
      right. exists s1. split; [exact M|]. split; [|exact K]. intros x [<-|Hx]; [eapply Dir; eauto|auto].
    + assert (M0 : mild p s s0).
      { intros x. unfold s0. destruct (path_eqb x q) eqn:Ex; [|now left]. apply path_eqb_eq in Ex. subst x. right. split; [apply B; now left|auto]. }
      assert (Z : same s' s \/ ncrash (nsteps_make l k) s0 s').
      { inversion C as [? ?|f ? ? C'|f ? q0 j b E1 E2|f ? ? E1 E2]; subst.
        - left. intros x. reflexivity.
        - rewrite Eq in C'. right. exact C'.
        - rewrite Eq in E2. cbn [fst] in E2. destruct (path_eqb q0 q); congruence.
        - left. intros x. destruct (E1 x) as [E|[E E']]; [exact E|]. rewrite Eq in E'. cbn [fst] in E'. destruct (path_eqb x q); congruence. }
      destruct Z as [Z|Z]; [left; now apply mild_same|]. destruct (IH B' _ _ Z) as [M|(s1 & M & D & K)]; [left; eapply mild_trans; eassumption|].
      right. exists s1. split; [eapply mild_trans; eassumption|]. split; [|exact K]. intros x [<-|Hx]; [|auto].
      destruct (M q) as [F|(_ & F & _)]; unfold s0 in F; rewrite path_eqb_refl in F; congruence.
Qed.
Lemma crash_create b p k s s' : ncrash (nsteps_create b p k) s s' ->
  mild p s s' \/ exists s1, s p = None /\ mild p s s1 /\ (forall q, below q p = true -> s1 q = Some NDir) /\ ncrash k s1 s'.
Proof.
  unfold nsteps_create. destruct b; cbn [negb]; intros C; [|left; rewrite (crash_ret C); apply mild_same; intros q; reflexivity].
  apply crash_exists in C. destruct C as [C|C]; [left; now apply mild_same|].
  unfold fs_exists in C. destruct (s p) eqn:E; [left; rewrite (crash_ret C); apply mild_same; intros q; reflexivity|].
  unfold nsteps_mkdirs in C. apply crash_look_dirs in C. destruct C as [C|C]; [left; now apply mild_same|].
  destruct (crash_make (p := p) (fun q H => proj1 (prefixes_below p q) H) C) as [M|(s1 & M & D & K)]; [now left|].
  right. exists s1. split; [first [exact E|reflexivity]|]. split; [exact M|]. split; [|exact K]. intros q B. apply D. now apply prefixes_below.
Qed.

(** The step that writes a document. *)
Lemma crash_write p name j k s s' : ncrash (nsteps_write p name j k) s s' ->
  same s' s \/
  fs_isdir s p && negb (fs_isdir s (p ++ [name])) = true /\ (exists b, forall q, s' q = if path_eqb q (p ++ [name]) then Some (NBlob b) else s q) \/
  exists s1, same s1 (fst (write_doc p name j s)) /\ ncrash k s1 s'.
Proof.
  unfold nsteps_write, write_doc. intros C.
  destruct (fs_isdir s p && negb (fs_isdir s (p ++ [name]))) eqn:G.
  - set (s0 := fun q => if path_eqb q (p ++ [name]) then Some (NBlob []) else s q).
    assert (Z : same s' s \/ ncrash (NAct (fun s => ((fun q => if path_eqb q (p ++ [name]) then Some (NDoc (reparse j)) else s q), k))) s0 s').
    { inversion C as [? ?|f ? ? C'|f ? q0 j0 b E1 E2|f ? ? E1 E2]; subst.
      - left. intros q. reflexivity.
      - rewrite G in C'. now right.
      - rewrite G in E2. cbn [fst] in E2. destruct (path_eqb q0 _); congruence.
      - left. intros q. destruct (E1 q) as [E|[E E']]; [exact E|]. rewrite G in E'. cbn [fst] in E'. destruct (path_eqb q _); congruence. }
    destruct Z as [Z|Z]; [now left|]. right.
    inversion Z as [? ?|f ? ? C'|f ? q0 j0 b E1 E2|f ? ? E1 E2]; subst.
    + left. split; [reflexivity|]. exists []. reflexivity.
    + right. cbn [fst snd] in C'. eexists. split; [|exact C']. intros q. unfold s0. cbn [fst]. destruct (path_eqb q _); reflexivity.
    + left. split; [reflexivity|]. exists b. intros q. unfold s0 in *. cbn [fst] in E2. destruct (path_eqb q0 (p ++ [name])) eqn:E0.
      * apply path_eqb_eq in E0. subst q0. destruct (path_eqb q (p ++ [name])); reflexivity.
      * congruence.
    + left. split; [reflexivity|]. exists []. intros q. destruct (E1 q) as [E|[E E']]; [exact E|]. cbn [fst] in E'. unfold s0 in *.
      destruct (path_eqb q _); congruence.
  - apply crash_same_mild in C.
    + destruct C as [->|[(f & E & C)|E]]; [left; intros q; reflexivity| |now left].
      injection E as <-. rewrite G in C. cbn [snd] in C. right. right. exists s. split; [intros q; reflexivity|exact C].
    + intros f E. injection E as <-. now rewrite G.
Qed.
(** Code that keeps directories and only changes what is below [p]. *)
Definition firm (k : ncode) : Prop := forall s s' q, s q = Some NDir -> ncrash k s s' -> s' q = Some NDir.
Lemma firm_ret o : firm (NRet o).
Proof. intros s s' q H C. now rewrite (crash_ret C). Qed.
Lemma firm_lift {A} (o : outcome A) k : (forall a, firm (k a)) -> firm (nlift o k).
Proof. intros H s s' q D C. apply crash_lift in C. destruct C as [C|(a & _ & C)]; [now rewrite (C q)|]. exact (H a s s' q D C). Qed.
Lemma firm_read p name k : (forall o, firm (k o)) -> firm (nsteps_read p name k).
Proof. intros H s s' q D C. apply crash_read in C. destruct C as [C|(a & _ & C)]; [now rewrite (C q)|]. exact (H a s s' q D C). Qed.
Lemma firm_write p name j k : firm k -> firm (nsteps_write p name j k).
Proof.
  intros H s s' q D C. apply crash_write in C. destruct C as [C|[(G & b & C)|(s1 & S & C)]].
  - now rewrite (C q).
  - rewrite C. destruct (path_eqb q (p ++ [name])) eqn:E; [|exact D]. apply path_eqb_eq in E. subst q. apply andb_true_iff in G.
    destruct G as [_ G]. unfold fs_isdir in G. now rewrite D in G.
  - refine (H _ _ _ _ C). rewrite (S q). now apply keeps_write.
Qed.
Ltac firm := repeat first [apply firm_ret | apply firm_write | apply firm_lift; intros ? | apply firm_read; intros ?].
Lemma firm_v3_group p k : firm k -> firm (nsteps_v3_group p k).
Proof. intros H. unfold nsteps_v3_group. firm. exact H. Qed.
Lemma firm_file_metadata p z fmt k : firm k -> firm (nsteps_file_metadata p z fmt k).
Proof. intros H. unfold nsteps_file_metadata. destruct (z && _); [now apply firm_v3_group|]. destruct z; firm; exact H. Qed.
Lemma firm_group_metadata p z fmt k : firm k -> firm (nsteps_group_metadata p z fmt k).
Proof. intros H. unfold nsteps_group_metadata. destruct (z && _); [now apply firm_v3_group|]. destruct z; firm; exact H. Qed.
Lemma firm_dataset_metadata p m k : firm k -> firm (nsteps_dataset_metadata p m k).
Proof. intros H. unfold nsteps_dataset_metadata. destruct (md_zarr m && _); firm; exact H. Qed.

(** An interrupted creation: either only directories on the way were made, or the node is there. *)
Lemma crash_makes c p s s' : makes c = true -> works_on c = Some p -> ncrash (steps_of_ncall c) s s' ->
  mild p s s' \/ s p = None /\ s' p = Some NDir.
Proof.
  intros M W C.
  assert (G : forall b k s s', firm k -> ncrash (nsteps_create b p k) s s' -> mild p s s' \/ s p = None /\ s' p = Some NDir).
  { clear. intros b k s s' F C. apply crash_create in C. destruct C as [C|(s1 & E & _ & D & C)]; [now left|].
    right. split; [exact E|]. refine (F _ _ _ _ C). apply D. apply below_refl. }
  destruct c as [c|h z fmt|root key fmt|root key dn sh ch cn o fill delim fmt enc shard|root key m|root key|h|h|h key];
    cbn [makes works_on steps_of_ncall] in *; try discriminate; injection W as <-.
  - eapply G; [|exact C]. apply firm_file_metadata, firm_ret.
  - apply crash_is_zarr in C. destruct C as [C|(z & _ & C)]; [left; now apply mild_same|].
    eapply G; [|exact C]. apply firm_group_metadata, firm_ret.
  - apply crash_is_zarr in C. destruct C as [C|(z & _ & C)]; [left; now apply mild_same|].
    apply crash_lift in C. destruct C as [C|(m & _ & C)]; [left; now apply mild_same|].
    eapply G; [|exact C]. apply firm_dataset_metadata. apply firm_lift. intros d. apply firm_ret.
  - eapply G; [|exact C]. apply firm_dataset_metadata. apply firm_lift. intros d. apply firm_ret.
Qed.

(** *** Repeating *)
Lemma nrun_point T R c : nlocal T R c -> forall s s', agreed T R s s' -> forall q, s q = s' q ->
  fst (run_nsteps c s) q = fst (run_nsteps c s') q.
Proof.
  induction 1 as [o|f F1 F2 F3 IH]; intros s s' A q E; cbn [run_nsteps]; [exact E|].
  destruct (F1 s s' A) as (E' & A' & P). specialize (IH s (fst (f s)) (fst (f s')) A' q (P q E)).
  destruct (f s) as [s1 c1], (f s') as [s2 c2]. cbn [fst snd] in *. subst c2. exact IH.
Qed.
Lemma inside_one p q : inside [p] q <-> below p q = true.
Proof. split; [intros (x & [<-|[]] & B); exact B|intros B; exists p; split; [now left|exact B]]. Qed.
Lemma way_one p q : way [p] q <-> below q p = true.
Proof. split; [intros (x & [<-|[]] & B); exact B|intros B; exists p; split; [now left|exact B]]. Qed.

Theorem making_frame c p s s' : works_on c = Some p -> ncrash (steps_of_ncall c) s s' ->
  forall q, below p q = true \/ s' q = s q \/ below q p = true /\ s q = None /\ s' q = Some NDir.
Proof.
  intros on crash q. rewrite <- inside_one, <- way_one. refine (ncrash_frame (R := all) _ crash q).
  apply nlocal_call.
  - intros x E. rewrite on in E. injection E as <-. exists p. split; [now left|apply below_refl].
  - intros r _. right. auto.
Qed.

Theorem making_repeat c p s s' m : makes c = true -> works_on c = Some p -> fs_ok s -> s p = None ->
  (forall r, In r (looks_at c) -> s r = Some NDir /\ forall d, In d documents -> below (r ++ [d]) p = false) ->
  ncrash (steps_of_ncall c) s s' -> can_write m = true ->
  snd (ncall_alone c (cleared m p s')) = snd (ncall_alone c s) /\
  (is_ok (snd (ncall_alone c s)) = true -> same (fst (ncall_alone c (cleared m p s'))) (fst (ncall_alone c s))).
Proof.
  intros mk on tree new roots crash W.
  assert (No : forall q, below p q = true -> s q = None) by (intros q B; exact (fs_ok_absent tree new B)).
  assert (F : forall q, cleared m p s' q = if below p q then None else s' q).
  { intros q. unfold cleared, node_remove, fs_exists. cbn [h_path h_mode]. destruct (crash_makes mk on crash) as [M|[_ D]].
    - destruct (s' p) as [n|] eqn:E.
      + rewrite W. cbn [negb]. unfold fs_remove_all, fs_exists. rewrite ?E. reflexivity.
      + destruct (below p q) eqn:B; [|reflexivity]. destruct (M q) as [X|(X & _ & Y)]; [rewrite X; auto|].
        assert (q = p) by (apply below_antisym; assumption). subst q. congruence.
    - rewrite D. rewrite W. cbn [negb]. unfold fs_remove_all, fs_exists. rewrite ?D. reflexivity. }
  set (R := fun q => exists r, In r (looks_at c) /\ (q = r \/ exists d, In d documents /\ q = r ++ [d])).
  assert (L : nlocal [p] R (steps_of_ncall c)).
  { apply nlocal_call.
    - intros q E. rewrite on in E. injection E as <-. exists p. split; [now left|apply below_refl].
    - intros r I. right. split; [exists r; auto|]. intros d Hd. exists r. split; [exact I|right; eauto]. }
  assert (K : forall q, cleared m p s' q = s q \/ below q p = true /\ s q = None /\ cleared m p s' q = Some NDir).
  { intros q. rewrite F. destruct (below p q) eqn:B; [left; now rewrite No|].
    destruct (making_frame on crash q) as [X|[X|X]]; [congruence|auto|auto]. }
  assert (A : agreed [p] R s (cleared m p s')).
  { split; intros q Hq.
    - destruct Hq as [I|(r & I & E)].
      + apply inside_one in I. now rewrite F, I, No.
      + destruct (roots r I) as [D N]. destruct (K q) as [X|(B & X & Y)]; [now symmetry|].
        destruct E as [->|(d & Hd & ->)]; [congruence|]. rewrite (N d Hd) in B. discriminate.
    - destruct (K q) as [X|(B & X & Y)]; auto. }
  destruct (nrun_agreed L A) as [Es _]. destruct (nsteps_alone c s) as [A1 A2], (nsteps_alone c (cleared m p s')) as [B1 B2].
  assert (Eo : snd (ncall_alone c (cleared m p s')) = snd (ncall_alone c s)) by congruence.
  split; [exact Eo|]. intros O q. destruct (below q p) eqn:B.
  - rewrite !(made_dirs mk on) by (rewrite ?Eo; assumption). reflexivity.
  - rewrite <- A1, <- B1. symmetry. apply (nrun_point L A). symmetry. destruct (K q) as [X|(X & _)]; [exact X|congruence].
Qed.

(** *** Interrupted creation of a dataset *)
Lemma open_fails s root key : is_ok (read_dataset_metadata s (h_path root ++ key)) = false -> is_ok (open_dataset s root key) = false.
Proof.
  intros H. unfold open_dataset, fs_open_dataset. destruct (is_zarr_group s (h_path root)) as [z|e|]; cbn [bind]; try reflexivity.
  assert (G : forall ka, is_ok (if negb (fs_exists s (h_path root ++ key)) then Throw ERuntime else
     let! m := read_dataset_metadata s (h_path root ++ key) in make_dataset (Handle (h_path root ++ key) (h_mode root)) ka m) = false).
  { intros ka. destruct (negb _); [reflexivity|]. destruct (read_dataset_metadata s _); [discriminate|reflexivity|reflexivity]. }
  cbn [h_path]. destruct z; [|apply G]. destruct (chunk_config s _); cbn [bind]; [apply G|reflexivity|reflexivity].
Qed.
Lemma no_metadata s p : (forall d, In d documents -> s (p ++ [d]) = None) -> is_ok (read_dataset_metadata s p) = false.
Proof.
  intros H. unfold read_dataset_metadata, metadata_doc, fs_exists. rewrite !H by (cbn; auto 10). reflexivity.
Qed.
Lemma torn_metadata s p name b : In name [".zarray"; "zarr.json"; "attributes.json"]%string ->
  (forall d, In d documents -> s (p ++ [d]) = if String.eqb d name then Some (NBlob b) else None) ->
  is_ok (read_dataset_metadata s p) = false.
Proof.
  intros I H. unfold read_dataset_metadata, metadata_doc, fs_exists, parse_doc. rewrite !H by (cbn; auto 10).
  cbn in I. destruct I as [<-|[<-|[<-|[]]]]; cbn; rewrite H by (cbn; auto 10); reflexivity.
Qed.
Lemma crash_create_dataset h ka m s s' root key : h_path h = h_path root ++ key -> fs_ok s -> s (h_path h) = None ->
  ncrash (nsteps_create_dataset h ka m) s s' ->
  is_ok (open_dataset s' root key) = false \/ same s' (fst (fs_create_dataset h ka m s)).
Proof.
  intros Ep F N C. set (p := h_path h) in *. unfold nsteps_create_dataset in C. fold p in C.
  assert (No : forall q, below p q = true -> s q = None) by (intros q B; exact (fs_ok_absent F N B)).
  assert (Doc : forall s1, mild p s s1 -> forall d, s1 (p ++ [d]) = None).
  { intros s1 M d. destruct (M (p ++ [d])) as [E|(B & _)]; [rewrite E; apply No, below_app|]. rewrite below_doc in B. discriminate. }
  assert (Empty : forall s1, (forall d, s1 (p ++ [d]) = None) -> is_ok (open_dataset s1 root key) = false).
  { intros s1 D. apply open_fails. rewrite <- Ep. apply no_metadata. auto. }
  assert (Al : negb (is_mode_r (h_mode h)) = false \/ is_mode_r (h_mode h) = false) by (destruct (is_mode_r _); auto).
  destruct Al as [Al|Al].
  { rewrite Al in C. cbn [nsteps_create negb] in C. rewrite (crash_ret C). left. apply Empty. intros d. apply No, below_app. }
  apply crash_create in C. destruct C as [M|(s1 & _ & M & D & C)]; [left; apply Empty; now apply Doc|].
  pose proof (Doc s1 M) as D1.
  assert (S1 : fs_mkdirs p s = ((fun q => if below q p then Some NDir else s q), Ok tt)).
  { unfold fs_mkdirs. destruct (existsb _ (prefixes p)) eqn:X; [|reflexivity]. exfalso. apply existsb_exists in X.
    destruct X as (q & I & E). apply prefixes_below in I. pose proof (D q I) as Dq. unfold fs_exists, fs_isdir in E.
    destruct (M q) as [E1|(_ & E1 & _)]; [rewrite <- E1, Dq in E|rewrite E1 in E]; discriminate. }
  set (s1' := fun q => if below q p then Some NDir else s q) in *.
  assert (SS : same s1 s1').
  { intros q. unfold s1'. destruct (below q p) eqn:B; [now apply D|]. destruct (M q) as [E|(B' & _)]; [exact E|congruence]. }
  assert (EX : fs_exists s p = false) by (unfold fs_exists; now rewrite N).
  assert (Run : fst (fs_create_dataset h ka m s) = fst (write_dataset_metadata p m s1')).
  { unfold fs_create_dataset, fbind, node_create. fold p. rewrite Al, EX, S1. destruct (write_dataset_metadata p m s1') as [s2 [[]|e|]]; reflexivity. }
  rewrite Run.
  (* the write of the document *)
  assert (Wr : forall name j, In name [".zarray"; "zarr.json"; "attributes.json"]%string ->
    ncrash (nsteps_write p name j (nlift (make_dataset h ka m) (fun d => NRet (Ok (Object d))))) s1 s' ->
    is_ok (open_dataset s' root key) = false \/ same s' (fst (write_doc p name j s1'))).
  { intros name j I Cw. apply crash_write in Cw. destruct Cw as [E|[(_ & b & E)|(s2 & E & Ce)]].
    - left. apply Empty. intros d. now rewrite (E (p ++ [d])).
    - left. apply open_fails. rewrite <- Ep. apply (torn_metadata (name := name) (b := b)); [exact I|].
      intros d _. rewrite E, D1. destruct (String.eqb_spec d name) as [->|Nd]; [now rewrite path_eqb_refl|].
      rewrite path_eqb_ne; [reflexivity|]. intros X. apply app_inj_tail in X. destruct X as [_ X]. congruence.
    - right. assert (s' = s2) as -> by (destruct (make_dataset h ka m); cbn [nlift] in Ce; exact (crash_ret Ce)).
      intros q. rewrite (E q). unfold write_doc, fs_isdir. rewrite (SS p), (SS (p ++ [name])).
      destruct (_ && _); cbn [fst]; [destruct (path_eqb q _); [reflexivity|]|]; apply SS. }
  unfold nsteps_dataset_metadata in C. unfold write_dataset_metadata, read_doc.
  assert (Z : s1' (p ++ ["zarr.json"%string]) = None) by now rewrite <- (SS _).
  destruct (md_zarr m && (md_format m =? 3)%Z).
  - apply crash_read in C. destruct C as [E|(o & Eo & C)]; [left; apply Empty; intros d; now rewrite (E (p ++ [d]))|].
    unfold read_doc in Eo. rewrite D1 in Eo. injection Eo as <-.
    apply crash_lift in C. destruct C as [E|(j & Ej & C)]; [left; apply Empty; intros d; now rewrite (E (p ++ [d]))|].
    unfold fbind, freading, fret. rewrite Z.
    destruct (to_json m) as [j0|e|]; try discriminate. injection Ej as <-. apply Wr; [cbn; auto|exact C].
  - apply crash_lift in C. destruct C as [E|(j & Ej & C)]; [left; apply Empty; intros d; now rewrite (E (p ++ [d]))|].
    unfold fbind, fret. rewrite Ej. apply Wr; [|exact C]. destruct (md_zarr m); cbn; auto.
Qed.

Theorem making_dataset c p s s' root key :
  makes_dataset c = true ->
  works_on c = Some p -> p = h_path root ++ key -> fs_ok s -> s p = None -> ncrash (steps_of_ncall c) s s' ->
  is_ok (open_dataset s' root key) = false \/ same s' (fst (ncall_alone c s)).
Proof.
  intros K on Ep F N C.
  assert (Empty : same s' s -> is_ok (open_dataset s' root key) = false).
  { intros E. apply open_fails. rewrite <- Ep. apply no_metadata. intros d _. rewrite (E _). apply (fs_ok_absent F N), below_app. }
  destruct c as [c|h z fmt|root' key' fmt|root' key' dn sh ch cn o fill delim fmt enc shard|root' key' m|root' key'|h|h|h key'];
    cbn [makes_dataset works_on steps_of_ncall ncall_alone] in *; try discriminate; injection on as on.
  - apply crash_is_zarr in C. destruct C as [C|(z & Ez & C)]; [now left; apply Empty|].
    apply crash_lift in C. destruct C as [C|(m & Em & C)]; [now left; apply Empty|].
    rewrite with_dirs. unfold create_dataset, fbind, freading, fret. rewrite Ez, Em.
    apply (crash_create_dataset (h := Handle (h_path root' ++ key') (h_mode root')) (root := root) (key := key)) in C; cbn [h_path] in *; [|congruence|exact F|congruence].
    destruct C as [C|C]; [now left|right]. destruct (fs_create_dataset _ _ m s) as [s2 [x|e|]]; exact C.
  - rewrite with_dirs. unfold create_dataset_md.
    apply (crash_create_dataset (h := Handle (h_path root' ++ key') (h_mode root')) (root := root) (key := key)) in C; cbn [h_path] in *; [|congruence|exact F|congruence].
    exact C.
Qed.

(** *** Interrupted removal *)
Theorem removing h s s' : fs_ok s -> h_path h <> [] -> can_write (h_mode h) = true -> s (h_path h) <> None ->
  ncrash (steps_of_ncall (DoRemove h)) s s' ->
  (forall q, below (h_path h) q = false -> s' q = s q) /\
  (forall q, s' q = s q \/ s' q = None) /\
  fs_ok s' /\
  (s' (h_path h) = None -> same s' (fst (node_remove h s))) /\
  (s' (h_path h) <> None -> snd (node_remove h s') = Ok tt /\ same (fst (node_remove h s')) (fst (node_remove h s))).
Proof.
  intros F Np W N C. set (p := h_path h) in *.
  assert (Rem : node_remove h s = ((fun q => if below p q then None else s q), Ok tt)).
  { unfold node_remove, fs_remove_all, fs_exists. fold p. rewrite W. cbn [negb]. destruct (s p); [reflexivity|congruence]. }
  assert (X : (forall q, s' q = s q \/ s' q = None /\ below p q = true) /\
              (forall q r, s q <> None -> s' q = None -> below q r = true -> s' r = None)).
  { assert (Same : same s' s -> (forall q, s' q = s q \/ s' q = None /\ below p q = true) /\
              (forall q r, s q <> None -> s' q = None -> below q r = true -> s' r = None)).
    { intros E. split; [intros q; left; apply E|]. intros q r Hq Hq'. rewrite (E q) in Hq'. congruence. }
    cbn [steps_of_ncall] in C. unfold nsteps_remove in C. fold p in C. rewrite W in C. cbn [negb] in C.
    apply crash_exists in C. destruct C as [C|C]; [auto|]. unfold fs_exists in C. destruct (s p) eqn:Ep; [|congruence].
    cbn [negb] in C.
    assert (Done : s' = (fun q => if below p q then None else s q) -> (forall q, s' q = s q \/ s' q = None /\ below p q = true) /\
              (forall q r, s q <> None -> s' q = None -> below q r = true -> s' r = None)).
    { intros ->. split; [intros q; destruct (below p q); auto|]. intros q r Hq Hq' B. destruct (below p q) eqn:Bq; [|congruence].
      now rewrite (below_trans Bq B). }
    inversion C as [? ?|f0 ? ? C'|f0 ? q0 j b E1 E2|f0 ? ? E1 E2]; subst.
    - apply Same. intros q. reflexivity.
    - cbn [fst snd] in C'. apply Done. exact (crash_ret C').
    - cbn [fst] in E2. destruct (below p q0); congruence.
    - split; [|exact E2]. intros q. destruct (E1 q) as [E|[E E']]; [now left|]. cbn [fst] in E'. destruct (below p q); [now right|].
      left. congruence. }
  destruct X as [X1 X2].
  assert (O : forall q, below p q = false -> s' q = s q) by (intros q B; destruct (X1 q) as [E|[_ E]]; congruence).
  split; [exact O|]. split; [intros q; destruct (X1 q) as [E|[E _]]; auto|]. split; [|split].
  - split.
    + rewrite O; [apply F|]. destruct p; [congruence|reflexivity].
    + intros q a H. assert (D : s q = Some NDir).
      { apply (proj2 F q a). destruct (X1 (q ++ [a])) as [E|[E _]]; congruence. }
      destruct (X1 q) as [E|[E _]]; [congruence|]. exfalso. apply H. apply (X2 q); [congruence|exact E|apply below_app].
  - intros E q. rewrite Rem. cbn [fst]. destruct (below p q) eqn:B; [exact (X2 p q N E B)|now apply O].
  - intros E.
    assert (Rem' : node_remove h s' = ((fun q => if below p q then None else s' q), Ok tt)).
    { unfold node_remove, fs_remove_all, fs_exists. fold p. rewrite W. cbn [negb]. destruct (s' p); [reflexivity|congruence]. }
    rewrite Rem', Rem. split; [reflexivity|]. intros q. cbn [fst]. destruct (below p q) eqn:B; [reflexivity|now apply O].
Qed.

(** *** Clients that create and open a dataset each *)
Theorem clients_create_open s own calls y t root key dn sh ch cn op fill delim fmt enc shard s' o z :
  apart s own calls -> reach nclients_step (nclients_init s calls) y -> nclients_done y ->
  nth_error calls t = Some [DoDataset root key dn sh ch cn op fill delim fmt enc shard; DoOpen root key] ->
  fs_ok s -> key_free key -> options_ok op -> dbl_ok fill ->
  is_zarr_group s (h_path root) = Ok z -> (z = true -> fmt = 2%Z \/ fmt = 3%Z) ->
  create_dataset root key dn sh ch cn op fill delim fmt enc shard s = (s', Ok o) ->
  recordable_codec z fmt (op_codec o) -> recordable_fill z (op_dtype o) (op_fill o) ->
  exists o', same_object o o' /\
    own_nlog t (nc_log y) = [(DoDataset root key dn sh ch cn op fill delim fmt enc shard, Ok (Object o)); (DoOpen root key, Ok (Object o'))] /\
    open_dataset (nc_files y) root key = Ok o'.
Proof.
  intros S R D E F K O Df Z Zf C RC RF.
  destruct (@create_reopens root key dn sh ch cn op fill delim fmt enc shard s s' o z F K O Df Z Zf C RC RF) as (o' & Eo & So).
  exists o'. split; [exact So|].
  destruct (nclients_alone S R) as (L & _). destruct (L t _ E) as (dn0 & rest & E1 & E2 & E3). rewrite (E3 D), app_nil_r in E1. subst dn0.
  assert (A1 : ncall_alone (DoDataset root key dn sh ch cn op fill delim fmt enc shard) s = (s', Ok (Object o))).
  { cbn [ncall_alone]. unfold with_answer. now rewrite C. }
  assert (A2 : ncall_alone (DoOpen root key) s' = (s', Ok (Object o'))).
  { cbn [ncall_alone]. unfold with_answer. cbn [fst snd]. now rewrite Eo. }
  split.
  - rewrite E2. cbn [ncalls_alone fst snd combine]. rewrite A1. cbn [fst snd]. rewrite A2. reflexivity.
  - pose proof (@nclients_final _ _ _ _ S R D t _ (DoOpen root key) E (or_intror (or_introl eq_refl)) eq_refl) as X.
    cbn [ncalls_alone fst] in X. rewrite A1 in X. cbn [fst] in X. rewrite A2 in X. cbn [fst] in X. rewrite A2 in X.
    cbn [ncall_alone] in X. unfold with_answer in X. cbn [snd] in X. destruct (open_dataset (nc_files y) root key); congruence.
Qed.
