(** Proofs about parents, names and files of Python objects. *)
From Coq Require Import ZArith Ascii String Lia.
From Verif Require Import M_Base P_Base M_Double M_Json M_Mode M_Key S_Text P_Key M_Blocking M_Metadata S_Metadata P_Metadata
  M_Fs M_Attributes S_Attributes P_Attributes M_Container S_Container P_Container P_Container2 P_Container3
  M_PyGroup S_PyGroup P_PyGroup P_PyGroup2 P_PyGroup3 P_PyGroup5 P_PyGroup7 P_PyGroup8 P_PyGroup10 M_PyParent S_PyParent.
Import ListNotations.
Local Open Scope list_scope.
Local Open Scope nat_scope.

(** * The ways to an object *)

Inductive obtained (g : pygroup) (name : string) : pyobj -> Prop :=
| ob_get s x : py_getitem s g name = Ok x -> obtained g name x
| ob_group s s' g' : py_create_group g name s = (s', Ok g') -> obtained g name (PGroup g')
| ob_require s s' g' : py_require_group g name s = (s', Ok g') -> obtained g name (PGroup g')
| ob_dataset a s s' d : py_create_in g name a s = (s', Ok d) -> obtained g name (PDataset d)
| ob_required sh a s s' d : py_require_dataset g name sh a s = (s', Ok d) -> obtained g name (PDataset d).

(** Heaps that grow by such objects, with names in [N]. *)
Definition edge (N : string -> Prop) (m : pyheap) (x : pyobj) (p : nat) : Prop :=
  (p = List.length m /\ exists g, x = PGroup g /\ pg_name g = ""%string) \/
  (exists g n, group_at m p = Ok g /\ N n /\ obtained g n x).
Inductive adds (N : string -> Prop) : pyheap -> pyheap -> Prop :=
| adds_none m : adds N m m
| adds_one m x p m' : edge N m x p -> adds N (m ++ [PyNode x p]) m' -> adds N m m'.

Lemma adds_trans N m1 m2 m3 : adds N m1 m2 -> adds N m2 m3 -> adds N m1 m3.
Proof. induction 1; [auto|]. intros A. econstructor; eauto. Qed.

Lemma adds_app N m m' : adds N m m' -> exists e, m' = m ++ e.
Proof.
  induction 1 as [m|m x p m' E A [e IH]]; [exists []; now rewrite app_nil_r|].
  exists (PyNode x p :: e). rewrite IH, <- app_assoc. reflexivity.
Qed.

Lemma child_cases {A} m i (mk : A -> pyobj) r s' m' o : child_of m i mk r = (s', m', o) ->
  (exists x, r = (s', Ok x) /\ m' = m ++ [PyNode (mk x) i] /\ o = Ok (List.length m)) \/
  (m' = m /\ (forall j, o <> Ok j)).
Proof.
  unfold child_of. destruct r as [s [x|e|]]; cbn; intros E; inversion E; subst; [left; now exists x|right|right]; split; congruence.
Qed.

Lemma child_adds (N : string -> Prop) {A} m i (mk : A -> pyobj) g n r s' m' o : group_at m i = Ok g -> N n ->
  (forall s x, r = (s, Ok x) -> obtained g n (mk x)) -> child_of m i mk r = (s', m', o) -> adds N m m'.
Proof.
  intros G Y O C. destruct (child_cases C) as [[x [R [-> _]]]|[-> _]]; [|constructor].
  econstructor; [right; exists g, n; repeat split; eauto|constructor].
Qed.

Lemma new_group_at m g i : group_at (m ++ [PyNode (PGroup g) i]) (List.length m) = Ok g.
Proof. unfold group_at. rewrite nth_error_app2, Nat.sub_diag by lia. reflexivity. Qed.

(** * Loops *)

Lemma require_groups_adds (N : string -> Prop) parts : Forall N parts -> forall i s m s' m' o,
  do_require_groups parts i s m = (s', m', o) -> adds N m m'.
Proof.
  induction 1 as [|x r Hx Hr IH]; intros i s m s' m' o; cbn [do_require_groups].
  - intros E; inversion E; constructor.
  - destruct (group_at m i) as [g|e|] eqn:G; [|intros E; inversion E; constructor..].
    destruct (child_of m i PGroup (py_require_group g x s)) as [[s1 m1] o1] eqn:C.
    assert (A : adds N m m1).
    { eapply child_adds; eauto. intros s0 y R. eapply ob_require; eauto. }
    destruct o1 as [j|e|]; [intros E; eapply adds_trans; eauto|intros E; inversion E; now subst..].
Qed.

Lemma navigate_adds (N : string -> Prop) parts : Forall N parts -> forall i s m s' m' o,
  do_navigate parts i s m = (s', m', o) -> adds N m m'.
Proof.
  induction 1 as [|x r Hx Hr IH]; intros i s m s' m' o; cbn [do_navigate].
  - intros E; inversion E; constructor.
  - destruct (group_at m i) as [g|e|] eqn:G; [|intros E; inversion E; constructor..].
    destruct (child_of m i (fun y => y) (s, py_getitem s g x)) as [[s1 m1] o1] eqn:C.
    assert (A : adds N m m1).
    { eapply child_adds; eauto. intros s0 y R. inversion R; subst. eapply ob_get; eauto. }
    destruct o1 as [j|e|]; [intros E; eapply adds_trans; eauto|intros E; inversion E; now subst..].
Qed.

(** The names that a call looks up. *)
Definition looked_up (m : pyheap) (c : pcall) : list string :=
  match c with
  | COpen _ _ _ _ _ => []
  | CGet _ n | CCreateGroup _ n | CRequireGroup _ n | CRequireDataset _ n _ _ => [n]
  | CCreateDataset _ n _ =>
      match removelast (split_slash (lstrip n) "") with
      | [] => [n]
      | front => front ++ [last (split_slash (lstrip n) "") ""%string]
      end
  | CUnpickle i =>
      match nth_error m i with
      | Some x => match rstrip (lstrip (obj_name (nd_obj x))) with EmptyString => [] | rel => split_slash rel "" end
      | None => []
      end
  end.

Lemma create_dataset_adds (N : string -> Prop) i name a g s m s' m' o : group_at m i = Ok g ->
  Forall N (looked_up m (CCreateDataset i name a)) ->
  do_create_dataset i name a g s m = (s', m', o) -> adds N m m'.
Proof.
  intros G. unfold looked_up, do_create_dataset. destruct (py_may_create g name s) as [s1 [u|e|]] eqn:M; [|intros _ E; inversion E; constructor..].
  destruct (removelast (split_slash (lstrip name) "")) as [|x front] eqn:F.
  - intros Y C. inversion Y; subst. eapply child_adds; eauto. intros s0 y R. eapply ob_dataset; eauto.
  - intros Y. apply Forall_app in Y as [Y1 Y2]. inversion Y2; subst.
    destruct (do_require_groups (x :: front) i s1 m) as [[s2 m2] o2] eqn:D.
    pose proof (require_groups_adds Y1 D) as A.
    destruct o2 as [j|e|]; [|intros E; inversion E; now subst..].
    destruct (group_at m2 j) as [g'|e|] eqn:G'; [|intros E; inversion E; now subst..].
    intros C. eapply adds_trans; [exact A|]. eapply child_adds; eauto.
    intros s0 y R. unfold fbind at 1 in R. destruct (py_may_create g' _ s2) as [s3 [u'|e|]] eqn:M'; try discriminate R.
    eapply ob_dataset; eauto.
Qed.

Lemma file_adds (N : string -> Prop) {A} m (mk : A -> pygroup) r s' m' o : (forall s x, r = (s, Ok x) -> pg_name (mk x) = ""%string) ->
  child_of m (List.length m) (fun x => PGroup (mk x)) r = (s', m', o) -> adds N m m'.
Proof.
  intros Y C. destruct (child_cases C) as [[x [R [-> _]]]|[-> _]]; [|constructor].
  econstructor; [left; split; [reflexivity|exists (mk x); split; [reflexivity|eauto]]|constructor].
Qed.

Lemma unpickle_file_name s f f' : py_unpickle_file s f = Ok f' ->
  pg_name f' = ""%string /\ pg_handle f' = pg_handle f /\ pg_sep f' = pg_sep f.
Proof.
  unfold py_unpickle_file. destruct is_zarr_group as [z| |]; cbn [bind]; try discriminate.
  intros E; inversion E; repeat split; reflexivity.
Qed.

Theorem call_adds (N : string -> Prop) c s m s' m' o : Forall N (looked_up m c) -> run_call c s m = (s', m', o) -> adds N m m'.
Proof.
  intros Y R. destruct c as [h ext uz fmt sep|i n|i n|i n|i n a|i n sh a|i]; cbn [run_call] in R.
  - now apply (@file_adds N Z m (fun fmt' => PyGroup h "" sep fmt')) in R.
  - destruct (group_at m i) as [g|e|] eqn:G; [|inversion R; constructor..]. inversion Y; subst.
    eapply child_adds; eauto. intros s0 x E. inversion E; subst. eapply ob_get; eauto.
  - destruct (group_at m i) as [g|e|] eqn:G; [|inversion R; constructor..]. inversion Y; subst.
    eapply child_adds; eauto. intros s0 x E. eapply ob_group; eauto.
  - destruct (group_at m i) as [g|e|] eqn:G; [|inversion R; constructor..]. inversion Y; subst.
    eapply child_adds; eauto. intros s0 x E. eapply ob_require; eauto.
  - destruct (group_at m i) as [g|e|] eqn:G; [|inversion R; constructor..]. eapply create_dataset_adds; eauto.
  - destruct (group_at m i) as [g|e|] eqn:G; [|inversion R; constructor..]. inversion Y; subst.
    eapply child_adds; eauto. intros s0 x E. eapply ob_required; eauto.
  - cbn [looked_up] in Y. destruct (nth_error m i) as [x|] eqn:Nx; [|inversion R; constructor].
    destruct (file_address m i) as [r|] eqn:FA; [|inversion R; constructor].
    destruct (group_at m r) as [f|e|] eqn:G; [|inversion R; constructor..].
    destruct (child_of m (List.length m) PGroup (s, py_unpickle_file s f)) as [[s1 m1] o1] eqn:C.
    assert (A : adds N m m1).
    { apply (@file_adds N pygroup m (fun g => g)) in C; [exact C|]. intros s0 f' E. inversion E.
      now apply unpickle_file_name in H1. }
    destruct o1 as [j|e|]; [|inversion R; now subst..].
    destruct (rstrip (lstrip (obj_name (nd_obj x)))) as [|ch rel]; [inversion R; now subst|].
    eapply adds_trans; [exact A|]. eapply navigate_adds; eauto.
Qed.

(** * Heaps are trees *)

Definition ordered (N : string -> Prop) (m : pyheap) : Prop := forall i x, nth_error m i = Some x ->
  (nd_parent x = i /\ exists g, nd_obj x = PGroup g /\ pg_name g = ""%string) \/
  (nd_parent x < i /\ exists g n, group_at m (nd_parent x) = Ok g /\ N n /\ obtained g n (nd_obj x)).

Lemma nth_app {A} (m e : list A) i x : nth_error m i = Some x -> nth_error (m ++ e) i = Some x.
Proof. intros H. rewrite nth_error_app1; [exact H|]. apply nth_error_Some. congruence. Qed.
Lemma group_at_app m e i g : group_at m i = Ok g -> group_at (m ++ e) i = Ok g.
Proof.
  unfold group_at. destruct (nth_error m i) as [x|] eqn:E; [|discriminate]. now rewrite (nth_app e E).
Qed.
Lemma group_at_lt m i g : group_at m i = Ok g -> i < List.length m.
Proof. unfold group_at. intros H. apply nth_error_Some. destruct (nth_error m i); congruence. Qed.
Lemma parent_app m e i p : py_parent m i = Some p -> py_parent (m ++ e) i = Some p.
Proof. unfold py_parent. destruct (nth_error m i) as [x|] eqn:E; [|discriminate]. now rewrite (nth_app e E). Qed.

Lemma adds_ordered (N : string -> Prop) m m' : adds N m m' -> ordered N m -> ordered N m'.
Proof.
  induction 1 as [m|m x p m' E A IH]; [auto|]. intros O. apply IH. intros i y Hy.
  destruct (Nat.lt_ge_cases i (List.length m)) as [L|L].
  - rewrite nth_error_app1 in Hy by exact L. destruct (O i y Hy) as [[P G]|[P [g [n [G [Y B]]]]]]; [left; now split|right].
    split; [exact P|]. exists g, n. split; [now apply group_at_app|now split].
  - rewrite nth_error_app2 in Hy by exact L. destruct (i - List.length m) as [|k] eqn:K; [|destruct k; discriminate Hy].
    assert (i = List.length m) as -> by lia. cbn in Hy. inversion Hy; subst y. cbn [nd_parent nd_obj].
    destruct E as [[-> G]|[g [n [G [Y B]]]]]; [left; now split|right].
    split; [now apply group_at_lt in G|]. exists g, n. split; [now apply group_at_app|now split].
Qed.

Lemma climbs_app m e p r : climbs m p r -> climbs (m ++ e) p r.
Proof.
  induction 1 as [p P|p q r P D C IH]; [apply climb_stop; now apply parent_app|].
  eapply climb_up; [apply parent_app; eauto| |]; assumption.
Qed.
Lemma climbs_fun m p r : climbs m p r -> forall r', climbs m p r' -> r' = r.
Proof.
  induction 1 as [p P|p q r P D C IH]; intros r' C'.
  - inversion C' as [? P'|? q' ? P' D' C'']; subst; [reflexivity|congruence].
  - inversion C' as [? P'|? q' ? P' D' C'']; subst; [congruence|]. assert (q' = q) by congruence. subst. now apply IH.
Qed.
Lemma climbs_end m p r : climbs m p r -> py_parent m r = Some r.
Proof. induction 1; assumption. Qed.

Lemma climb_climbs m fuel : forall p r, climb fuel m p = Some r -> climbs m p r.
Proof.
  induction fuel as [|k IH]; intros p r; cbn [climb]; [discriminate|].
  destruct (py_parent m p) as [q|] eqn:P; [|discriminate]. destruct (Nat.eqb_spec p q) as [<-|D].
  - intros E; inversion E; subst. now apply climb_stop.
  - intros E. eapply climb_up; eauto.
Qed.
Lemma ordered_climb N m : ordered N m -> forall fuel p, p < fuel -> p < List.length m -> exists r, climb fuel m p = Some r.
Proof.
  intros O. induction fuel as [|k IH]; intros p F L; [lia|]. cbn [climb]. unfold py_parent.
  destruct (nth_error m p) as [x|] eqn:X; [|now apply nth_error_Some in L]. cbn [option_map].
  destruct (O p x X) as [[P _]|[P _]].
  - rewrite P, Nat.eqb_refl. eauto.
  - destruct (Nat.eqb_spec p (nd_parent x)) as [Q|Q]; [lia|]. apply IH; lia.
Qed.

Lemma file_fun m i r r' : py_file m i r -> py_file m i r' -> r' = r.
Proof. intros [p [P C]] [p' [P' C']]. assert (p' = p) by congruence. subst. eapply climbs_fun; eauto. Qed.
Lemma file_app m e i r : py_file m i r -> py_file (m ++ e) i r.
Proof. intros [p [P C]]. exists p. split; [now apply parent_app|now apply climbs_app]. Qed.
Lemma file_end m i r : py_file m i r -> py_parent m r = Some r.
Proof. intros [p [P C]]. now apply climbs_end in C. Qed.
Lemma file_computed m i r : file_address m i = Some r -> py_file m i r.
Proof. unfold file_address. destruct (py_parent m i) as [p|] eqn:P; [|discriminate]. intros C. exists p. split; [exact P|]. now apply climb_climbs in C. Qed.
Lemma file_exists N m i : ordered N m -> i < List.length m -> exists r, file_address m i = Some r.
Proof.
  intros O L. unfold file_address, py_parent. destruct (nth_error m i) as [x|] eqn:X; [|now apply nth_error_Some in L].
  cbn [option_map]. apply (ordered_climb O); destruct (O i x X) as [[P _]|[P _]]; lia.
Qed.
(** A child has the file of its parent. *)
Lemma file_child m i p r : py_parent m i = Some p -> p <> i -> (py_file m i r <-> py_file m p r).
Proof.
  intros P D. split.
  - intros [p' [P' C]]. assert (p' = p) by congruence. subst. inversion C as [? Q|? q ? Q D' C']; subst.
    + exists r. split; [exact Q|exact C].
    + exists q. now split.
  - intros [q [Q C]]. exists p. split; [exact P|]. destruct (Nat.eq_dec p q) as [->|D']; [exact C|]. eapply climb_up; eauto.
Qed.
Lemma file_own m i : py_parent m i = Some i -> py_file m i i.
Proof. intros P. exists i. split; [exact P|now apply climb_stop]. Qed.

(** * Histories *)

Lemma history_ordered (ok : pcall -> Prop) (N : string -> Prop) m l :
  (forall m c, ordered N m -> ok c -> Forall N (looked_up m c)) -> history ok m l -> ordered N m.
Proof.
  intros K. induction 1 as [|m l c s s' m' j H IH Y R|m l c s s' m' e H IH Y R].
  - intros i x E. destruct i; discriminate E.
  - eapply adds_ordered; [|exact IH]. eapply call_adds; eauto.
  - eapply adds_ordered; [|exact IH]. eapply call_adds; eauto.
Qed.

Definition any_name (n : string) : Prop := True.
Lemma any_names l : Forall any_name l.
Proof. apply Forall_forall. intros x _. exact Logic.I. Qed.
Lemma history_any ok m l : history ok m l -> ordered any_name m.
Proof. apply history_ordered. intros. apply any_names. Qed.

(** What holds of a call when it returns, and stays true. *)
Lemma history_log (ok : pcall -> Prop) (P : pyheap -> pcall -> nat -> Prop) :
  (forall m e c j, P m c j -> P (m ++ e) c j) ->
  (forall m l c s s' m' j, history ok m l -> ok c -> run_call c s m = (s', m', Ok j) -> P m' c j) ->
  forall m l, history ok m l -> forall c j, In (c, j) l -> P m c j.
Proof.
  intros A B. induction 1 as [|m l c s s' m' j H IH Y R|m l c s s' m' e H IH Y R]; intros c0 j0 I.
  - destruct I.
  - destruct (adds_app (call_adds (any_names (looked_up m c)) R)) as [e ->]. apply in_app_or in I as [I|[E|[]]].
    + apply A. now apply IH.
    + inversion E; subst. eapply B; eauto.
  - destruct (adds_app (call_adds (any_names (looked_up m c)) R)) as [e' ->]. apply A. now apply IH.
Qed.

(** ** Parents and files of results *)

Lemma child_result {A} m i (mk : A -> pyobj) r s' m' j : child_of m i mk r = (s', m', Ok j) ->
  exists x, r = (s', Ok x) /\ m' = m ++ [PyNode (mk x) i] /\ j = List.length m.
Proof.
  intros C. destruct (child_cases C) as [[x [R [M J]]]|[_ N]]; [|now elim (N j)]. exists x. repeat split; congruence.
Qed.
Lemma new_parent m x i : py_parent (m ++ [PyNode x i]) (List.length m) = Some i.
Proof. unfold py_parent. rewrite nth_error_app2, Nat.sub_diag by lia. reflexivity. Qed.

Lemma require_groups_file parts : forall i s m s' m' j, i < List.length m -> do_require_groups parts i s m = (s', m', Ok j) ->
  j < List.length m' /\ forall r, py_file m i r -> py_file m' j r.
Proof.
  induction parts as [|x r IH]; intros i s m s' m' j L; cbn [do_require_groups].
  - intros E; inversion E; subst. now split.
  - destruct (group_at m i) as [g|e|] eqn:G; try discriminate.
    destruct (child_of m i PGroup (py_require_group g x s)) as [[s1 m1] o1] eqn:C. destruct o1 as [k|e|]; try discriminate.
    destruct (child_result C) as [y [_ [-> ->]]]. intros E.
    apply IH in E; [|rewrite app_length; cbn; lia]. destruct E as [L' F].
    split; [exact L'|]. intros r0 H. apply F. apply (file_child r0 (new_parent m (PGroup y) i)); [lia|]. now apply file_app.
Qed.
Lemma navigate_file parts : forall i s m s' m' j, i < List.length m -> do_navigate parts i s m = (s', m', Ok j) ->
  j < List.length m' /\ forall r, py_file m i r -> py_file m' j r.
Proof.
  induction parts as [|x r IH]; intros i s m s' m' j L; cbn [do_navigate].
  - intros E; inversion E; subst. now split.
  - destruct (group_at m i) as [g|e|] eqn:G; try discriminate.
    destruct (child_of m i (fun y => y) (s, py_getitem s g x)) as [[s1 m1] o1] eqn:C. destruct o1 as [k|e|]; try discriminate.
    destruct (child_result C) as [y [_ [-> ->]]]. intros E.
    apply IH in E; [|rewrite app_length; cbn; lia]. destruct E as [L' F].
    split; [exact L'|]. intros r0 H. apply F. apply (file_child r0 (new_parent m y i)); [lia|]. now apply file_app.
Qed.

(** The parent of what a call returns. *)
Definition parent_expected (m : pyheap) (c : pcall) (j : nat) : Prop :=
  match c with
  | COpen _ _ _ _ _ => py_parent m j = Some j
  | CGet i _ | CCreateGroup i _ | CRequireGroup i _ | CRequireDataset i _ _ _ => i < j /\ py_parent m j = Some i
  | CCreateDataset i n _ => i < j /\ (removelast (split_slash (lstrip n) "") = [] -> py_parent m j = Some i)
  | CUnpickle i => i < j
  end.

Lemma parent_lt m i p : py_parent m i = Some p -> i < List.length m.
Proof. unfold py_parent. intros H. apply nth_error_Some. destruct (nth_error m i); [discriminate|discriminate H]. Qed.

Lemma require_groups_grow parts : forall i s m s' m' j, i < List.length m -> do_require_groups parts i s m = (s', m', Ok j) ->
  i <= j /\ List.length m <= List.length m'.
Proof.
  induction parts as [|x r IH]; intros i s m s' m' j L; cbn [do_require_groups].
  - intros E; inversion E; subst. lia.
  - destruct (group_at m i) as [g|e|] eqn:G; try discriminate.
    destruct (child_of m i PGroup (py_require_group g x s)) as [[s1 m1] o1] eqn:C. destruct o1 as [k|e|]; try discriminate.
    destruct (child_result C) as [y [_ [-> ->]]]. intros E. apply IH in E; rewrite app_length in *; cbn in *; lia.
Qed.
Lemma navigate_grow parts : forall i s m s' m' j, i < List.length m -> do_navigate parts i s m = (s', m', Ok j) ->
  i <= j /\ List.length m <= List.length m'.
Proof.
  induction parts as [|x r IH]; intros i s m s' m' j L; cbn [do_navigate].
  - intros E; inversion E; subst. lia.
  - destruct (group_at m i) as [g|e|] eqn:G; try discriminate.
    destruct (child_of m i (fun y => y) (s, py_getitem s g x)) as [[s1 m1] o1] eqn:C. destruct o1 as [k|e|]; try discriminate.
    destruct (child_result C) as [y [_ [-> ->]]]. intros E. apply IH in E; rewrite app_length in *; cbn in *; lia.
Qed.

Lemma call_parent c s m s' m' j : run_call c s m = (s', m', Ok j) -> parent_expected m' c j.
Proof.
  intros R. destruct c as [h ext uz fmt sep|i n|i n|i n|i n a|i n sh a|i]; cbn [run_call parent_expected] in *.
  - destruct (child_result R) as [x [_ [-> ->]]]. apply new_parent.
  - destruct (group_at m i) as [g|e|] eqn:G; try discriminate R. destruct (child_result R) as [x [_ [-> ->]]].
    apply group_at_lt in G. split; [exact G|apply new_parent].
  - destruct (group_at m i) as [g|e|] eqn:G; try discriminate R. destruct (child_result R) as [x [_ [-> ->]]].
    apply group_at_lt in G. split; [exact G|apply new_parent].
  - destruct (group_at m i) as [g|e|] eqn:G; try discriminate R. destruct (child_result R) as [x [_ [-> ->]]].
    apply group_at_lt in G. split; [exact G|apply new_parent].
  - destruct (group_at m i) as [g|e|] eqn:G; try discriminate R. apply group_at_lt in G. unfold do_create_dataset in R.
    destruct (py_may_create g n s) as [s1 [u|e|]]; try discriminate R.
    destruct (removelast (split_slash (lstrip n) "")) as [|x front].
    + destruct (child_result R) as [y [_ [-> ->]]]. split; [exact G|intros _; apply new_parent].
    + destruct (do_require_groups (x :: front) i s1 m) as [[s2 m2] o2] eqn:D. destruct o2 as [k|e|]; try discriminate R.
      destruct (group_at m2 k) as [g'|e|] eqn:G'; try discriminate R. destruct (child_result R) as [y [_ [-> ->]]].
      apply require_groups_grow in D; [|exact G]. split; [lia|discriminate].
  - destruct (group_at m i) as [g|e|] eqn:G; try discriminate R. destruct (child_result R) as [x [_ [-> ->]]].
    apply group_at_lt in G. split; [exact G|apply new_parent].
  - destruct (nth_error m i) as [x|] eqn:Nx; try discriminate R.
    assert (L : i < List.length m) by (apply nth_error_Some; congruence).
    destruct (file_address m i) as [r|] eqn:FA; try discriminate R.
    destruct (group_at m r) as [f|e|] eqn:G; try discriminate R.
    destruct (child_of m (List.length m) PGroup (s, py_unpickle_file s f)) as [[s1 m1] o1] eqn:C.
    destruct o1 as [k|e|]; try discriminate R. destruct (child_result C) as [y [_ [-> ->]]].
    destruct (rstrip (lstrip (obj_name (nd_obj x)))) as [|ch rel]; [inversion R; subst; exact L|].
    apply navigate_grow in R; [lia|rewrite app_length; cbn; lia].
Qed.

Theorem results_have_parents ok m l c j : history ok m l -> In (c, j) l -> parent_expected m c j.
Proof.
  intros H I. apply (@history_log ok parent_expected) with (l := l); [| |exact H|exact I].
  - intros m0 e c0 j0. destruct c0; cbn [parent_expected]; intros P;
      [now apply parent_app|..|exact P]; destruct P as [A B]; split; try exact A; try (now apply parent_app).
    intros E. now apply parent_app, B.
  - intros. eapply call_parent; eauto.
Qed.

Lemma at_app m e i x : at_address m i x -> at_address (m ++ e) i x.
Proof. intros [p P]. exists p. now apply nth_app. Qed.
Lemma new_at m x i : at_address (m ++ [PyNode x i]) (List.length m) x.
Proof. exists i. rewrite nth_error_app2, Nat.sub_diag by lia. reflexivity. Qed.
Lemma group_at_address m i g : group_at m i = Ok g <-> at_address m i (PGroup g).
Proof.
  unfold group_at, at_address. split.
  - destruct (nth_error m i) as [[[g'|d] p]|]; try discriminate. intros E; inversion E; subst. now exists p.
  - intros [p ->]. reflexivity.
Qed.

Lemma child_file N {A} m i (mk : A -> pyobj) r s' m' j : ordered N m -> i < List.length m -> child_of m i mk r = (s', m', Ok j) ->
  exists f, py_file m' i f /\ py_file m' j f.
Proof.
  intros O L C. destruct (child_result C) as [x [_ [-> ->]]]. destruct (file_exists O L) as [f F]. apply file_computed in F.
  exists f. split; [now apply file_app|]. apply (file_child f (new_parent m (mk x) i)); [lia|]. now apply file_app.
Qed.

Lemma call_file N c s m s' m' j : ordered N m -> run_call c s m = (s', m', Ok j) -> file_of_result m' c j.
Proof.
  intros O R. destruct c as [h ext uz fmt sep|i n|i n|i n|i n a|i n sh a|i]; cbn [run_call file_of_result] in *.
  - destruct (child_result R) as [x [_ [-> ->]]]. split; [apply file_own, new_parent|]. exists x.
    exact (new_at m (PGroup (PyGroup h "" sep x)) (List.length m)).
  - destruct (group_at m i) as [g|e|] eqn:G; try discriminate R. eapply child_file; eauto. now apply group_at_lt in G.
  - destruct (group_at m i) as [g|e|] eqn:G; try discriminate R. eapply child_file; eauto. now apply group_at_lt in G.
  - destruct (group_at m i) as [g|e|] eqn:G; try discriminate R. eapply child_file; eauto. now apply group_at_lt in G.
  - destruct (group_at m i) as [g|e|] eqn:G; try discriminate R. apply group_at_lt in G. unfold do_create_dataset in R.
    destruct (py_may_create g n s) as [s1 [u|e|]]; try discriminate R.
    destruct (removelast (split_slash (lstrip n) "")) as [|x front]; [eapply child_file; eauto|].
    destruct (do_require_groups (x :: front) i s1 m) as [[s2 m2] o2] eqn:D. destruct o2 as [k|e|]; try discriminate R.
    destruct (group_at m2 k) as [g'|e|] eqn:G'; try discriminate R. destruct (child_result R) as [y [_ [-> ->]]].
    destruct (file_exists O G) as [f F]. apply file_computed in F.
    destruct (adds_app (require_groups_adds (any_names (x :: front)) D)) as [e ->].
    destruct (require_groups_file G D) as [L F']. exists f. split; [now do 2 apply file_app|].
    apply (file_child f (new_parent (m ++ e) (PDataset y) k)); [lia|]. now apply file_app, F'.
  - destruct (group_at m i) as [g|e|] eqn:G; try discriminate R. eapply child_file; eauto. now apply group_at_lt in G.
  - destruct (nth_error m i) as [x|] eqn:Nx; try discriminate R.
    assert (L : i < List.length m) by (apply nth_error_Some; congruence).
    destruct (file_address m i) as [r|] eqn:FA; try discriminate R. apply file_computed in FA.
    destruct (group_at m r) as [f|e|] eqn:G; try discriminate R.
    destruct (child_of m (List.length m) PGroup (s, py_unpickle_file s f)) as [[s1 m1] o1] eqn:C.
    destruct o1 as [k|e|]; try discriminate R. destruct (child_result C) as [y [U [-> ->]]]. inversion U as [[U1 U2]]; subst s1.
    destruct (unpickle_file_name U2) as [U3 [U4 U5]].
    set (m1 := m ++ [PyNode (PGroup y) (List.length m)]) in *.
    assert (W : exists e, m' = m1 ++ e /\ forall q, py_file m1 (List.length m) q -> py_file m' j q).
    { destruct (rstrip (lstrip (obj_name (nd_obj x)))) as [|ch rel].
      - inversion R; subst. exists []. rewrite app_nil_r. now split.
      - destruct (adds_app (navigate_adds (any_names _) R)) as [e E]. exists e. split; [exact E|].
        apply navigate_file in R; [apply R|unfold m1; rewrite app_length; cbn; lia]. }
    destruct W as [e [-> W]].
    exists r, (List.length m), f, y. pose proof (group_at_lt G) as Lr.
    split; [now do 2 apply file_app|]. split; [apply W, file_own, new_parent|]. split; [lia|]. split; [exact L|].
    split; [apply at_app, at_app; now apply group_at_address|]. split; [apply at_app, new_at|]. now repeat split.
Qed.

Theorem results_have_files ok m l c j : history ok m l -> In (c, j) l -> file_of_result m c j.
Proof.
  intros H I. apply (@history_log ok file_of_result) with (l := l); [| |exact H|exact I].
  - intros m0 e c0 j0. destruct c0; cbn [file_of_result].
    + intros [A [f B]]. split; [now apply file_app|]. exists f. now apply at_app.
    + intros [r [A B]]. exists r. split; now apply file_app.
    + intros [r [A B]]. exists r. split; now apply file_app.
    + intros [r [A B]]. exists r. split; now apply file_app.
    + intros [r [A B]]. exists r. split; now apply file_app.
    + intros [r [A B]]. exists r. split; now apply file_app.
    + intros [r [r' [f [f' [A [B [D [L [F [F' [U V]]]]]]]]]]]. exists r, r', f, f'.
      split; [now apply file_app|]. split; [now apply file_app|]. split; [exact D|]. split; [exact L|].
      split; [now apply at_app|]. split; [now apply at_app|]. now split.
  - intros. eapply call_file; [|eassumption]. eapply history_any; eassumption.
Qed.

Theorem all_have_files ok m l i : history ok m l -> i < List.length m ->
  exists r f, py_file m i r /\ at_address m r (PGroup f) /\ pg_name f = ""%string /\ py_parent m r = Some r /\
    (forall r', py_file m i r' -> r' = r).
Proof.
  intros H L. pose proof (history_any H) as O. destruct (file_exists O L) as [r F]. apply file_computed in F.
  pose proof (file_end F) as E. pose proof (parent_lt E) as Lr.
  destruct (nth_error m r) as [x|] eqn:X; [|now apply nth_error_Some in Lr].
  assert (P : nd_parent x = r) by (unfold py_parent in E; rewrite X in E; cbn in E; congruence).
  destruct (O r x X) as [[_ [f [G N]]]|[P' _]]; [|lia].
  exists r, f. split; [exact F|]. split; [exists r; rewrite X; destruct x; cbn in *; now subst|].
  split; [exact N|]. split; [exact E|]. intros r' F'. eapply file_fun; eauto.
Qed.

Lemma lstrip_free n : slash_free n = true -> lstrip n = n.
Proof.
  destruct n as [|c r]; [reflexivity|]. intros F. cbn [lstrip]. destruct (Ascii.eqb_spec c "/"%char) as [->|_]; [|reflexivity]. discriminate F.
Qed.
Theorem results_parents ok m l c j : history ok m l -> In (c, j) l -> parent_of_result m c j.
Proof.
  intros H I. pose proof (results_have_parents H I) as P. destruct c; cbn [parent_expected parent_of_result] in *; try exact P; try exact Logic.I; try (apply P).
  intros F. apply P. rewrite (lstrip_free F), (split_noslash _ F). reflexivity.
Qed.
