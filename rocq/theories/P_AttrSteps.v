(** Calls on attributes in steps. *)
From Coq Require Import String.
From Verif Require Import M_Base M_Json M_Mode M_Fs M_Attributes M_Pool M_AttrSteps S_Attributes S_AttrSteps P_Base P_Attributes.
Import List ListNotations.
Local Open Scope list_scope.

(** *** Without interruption the steps do what the call does *)
(** The same files. *)
Definition same (s s' : fsys) : Prop := forall q, s q = s' q.

Lemma run_lift {A} (o : outcome A) k s : run_steps (alift o k) s =
  match o with Ok a => run_steps (k a) s | Throw e => (s, Throw e) | UB => (s, UB) end.
Proof. destruct o; reflexivity. Qed.
Lemma run_is_zarr k p cont s : run_steps (steps_is_zarr k p cont) s =
  match handle_is_zarr k s p with Ok z => run_steps (cont z) s | Throw e => (s, Throw e) | UB => (s, UB) end.
Proof.
  unfold steps_is_zarr, handle_is_zarr, is_zarr_dataset, is_zarr_group, aexists.
  destruct k; cbn; destruct (fs_exists s p); cbn; try reflexivity;
    match goal with |- context [fs_exists s (p ++ [?d])] => destruct (fs_exists s (p ++ [d])) end; reflexivity.
Qed.
Lemma run_read p name cont s : run_steps (steps_read p name cont) s =
  match read_doc s p name with Ok o => run_steps (cont o) s | Throw e => (s, Throw e) | UB => (s, UB) end.
Proof. unfold steps_read, read_doc, aexists, fs_exists. cbn. destruct (s (p ++ [name])) as [[]|] eqn:E; cbn; rewrite ?E; reflexivity. Qed.
Lemma run_write p name j s : snd (run_steps (steps_write p name j) s) = Ok JNull /\
  same (fst (run_steps (steps_write p name j) s)) (fst (write_doc p name j s)).
Proof.
  unfold steps_write, write_doc. cbn. destruct (fs_isdir s p && negb (fs_isdir s (p ++ [name]))); cbn; [|split; [reflexivity|intros q; reflexivity]].
  split; [reflexivity|]. intros q. destruct (path_eqb q (p ++ [name])); reflexivity.
Qed.

(** The same files and answer. *)
Definition equal (a b : fsys * outcome json) : Prop := same (fst a) (fst b) /\ snd a = snd b.
Lemma equal_refl a : equal a a.
Proof. split; [intros q|]; reflexivity. Qed.
Lemma write_equal p name j s : equal (run_steps (steps_write p name j) s) (done (write_doc p name j s)).
Proof.
  destruct (run_write p name j s) as [A B]. split; [exact B|]. rewrite A. unfold write_doc.
  destruct (fs_isdir s p && negb (fs_isdir s (p ++ [name]))); reflexivity.
Qed.

Lemma gen_read_equal p z cont s : run_steps (steps_gen_read p z cont) s =
  match gen_read_attributes s p z JNull with Ok j => run_steps (cont j) s | Throw e => (s, Throw e) | UB => (s, UB) end.
Proof.
  unfold steps_gen_read, gen_read_attributes, read_v3_attributes, read_doc_or. destruct z; cbn [andb].
  - unfold aexists. cbn [run_steps]. destruct (fs_exists s (p ++ ["zarr.json"%string])); rewrite run_read; destruct (read_doc s p _) as [[x|]|e|]; cbn; try reflexivity.
    destruct (jfind "attributes" x); reflexivity.
  - rewrite run_read. destruct (read_doc s p _) as [[x|]|e|]; reflexivity.
Qed.
Lemma gen_write_equal p z j s : equal (run_steps (steps_gen_write p z j) s) (done (gen_write_attributes p z j s)).
Proof.
  unfold steps_gen_write, gen_write_attributes, write_v3_attributes, read_doc_or.
  assert (P : equal (run_steps (steps_read p (attributes_name z) (fun o =>
       alift (jmerge j (match o with Some x => x | None => JObj [] end)) (fun new => steps_write p (attributes_name z) new))) s)
     (done ((do* old <- freading (fun s => let! o := read_doc s p (attributes_name z) in Ok (match o with Some x => x | None => JObj [] end)) in
     do* new <- fret (jmerge j old) in write_doc p (attributes_name z) new) s))).
  { rewrite run_read. unfold fbind, freading, fret. destruct (read_doc s p _) as [x|e|]; cbn; try apply equal_refl.
    rewrite run_lift. destruct (jmerge _ _); cbn; try apply equal_refl. apply write_equal. }
  destruct z; cbn [andb]; [|exact P]. unfold aexists. cbn [run_steps].
  destruct (fs_exists s (p ++ ["zarr.json"%string])); [|exact P].
  rewrite run_read. unfold fbind, freading, fret. destruct (read_doc s p _) as [x|e|]; cbn; try apply equal_refl.
  rewrite run_lift. destruct (jmerge _ _); cbn; try apply equal_refl.
  rewrite run_lift. destruct (jput _ _ _); cbn; try apply equal_refl. apply write_equal.
Qed.
Lemma gen_remove_equal p z a s : equal (run_steps (steps_gen_remove p z a) s) (done (gen_remove_attribute p z a s)).
Proof.
  unfold steps_gen_remove, gen_remove_attribute, remove_v3_attribute.
  assert (P : equal (run_steps (steps_read p (attributes_name z) (fun o =>
      match o with None => ARet (Ok JNull) | Some x => alift (jerase a x) (fun new => steps_write p (attributes_name z) new) end)) s)
     (done ((do* old <- freading (fun s => read_doc s p (attributes_name z)) in
     match old with
     | None => fret (Ok tt)
     | Some o => do* new <- fret (jerase a o) in write_doc p (attributes_name z) new
     end) s))).
  { rewrite run_read. unfold fbind, freading, fret. destruct (read_doc s p _) as [[x|]|e|]; cbn; try apply equal_refl.
    rewrite run_lift. destruct (jerase _ _); cbn; try apply equal_refl. apply write_equal. }
  destruct z; cbn [andb]; [|exact P]. unfold aexists. cbn [run_steps].
  destruct (fs_exists s (p ++ ["zarr.json"%string])); [|exact P].
  rewrite run_read. unfold fbind, freading, fret. destruct (read_doc s p _) as [[x|]|e|]; cbn; try apply equal_refl.
  rewrite run_lift. destruct (match jfind _ _ with Some _ => _ | None => _ end); cbn; try apply equal_refl. apply write_equal.
Qed.

Theorem steps_alone c s : equal (run_steps (steps_of_call c) s) (call_alone c s).
Proof.
  destruct c as [k p|k m p j|k m p a]; cbn [steps_of_call call_alone].
  - rewrite run_is_zarr. unfold read_attributes. destruct (handle_is_zarr k s p) as [z|e|] eqn:Ez; cbn -[hide_n5 steps_gen_read gen_read_attributes]; try apply equal_refl.
    rewrite gen_read_equal. destruct (gen_read_attributes s p z JNull) as [j|e|]; cbn -[hide_n5 steps_is_zarr]; try (destruct k; apply equal_refl).
    destruct k; try apply equal_refl. rewrite run_is_zarr. rewrite Ez. destruct z; [apply equal_refl|].
    rewrite run_lift. destruct (hide_n5 j); apply equal_refl.
  - unfold write_attributes. destruct (can_write m); cbn [negb]; [|apply equal_refl].
    assert (G : equal (run_steps (steps_is_zarr k p (fun z => steps_gen_write p z j)) s)
       (done (match handle_is_zarr k s p with Ok z => gen_write_attributes p z j s | Throw e => (s, Throw e) | UB => (s, UB) end))).
    { rewrite run_is_zarr. destruct (handle_is_zarr k s p); try apply equal_refl. apply gen_write_equal. }
    unfold fbind at 1. unfold freading at 1. destruct k; cbn [protect_json].
    + rewrite run_is_zarr. destruct (handle_is_zarr HFile s p) as [z|e|] eqn:Ez; try apply equal_refl. rewrite run_lift.
      unfold fbind, fret. destruct z; [exact G|]. destruct (jcontains "n5" j); [apply equal_refl|exact G].
    + destruct (handle_is_zarr HGroup s p) as [z|e|]; try exact G. unfold fbind, fret. destruct z; exact G.
    + rewrite run_is_zarr. destruct (handle_is_zarr HDataset s p) as [z|e|] eqn:Ez; try apply equal_refl. rewrite run_lift.
      unfold fbind, fret. destruct z; [exact G|]. destruct (existsb _ _); [apply equal_refl|exact G].
  - unfold remove_attribute. destruct (can_write m); cbn [negb]; [|apply equal_refl].
    assert (G : equal (run_steps (steps_is_zarr k p (fun z => steps_gen_remove p z a)) s)
       (done (match handle_is_zarr k s p with Ok z => gen_remove_attribute p z a s | Throw e => (s, Throw e) | UB => (s, UB) end))).
    { rewrite run_is_zarr. destruct (handle_is_zarr k s p); try apply equal_refl. apply gen_remove_equal. }
    unfold fbind at 1. unfold freading at 1. destruct k; cbn [protect_key].
    + rewrite run_is_zarr. destruct (handle_is_zarr HFile s p) as [z|e|] eqn:Ez; try apply equal_refl. rewrite run_lift.
      unfold fbind, fret. destruct z; [exact G|]. destruct (String.eqb _ _); [apply equal_refl|exact G].
    + destruct (handle_is_zarr HGroup s p) as [z|e|]; try exact G. unfold fbind, fret. destruct z; exact G.
    + rewrite run_is_zarr. destruct (handle_is_zarr HDataset s p) as [z|e|] eqn:Ez; try apply equal_refl. rewrite run_lift.
      unfold fbind, fret. destruct z; [exact G|]. destruct (existsb _ _); [apply equal_refl|exact G].
Qed.

(** *** Which files a call accesses *)
Definition agree (p : path) (s s' : fsys) : Prop := forall q, foot p q -> s q = s' q.

(** Code that accesses the node [p] and its documents, and changes documents only; not
    even these, unless [w]. *)
Inductive local (w : bool) (p : path) : acode -> Prop :=
| local_ret o : local w p (ARet o)
| local_act f :
    (forall s s', agree p s s' -> snd (f s) = snd (f s') /\ agree p (fst (f s)) (fst (f s'))) ->
    (forall s q, ~ doc_of p q -> fst (f s) q = s q) ->
    (w = false -> forall s, fst (f s) = s) ->
    (forall s, local w p (snd (f s))) -> local w p (AAct f).

Lemma local_lift w p {A} (o : outcome A) k : (forall a, local w p (k a)) -> local w p (alift o k).
Proof. intros H. destruct o; cbn; [apply H|constructor|constructor]. Qed.
Lemma local_exists w p q k : foot p q -> (forall e, local w p (k e)) -> local w p (aexists q k).
Proof.
  intros F H. constructor; cbn; [|reflexivity|reflexivity|intros s; apply H].
  intros s s' A. split; [|exact A]. unfold fs_exists. now rewrite (A q F).
Qed.
Lemma foot_doc p d : In d documents -> foot p (p ++ [d]).
Proof. intros H. right. exists d. auto. Qed.
Lemma local_is_zarr w p k cont : (forall z, local w p (cont z)) -> local w p (steps_is_zarr k p cont).
Proof.
  intros H. apply local_exists; [now left|]. intros []; cbn [negb]; [|constructor].
  apply local_exists; [apply foot_doc; destruct k; cbn; auto|]. intros []; [apply H|].
  apply local_exists; [apply foot_doc; cbn; auto|exact H].
Qed.
Lemma local_read w p name cont : In name documents -> (forall o, local w p (cont o)) -> local w p (steps_read p name cont).
Proof.
  intros D H. apply local_exists; [now apply foot_doc|]. intros []; cbn [negb]; [|apply H].
  constructor; cbn; [|reflexivity|reflexivity|].
  - intros s s' A. split; [|exact A]. now rewrite (A _ (foot_doc p D)).
  - intros s. destruct (s (p ++ [name])) as [[]|]; try constructor. apply H.
Qed.
Lemma local_write p name j : In name documents -> local true p (steps_write p name j).
Proof.
  intros D. constructor; [| |discriminate|].
  - intros s s' A. unfold fs_isdir. rewrite (A p (or_introl eq_refl)), (A _ (foot_doc p D)).
    destruct (_ && _); cbn [fst snd]; split; try reflexivity; [|exact A].
    intros q Hq. destruct (path_eqb q (p ++ [name])); [reflexivity|]. now apply A.
  - intros s q N. destruct (_ && _); cbn [fst]; [|reflexivity]. rewrite path_eqb_ne; [reflexivity|]. intros ->. apply N. exists name. auto.
  - intros s. destruct (_ && _); cbn [snd]; [|constructor]. constructor; cbn [fst snd]; [| |discriminate|constructor].
    + intros s0 s1 A. split; [reflexivity|]. intros q Hq. destruct (path_eqb q (p ++ [name])); [reflexivity|]. now apply A.
    + intros s0 q N. rewrite path_eqb_ne; [reflexivity|]. intros ->. apply N. exists name. auto.
Qed.
Lemma attributes_name_doc z : In (attributes_name z) documents.
Proof. destruct z; cbn; auto 6. Qed.
Lemma zarr_json_doc : In "zarr.json"%string documents.
Proof. cbn; auto. Qed.

Definition is_change (c : acall) : bool := match c with AtRead _ _ => false | _ => true end.
Lemma local_call c : local (is_change c) (call_node c) (steps_of_call c).
Proof.
  destruct c as [k p|k m p j|k m p a]; cbn [steps_of_call call_node is_change].
  - apply local_is_zarr. intros z.
    assert (F : forall j, local false p match k with
      | HDataset => steps_is_zarr k p (fun z' => if z' then ARet (Ok j) else alift (hide_n5 j) (fun j' => ARet (Ok j')))
      | _ => ARet (Ok j) end).
    { intros j. destruct k; [constructor|constructor|]. apply local_is_zarr. intros []; [constructor|]. apply local_lift. intros. constructor. }
    assert (P : local false p (steps_read p (attributes_name z) (fun o => match k with
      | HDataset => steps_is_zarr k p (fun z' => if z' then ARet (Ok (match o with Some j => j | None => JNull end)) else alift (hide_n5 (match o with Some j => j | None => JNull end)) (fun j' => ARet (Ok j')))
      | _ => ARet (Ok (match o with Some j => j | None => JNull end)) end))).
    { apply local_read; [apply attributes_name_doc|]. intros o. apply F. }
    unfold steps_gen_read. destruct z; [|exact P]. apply local_exists; [apply foot_doc, zarr_json_doc|].
    intros []; [|exact P]. apply local_read; [apply zarr_json_doc|]. intros o. apply F.
  - destruct (can_write m); cbn [negb]; [|constructor].
    assert (G : local true p (steps_is_zarr k p (fun z => steps_gen_write p z j))).
    { apply local_is_zarr. intros z. unfold steps_gen_write.
      assert (P : local true p (steps_read p (attributes_name z) (fun o =>
        alift (jmerge j (match o with Some x => x | None => JObj [] end)) (fun new => steps_write p (attributes_name z) new)))).
      { apply local_read; [apply attributes_name_doc|]. intros o. apply local_lift. intros new. apply local_write, attributes_name_doc. }
      destruct z; [|exact P]. apply local_exists; [apply foot_doc, zarr_json_doc|]. intros []; [|exact P].
      apply local_read; [apply zarr_json_doc|]. intros o. apply local_lift. intros b. apply local_lift. intros f. apply local_write, zarr_json_doc. }
    destruct k; [|exact G|]; apply local_is_zarr; intros z; apply local_lift; intros _; exact G.
  - destruct (can_write m); cbn [negb]; [|constructor].
    assert (G : local true p (steps_is_zarr k p (fun z => steps_gen_remove p z a))).
    { apply local_is_zarr. intros z. unfold steps_gen_remove.
      assert (P : local true p (steps_read p (attributes_name z) (fun o =>
        match o with None => ARet (Ok JNull) | Some x => alift (jerase a x) (fun new => steps_write p (attributes_name z) new) end))).
      { apply local_read; [apply attributes_name_doc|]. intros [o|]; [|constructor]. apply local_lift. intros new. apply local_write, attributes_name_doc. }
      destruct z; [|exact P]. apply local_exists; [apply foot_doc, zarr_json_doc|]. intros []; [|exact P].
      apply local_read; [apply zarr_json_doc|]. intros [o|]; [|constructor]. apply local_lift. intros b. apply local_write, zarr_json_doc. }
    destruct k; [|exact G|]; apply local_is_zarr; intros z; apply local_lift; intros _; exact G.
Qed.

(** What code does depends on these files only. *)
Lemma run_agree w p c : local w p c -> forall s s', agree p s s' ->
  snd (run_steps c s) = snd (run_steps c s') /\ agree p (fst (run_steps c s)) (fst (run_steps c s')).
Proof.
  induction 1 as [o|f F1 F2 F3 F4 IH]; intros s s' A; cbn [run_steps]; [auto|].
  destruct (F1 s s' A) as [E A']. specialize (IH s (fst (f s)) (fst (f s')) A').
  destruct (f s) as [s1 c1], (f s') as [s2 c2]. cbn [fst snd] in *. subst c2. exact IH.
Qed.
Lemma run_frame w p c : local w p c -> forall s q, ~ doc_of p q -> fst (run_steps c s) q = s q.
Proof.
  induction 1 as [o|f F1 F2 F3 F4 IH]; intros s q N; cbn [run_steps]; [reflexivity|].
  specialize (IH s (fst (f s)) q N). specialize (F2 s q N). destruct (f s) as [s1 c1]. cbn [fst snd] in *. congruence.
Qed.
Lemma run_same w p c s s' : local w p c -> same s s' -> equal (run_steps c s) (run_steps c s').
Proof.
  intros L S. destruct (@run_agree _ _ _ L s s' (fun q _ => S q)) as [A B]. split; [|exact A]. intros q.
  destruct (List.in_dec (List.list_eq_dec string_dec) q (map (fun d => p ++ [d]) documents)) as [I|N].
  - apply B. right. apply in_map_iff in I. destruct I as (d & <- & I). exists d. auto.
  - assert (~ doc_of p q) by (intros (d & I & ->); apply N, in_map_iff; eauto). rewrite !(@run_frame _ _ _ L) by assumption. apply S.
Qed.
Lemma alone_same c s s' : same s s' -> equal (call_alone c s) (call_alone c s').
Proof.
  intros S. destruct (steps_alone c s) as [A1 A2], (steps_alone c s') as [B1 B2].
  destruct (run_same (local_call c) S) as [C1 C2]. split; [|congruence]. intros q. rewrite <- A1, <- B1. apply C1.
Qed.
Lemma calls_alone_same l : forall s s', same s s' -> same (fst (calls_alone l s)) (fst (calls_alone l s')) /\ snd (calls_alone l s) = snd (calls_alone l s').
Proof.
  induction l as [|c l IH]; intros s s' S; cbn [calls_alone fst snd]; [auto|].
  destruct (alone_same c S) as [A B]. destruct (IH _ _ A) as [C D]. split; [exact C|congruence].
Qed.
Lemma calls_alone_app l l' s : same (fst (calls_alone (l ++ l') s)) (fst (calls_alone l' (fst (calls_alone l s)))) /\
  snd (calls_alone (l ++ l') s) = snd (calls_alone l s) ++ snd (calls_alone l' (fst (calls_alone l s))).
Proof.
  revert s. induction l as [|c l IH]; intros s; cbn [calls_alone fst snd app]; [split; [intros q|]; reflexivity|].
  destruct (IH (fst (call_alone c s))) as [A B]. split; [exact A|now rewrite B].
Qed.
Lemma calls_alone_length l s : length (snd (calls_alone l s)) = length l.
Proof. revert s. induction l as [|c l IH]; intros s; cbn [calls_alone snd length]; [reflexivity|now rewrite IH]. Qed.

(** *** The clients *)
Lemma doc_dec p q : doc_of p q \/ ~ doc_of p q.
Proof.
  destruct (List.in_dec (List.list_eq_dec string_dec) q (map (fun d => p ++ [d]) documents)) as [I|N].
  - left. apply in_map_iff in I. destruct I as (d & <- & I). exists d. auto.
  - right. intros (d & I & ->). apply N, in_map_iff. eauto.
Qed.

Section Clients.
Variables (calls : list (list acall)) (s0 : fsys).
Hypothesis sep : separate calls.

(** Documents of different clients are different. *)
Lemma sep_foot t t' l l' c c' q : t <> t' -> nth_error calls t = Some l -> nth_error calls t' = Some l' ->
  In c l -> In c' l' -> changes c' -> foot (call_node c) q -> ~ doc_of (call_node c') q.
Proof using sep.
  intros D N N' I I' C F (d & Id & E).
  destruct F as [F|(d0 & _ & F)]; rewrite F in E.
  - exact (@sep_names _ sep l' l c' c d (nth_error_In _ _ N') (nth_error_In _ _ N) I' I Id E).
  - apply app_inj_tail in E. destruct E as [E _].
    exact (@sep_nodes _ sep t' t l' l c' c ltac:(congruence) N' N I' I C (Logic.eq_sym E)).
Qed.

Definition client_state (files : fsys) (l dn : list acall) (cur : option (acall * acode)) (rest : list acall) : Prop :=
  match cur with
  | None => l = dn ++ rest /\ forall c, In c l -> agree (call_node c) files (fst (calls_alone dn s0))
  | Some (c, code) => l = dn ++ c :: rest /\ local (is_change c) (call_node c) code /\
      exists s2, equal (run_steps code s2) (call_alone c (fst (calls_alone dn s0))) /\
        forall c', In c' l -> agree (call_node c') files s2
  end.
Record clients_inv (y : aclients) : Prop := {
  ci_length : length (ac_clients y) = length calls;
  ci_client : forall t l cur rest, nth_error calls t = Some l -> nth_error (ac_clients y) t = Some (cur, rest) ->
    exists dn, own_log t (ac_log y) = combine dn (snd (calls_alone dn s0)) /\ client_state (ac_files y) l dn cur rest;
  ci_frame : forall q, (forall l c, In l calls -> In c l -> changes c -> ~ doc_of (call_node c) q) -> ac_files y q = s0 q
}.

Lemma clients_inv_init : clients_inv (aclients_init s0 calls).
Proof using Type.
  split; cbn [aclients_init ac_clients ac_log ac_files].
  - apply map_length.
  - intros t l cur rest N E. rewrite (map_nth_error _ _ _ N) in E. injection E as <- <-.
    exists []. split; [reflexivity|]. split; [reflexivity|]. intros c _ q _. reflexivity.
  - reflexivity.
Qed.

Lemma nth_in_calls y t x : clients_inv y -> nth_error (ac_clients y) t = Some x -> exists l, nth_error calls t = Some l.
Proof using Type.
  intros I N. destruct (nth_error calls t) as [l|] eqn:E; [eauto|]. apply nth_error_None in E. rewrite <- (ci_length I) in E.
  apply nth_error_None in E. congruence.
Qed.
Lemma is_change_spec c : is_change c = true -> changes c.
Proof using Type. destruct c; cbn; [discriminate|auto|auto]. Qed.
Lemma own_log_other t t' c o log : t <> t' -> own_log t (log ++ [(t', c, o)]) = own_log t log.
Proof using Type.
  intros D. unfold own_log. rewrite filter_app, map_app. cbn. destruct (Nat.eqb_spec t' t); [congruence|]. apply app_nil_r.
Qed.
Lemma own_log_same t c o log : own_log t (log ++ [(t, c, o)]) = own_log t log ++ [(c, o)].
Proof using Type. unfold own_log. rewrite filter_app, map_app. cbn. now rewrite Nat.eqb_refl. Qed.
Lemma combine_snoc {A B} (l : list A) (l' : list B) a b : length l = length l' -> combine (l ++ [a]) (l' ++ [b]) = combine l l' ++ [(a, b)].
Proof using Type. revert l'. induction l as [|x l IH]; intros [|y l'] E; cbn in *; try discriminate; [reflexivity|]. now rewrite IH by congruence. Qed.

Lemma clients_inv_step y y' : clients_inv y -> aclients_step y y' -> clients_inv y'.
Proof using sep.
  intros I [t St]. destruct St as [c rest W|c f rest W|c o rest W];
    destruct (nth_in_calls I W) as [l Nl]; pose proof (nth_error_Some (ac_clients y) t) as Lt; rewrite W in Lt;
    assert (Lt' : (t < length (ac_clients y))%nat) by (apply Lt; discriminate); clear Lt;
    destruct (@ci_client _ I t l _ _ Nl W) as (dn & Hl & Hs).
  - destruct Hs as [E A]. split; cbn [ac_clients ac_log ac_files]; [rewrite set_nth_length; apply ci_length, I| |apply ci_frame, I].
    intros t' l' cur' rest' N' W'. destruct (Nat.eq_dec t t') as [->|D].
    + rewrite set_nth_same in W' by exact Lt'. injection W' as <- <-. assert (l' = l) as -> by congruence.
      exists dn. split; [exact Hl|]. split; [exact E|]. split; [apply local_call|].
      exists (fst (calls_alone dn s0)). split; [apply steps_alone|exact A].
    + rewrite set_nth_other in W' by exact D. exact (@ci_client _ I t' l' _ _ N' W').
  - destruct Hs as (E & Lc & s2 & R & A). assert (Ic : In c l) by (rewrite E; apply in_elt).
    inversion Lc as [|f' F1 F2 F3 F4]; subst f'.
    split; cbn [ac_clients ac_log ac_files]; [rewrite set_nth_length; apply ci_length, I| |].
    + intros t' l' cur' rest' N' W'. destruct (Nat.eq_dec t t') as [->|D].
      * rewrite set_nth_same in W' by exact Lt'. injection W' as <- <-. assert (l' = l) as -> by congruence.
        exists dn. split; [exact Hl|]. split; [exact E|]. split; [apply F4|].
        destruct (F1 (ac_files y) s2 (A c Ic)) as [Ef Af]. exists (fst (f s2)). split.
        -- rewrite Ef. revert R. cbn [run_steps]. destruct (f s2). auto.
        -- intros c' Ic' q Fq. destruct (doc_dec (call_node c) q) as [Dq|Nq].
           ++ apply Af. now right.
           ++ rewrite !F2 by exact Nq. exact (A c' Ic' q Fq).
      * rewrite set_nth_other in W' by exact D. destruct (@ci_client _ I t' l' _ _ N' W') as (dn' & Hl' & Hs').
        exists dn'. split; [exact Hl'|].
        assert (K : forall c' q, In c' l' -> foot (call_node c') q -> fst (f (ac_files y)) q = ac_files y q).
        { intros c' q Ic' Fq. destruct (is_change c) eqn:Ch; [|now rewrite F3].
          apply F2. exact (@sep_foot t' t l' l c' c q ltac:(congruence) N' Nl Ic' Ic (is_change_spec Ch) Fq). }
        destruct cur' as [[c1 code1]|]; cbn [client_state] in *.
        -- destruct Hs' as (E' & Lc' & s2' & R' & A'). split; [exact E'|]. split; [exact Lc'|]. exists s2'. split; [exact R'|].
           intros c' Ic' q Fq. rewrite (K c' q Ic' Fq). exact (A' c' Ic' q Fq).
        -- destruct Hs' as (E' & A'). split; [exact E'|]. intros c' Ic' q Fq. rewrite (K c' q Ic' Fq). exact (A' c' Ic' q Fq).
    + intros q Nq. rewrite <- (@ci_frame _ I q Nq). destruct (is_change c) eqn:Ch; [|now rewrite F3].
      apply F2. exact (Nq l c (nth_error_In _ _ Nl) Ic (is_change_spec Ch)).
  - destruct Hs as (E & Lc & s2 & [R1 R2] & A). cbn [run_steps fst snd] in R1, R2.
    split; cbn [ac_clients ac_log ac_files]; [rewrite set_nth_length; apply ci_length, I| |apply ci_frame, I].
    intros t' l' cur' rest' N' W'. destruct (Nat.eq_dec t t') as [->|D].
    + rewrite set_nth_same in W' by exact Lt'. injection W' as <- <-. assert (l' = l) as -> by congruence.
      exists (dn ++ [c]). destruct (calls_alone_app dn [c] s0) as [B1 B2]. cbn [calls_alone fst snd] in B1, B2. split.
      * rewrite own_log_same, B2, combine_snoc by (now rewrite calls_alone_length). now rewrite Hl, R2.
      * split; [now rewrite <- app_assoc|]. intros c' Ic' q Fq. rewrite B1, <- R1. exact (A c' Ic' q Fq).
    + rewrite set_nth_other in W' by exact D. rewrite own_log_other by congruence. exact (@ci_client _ I t' l' _ _ N' W').
Qed.

Theorem clients_reach y : reach aclients_step (aclients_init s0 calls) y -> clients_inv y.
Proof using sep. induction 1 as [|y y' _ IH St]; [apply clients_inv_init|exact (clients_inv_step IH St)]. Qed.
End Clients.

Theorem clients_alone calls s y : separate calls -> reach aclients_step (aclients_init s calls) y ->
  (forall t l, nth_error calls t = Some l -> exists dn rest,
     l = dn ++ rest /\ own_log t (ac_log y) = combine dn (snd (calls_alone dn s)) /\ (aclients_done y -> rest = [])) /\
  (aclients_done y -> forall t l c q, nth_error calls t = Some l -> In c l -> foot (call_node c) q ->
     ac_files y q = fst (calls_alone l s) q) /\
  (forall q, (forall l c, In l calls -> In c l -> changes c -> ~ doc_of (call_node c) q) -> ac_files y q = s q).
Proof.
  intros S R. pose proof (clients_reach S R) as I.
  assert (N : forall t l, nth_error calls t = Some l -> exists cur rest, nth_error (ac_clients y) t = Some (cur, rest)).
  { intros t l E. destruct (nth_error (ac_clients y) t) as [[cur rest]|] eqn:W; [eauto|].
    apply nth_error_None in W. rewrite (ci_length I) in W. apply nth_error_None in W. congruence. }
  split; [|split].
  - intros t l E. destruct (N t l E) as (cur & rest & W). destruct (@ci_client _ _ _ I t l _ _ E W) as (dn & Hl & Hs).
    destruct cur as [[c code]|]; cbn [client_state] in Hs.
    + exists dn, (c :: rest). split; [apply Hs|]. split; [exact Hl|]. intros D.
      apply nth_error_In in W. unfold aclients_done in D. rewrite Forall_forall in D. specialize (D _ W). discriminate.
    + exists dn, rest. split; [apply Hs|]. split; [exact Hl|]. intros D.
      apply nth_error_In in W. unfold aclients_done in D. rewrite Forall_forall in D. specialize (D _ W). congruence.
  - intros D t l c q E Ic Fq. destruct (N t l E) as (cur & rest & W). destruct (@ci_client _ _ _ I t l _ _ E W) as (dn & Hl & Hs).
    pose proof (nth_error_In _ _ W) as W'. unfold aclients_done in D. rewrite Forall_forall in D. specialize (D _ W').
    injection D as -> ->. destruct Hs as [-> A]. rewrite app_nil_r in *. exact (A c Ic q Fq).
  - apply ci_frame, I.
Qed.
