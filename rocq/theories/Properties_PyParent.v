(** Properties of parents, names and files of Python objects. *)
From Coq Require Import ZArith Ascii String.
From Verif Require Import M_Base M_Double M_Json M_Mode M_Key S_Text M_Blocking M_Metadata S_Metadata M_Fs M_Attributes S_Attributes
  P_Attributes M_Container S_Container P_Container P_Container2 P_Container3 Properties_Attributes Properties_Container
  M_PyGroup S_PyGroup P_PyGroup Properties_PyGroup M_PyParent S_PyParent P_PyParent P_PyParent2.
Import ListNotations.
Local Open Scope list_scope.
Local Open Scope nat_scope.

(** * C113: parents, names and files *)

(** In every program, .file of every object returns (the loop over the parents ends),
    with one File object, whatever names were used and whatever other programs did. *)
Theorem C113_file ok m l i : history ok m l -> i < List.length m ->
  exists r f, py_file m i r /\ at_address m r (PGroup f) /\ pg_name f = ""%string /\ py_parent m r = Some r /\
    (forall r', py_file m i r' -> r' = r).
Proof. exact (@all_have_files ok m l i). Qed.
Print Assumptions C113_file.

(** It is the file that the object was obtained from: of all objects reached from a
    File, at any depth; unpickled objects have a file of their own, with path, mode and
    separator of the old one. *)
Theorem C113_file_kept ok m l c j : history ok m l -> In (c, j) l -> file_of_result m c j.
Proof. exact (@results_have_files ok m l c j). Qed.
Print Assumptions C113_file_kept.

(** .parent is the group on which the object was looked up or made. *)
Theorem C113_parent ok m l c j : history ok m l -> In (c, j) l -> parent_of_result m c j.
Proof. exact (@results_parents ok m l c j). Qed.
Print Assumptions C113_parent.

(** .name is the path of the object relative to its file, whatever groups were asked on
    the way, and the mode is that of the file. *)
Theorem C113_names m l i x : history proper_call m l -> at_address m i x ->
  exists r f key, py_file m i r /\ at_address m r (PGroup f) /\ pg_name f = ""%string /\ Forall proper key /\
    obj_path x = h_path (pg_handle f) ++ key /\ obj_name x = absolute_name key /\ obj_mode x = h_mode (pg_handle f).
Proof. exact (@places m l i x). Qed.
Print Assumptions C113_names.

(** .parent is the group that contains the object, if objects are looked up one name at a
    time; for new datasets and unpickled objects it always is. *)
Theorem C113_contains m l i p x : history stepwise_call m l -> at_address m i x -> py_parent m i = Some p -> p <> i ->
  exists g a, at_address m p (PGroup g) /\ directly_in g a x.
Proof. exact (@contained m l i p x). Qed.
Print Assumptions C113_contains.

Theorem C113_contains_new m l c j : history proper_call m l -> In (c, j) l ->
  match c with CCreateDataset _ _ _ | CUnpickle _ => True | _ => False end -> well_placed m j.
Proof. exact (@new_contained m l c j). Qed.
Print Assumptions C113_contains_new.

(** ** A program *)

(** For the examples: calls one after the other, all of which return. *)
Fixpoint ex_run (cs : list pcall) (s : fsys) (m : pyheap) (l : list (pcall * nat)) : option (pyheap * list (pcall * nat)) :=
  match cs with
  | [] => Some (m, l)
  | c :: r => match run_call c s m with
              | (s', m', Ok j) => ex_run r s' m' (l ++ [(c, j)])
              | _ => None
              end
  end.
Lemma ex_history ok cs : forall s m l m' l', Forall ok cs -> history ok m l -> ex_run cs s m l = Some (m', l') -> history ok m' l'.
Proof.
  induction cs as [|c r IH]; intros s m l m' l' F H; cbn [ex_run].
  - intros E; inversion E; now subst.
  - inversion F; subst. destruct (run_call c s m) as [[s1 m1] [j| |]] eqn:R; try discriminate.
    intros E. eapply IH; [assumption| |exact E]. eapply h_returns; eauto.
Qed.
(** What can be seen of the objects: name, parent, file. *)
Definition ex_seen (m : pyheap) : list (string * option nat * option nat) :=
  map (fun i => (match py_name m i with Some n => n | None => "?"%string end, py_parent m i, file_address m i)) (seq 0 (List.length m)).

(** f = File(..); f.create_dataset("a/b"); g = f["a"]; g["b"]; g.require_group("c"); a pickled g["b"]. *)
Definition ex_calls (f : py_format) : list pcall :=
  [COpen (Handle ["f"%string] Mode_a) None None (ex_n f) "."; CCreateDataset 0 "a/b" (ex_args [100; 20]%N None None []);
   CGet 0 "a"; CGet 3 "b"; CRequireGroup 3 "c"; CUnpickle 4].

Lemma ex_proper a : (String.eqb a "" || String.eqb a "." || String.eqb a ".." || negb (slash_free a))%bool = false -> proper a.
Proof.
  rewrite !Bool.orb_false_iff, Bool.negb_false_iff, !String.eqb_neq. unfold proper. tauto.
Qed.
Lemma ex_stepwise f : Forall stepwise_call (ex_calls f).
Proof.
  unfold ex_calls. repeat (apply Forall_cons); [..|apply Forall_nil]; cbn; try (intros n E; discriminate E);
    try (exists ["a"; "b"]%string; split; [discriminate|split; [repeat constructor; apply ex_proper; reflexivity|reflexivity]]);
    intros n E; inversion E; apply ex_proper; reflexivity.
Qed.

Example C113_case f : exists m l, history stepwise_call m l /\ ex_run (ex_calls f) (ex_file f) [] [] = Some (m, l) /\
  ex_seen m = [("", Some 0, Some 0); ("/a", Some 0, Some 0); ("/a/b", Some 1, Some 0); ("/a", Some 0, Some 0);
               ("/a/b", Some 3, Some 0); ("/a/c", Some 3, Some 0);
               ("", Some 6, Some 6); ("/a", Some 6, Some 6); ("/a/b", Some 7, Some 6)]%string.
Proof.
  assert (E : exists m l, ex_run (ex_calls f) (ex_file f) [] [] = Some (m, l) /\
    ex_seen m = [("", Some 0, Some 0); ("/a", Some 0, Some 0); ("/a/b", Some 1, Some 0); ("/a", Some 0, Some 0);
               ("/a/b", Some 3, Some 0); ("/a/c", Some 3, Some 0);
               ("", Some 6, Some 6); ("/a", Some 6, Some 6); ("/a/b", Some 7, Some 6)]%string).
  { destruct f; vm_compute; do 2 eexists; split; reflexivity. }
  destruct E as [m [l [R S]]]. exists m, l. split; [|now split].
  eapply ex_history; [apply ex_stepwise|constructor|exact R].
Qed.

(** A dataset that is looked up with a name of two parts: its parent is the file, not the
    group /a that contains it. *)
Theorem C113_contains_refuted : exists m l j, history proper_call m l /\ In (CGet 0 "a/b", j) l /\
  py_name m j = Some "/a/b"%string /\ py_parent m j = Some 0 /\ py_name m 0 = Some ""%string /\
  (exists i, In (CGet 0 "a", i) l /\ py_name m i = Some "/a"%string /\ i <> 0).
Proof.
  set (cs := [COpen (Handle ["f"%string] Mode_a) None None 2%Z "."; CCreateDataset 0 "a/b" (ex_args [100; 20]%N None None []);
              CGet 0 "a"; CGet 0 "a/b"]).
  assert (E : exists m l, ex_run cs (ex_file FZarr2) [] [] = Some (m, l) /\
    map snd l = [0; 2; 3; 4] /\ map fst l = cs /\
    py_name m 4 = Some "/a/b"%string /\ py_parent m 4 = Some 0 /\ py_name m 0 = Some ""%string /\ py_name m 3 = Some "/a"%string).
  { vm_compute; do 2 eexists; repeat split; reflexivity. }
  destruct E as [m [l [R [L1 [L2 [N [P [N0 N3]]]]]]]].
  assert (LL : l = combine cs [0; 2; 3; 4]).
  { rewrite <- L1, <- L2. clear. induction l as [|[x y] r IH]; [reflexivity|]. cbn. now rewrite <- IH. }
  exists m, l, 4. split.
  { eapply ex_history; [|constructor|exact R].
    unfold cs. repeat (apply Forall_cons); [..|apply Forall_nil]; intros n E; inversion E; [exists ["a"; "b"]%string|exists ["a"]%string|exists ["a"; "b"]%string];
      (split; [discriminate|split; [repeat constructor; apply ex_proper; reflexivity|reflexivity]]). }
  rewrite LL. split; [cbn; tauto|]. split; [exact N|]. split; [exact P|]. split; [exact N0|].
  exists 3. split; [cbn; tauto|]. split; [exact N3|discriminate].
Qed.
Print Assumptions C113_contains_refuted.

(** Groups looked up with a leading slash have a name that begins with two. *)
Theorem C113_names_refuted : exists m l j, history (fun _ => True) m l /\ In (CGet 0 "/a", j) l /\ py_name m j = Some "//a"%string.
Proof.
  set (cs := [COpen (Handle ["f"%string] Mode_a) None None 2%Z "."; CRequireGroup 0 "a"; CGet 0 "/a"]).
  assert (E : exists m l, ex_run cs (ex_file FZarr2) [] [] = Some (m, l) /\ map snd l = [0; 1; 2] /\ map fst l = cs /\
    py_name m 2 = Some "//a"%string).
  { vm_compute; do 2 eexists; repeat split; reflexivity. }
  destruct E as [m [l [R [L1 [L2 N]]]]].
  assert (LL : l = combine cs [0; 1; 2]).
  { rewrite <- L1, <- L2. clear. induction l as [|[x y] r IH]; [reflexivity|]. cbn. now rewrite <- IH. }
  exists m, l, 2. split; [eapply ex_history; [|constructor|exact R]; repeat constructor|].
  rewrite LL. split; [cbn; tauto|exact N].
Qed.
Print Assumptions C113_names_refuted.
