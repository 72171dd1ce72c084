(** Properties C101 and C102: several clients that make, open and remove nodes, and
    creation and removal that are interrupted. *)
From Coq Require Import ZArith String.
From Verif Require Import M_Base M_Double M_Json M_Mode M_Metadata S_Metadata M_Fs M_Attributes M_Container M_Pool M_AttrSteps M_NodeSteps
  S_Attributes S_AttrSteps S_Container S_NodeSteps P_Attributes P_Container P_AttrSteps P_NodeSteps P_NodeSteps2 P_NodeSteps3
  Properties_Attributes Properties_Container.
From Verif Require M_Tree S_Tree Properties_Tree.
Import ListNotations.
Local Open Scope list_scope.
Local Open Scope N_scope.

(** C101: clients (threads or processes) that make files, groups and datasets, open and
    remove them and write attributes, each at nodes of its own, in containers that are
    there already: under every schedule every call returns what it would return if the
    other clients did not exist.  At the end the files at the nodes of a client are as it
    would have left them.  Of the rest nothing is changed, but directories on the way to
    new nodes are made: exactly those that one of the clients would make. *)
Theorem C101_clients s own calls y : apart s own calls -> reach nclients_step (nclients_init s calls) y ->
  (forall t l, nth_error calls t = Some l -> exists dn rest,
     l = dn ++ rest /\ own_nlog t (nc_log y) = combine dn (snd (ncalls_alone dn s)) /\ (nclients_done y -> rest = [])) /\
  (nclients_done y -> forall t T l q, nth_error own t = Some T -> nth_error calls t = Some l -> inside T q ->
     nc_files y q = fst (ncalls_alone l s) q) /\
  (forall q, common own q -> nc_files y q = s q \/ s q = None /\ nc_files y q = Some NDir) /\
  (nclients_done y -> forall q, common own q ->
     (nc_files y q <> s q <-> exists l, In l calls /\ fst (ncalls_alone l s) q <> s q)).
Proof. exact (@nclients_alone s own calls y). Qed.
Print Assumptions C101_clients.

(** C101: in particular, a client that creates a dataset while others work in the same
    container and then opens it gets the dataset that it has created, and so does
    everybody who opens it afterwards. *)
Theorem C101_create_open s own calls y t root key dn sh ch cn op fill delim fmt enc shard s' o z :
  apart s own calls -> reach nclients_step (nclients_init s calls) y -> nclients_done y ->
  nth_error calls t = Some [DoDataset root key dn sh ch cn op fill delim fmt enc shard; DoOpen root key] ->
  fs_ok s -> key_free key -> options_ok op -> dbl_ok fill ->
  is_zarr_group s (h_path root) = Ok z -> (z = true -> fmt = 2%Z \/ fmt = 3%Z) ->
  create_dataset root key dn sh ch cn op fill delim fmt enc shard s = (s', Ok o) ->
  recordable_codec z fmt (op_codec o) -> recordable_fill z (op_dtype o) (op_fill o) ->
  exists o', same_object o o' /\
    own_nlog t (nc_log y) = [(DoDataset root key dn sh ch cn op fill delim fmt enc shard, Ok (Object o)); (DoOpen root key, Ok (Object o'))] /\
    open_dataset (nc_files y) root key = Ok o'.
Proof. exact (@clients_create_open s own calls y t root key dn sh ch cn op fill delim fmt enc shard s' o z). Qed.
Print Assumptions C101_create_open.

(** C101: no client waits, and every execution ends. *)
Theorem C101_ends y : Acc (fun a b => nclients_step b a) y /\ (nclients_done y \/ exists y', nclients_step y y').
Proof. split; [apply nclients_terminate|apply nclients_progress]. Qed.
Print Assumptions C101_ends.

(** C102: a call that makes a node and is interrupted changes nothing but what is at the
    node, and makes directories on the way to it. *)
Theorem C102_create_frame c p s s' : works_on c = Some p -> ncrash (steps_of_ncall c) s s' ->
  forall q, below p q = true \/ s' q = s q \/ below q p = true /\ s q = None /\ s' q = Some NDir.
Proof. exact (@making_frame c p s s'). Qed.
Print Assumptions C102_create_frame.

(** C102: after what is there has been removed, the call can be repeated: it answers as if
    there had been no interruption, and if it succeeds the files are the same. *)
Theorem C102_create_again c p s s' m : makes c = true -> works_on c = Some p -> fs_ok s -> s p = None ->
  (forall r, In r (looks_at c) -> s r = Some NDir /\ forall d, In d documents -> below (r ++ [d]) p = false) ->
  ncrash (steps_of_ncall c) s s' -> can_write m = true ->
  snd (ncall_alone c (cleared m p s')) = snd (ncall_alone c s) /\
  (is_ok (snd (ncall_alone c s)) = true -> same (fst (ncall_alone c (cleared m p s'))) (fst (ncall_alone c s))).
Proof. exact (@making_repeat c p s s' m). Qed.
Print Assumptions C102_create_again.

(** C102: an interrupted creation of a dataset leaves nothing that can be opened as a
    dataset, unless it was complete. *)
Theorem C102_create_dataset c p s s' root key : makes_dataset c = true ->
  works_on c = Some p -> p = h_path root ++ key -> fs_ok s -> s p = None -> ncrash (steps_of_ncall c) s s' ->
  is_ok (open_dataset s' root key) = false \/ same s' (fst (ncall_alone c s)).
Proof. exact (@making_dataset c p s s' root key). Qed.
Print Assumptions C102_create_dataset.

(** C102: an interrupted removal changes nothing but what is at and below the node; there,
    each file is as before or gone, and what is left lies in directories; if the node
    itself is gone the removal is complete, and otherwise repeating it completes it. *)
Theorem C102_remove h s s' : fs_ok s -> h_path h <> [] -> can_write (h_mode h) = true -> s (h_path h) <> None ->
  ncrash (steps_of_ncall (DoRemove h)) s s' ->
  (forall q, below (h_path h) q = false -> s' q = s q) /\
  (forall q, s' q = s q \/ s' q = None) /\
  fs_ok s' /\
  (s' (h_path h) = None -> same s' (fst (node_remove h s))) /\
  (s' (h_path h) <> None -> snd (node_remove h s') = Ok tt /\ same (fst (node_remove h s')) (fst (node_remove h s))).
Proof. exact (@removing h s s'). Qed.
Print Assumptions C102_remove.

(** ** Cases *)
Definition ex_new (key : path) (sh : shape) : ncall :=
  DoDataset ex_root_h key "int16" sh [2; 3] "gzip" [("useZlib"%string, OBool false)] (DZero false) "/" 2 "default" [].
Definition ex_own : list (list path) := [[["f"; "x"; "y"]]; [["f"; "g"]]; [["f"; "x"; "z"]]]%string.
Definition ex_work : list (list ncall) :=
  [[ex_new ["x"; "y"]%string [8; 6]; DoOpen ex_root_h ["x"; "y"]%string];
   [DoIn ex_root_h ["g"]%string; DoRemove (Handle ["f"; "g"]%string Mode_a)];
   [ex_new ["x"; "z"]%string [5; 6]; DoAttr (AtWrite HDataset Mode_a ["f"; "x"; "z"]%string (JObj [("a"%string, JInt 1)]))]].
Lemma ex_apart : apart (ex_fs true 2) ex_own ex_work.
Proof.
  assert (Rt : ex_fs true 2 ["f"%string] = Some NDir) by (vm_compute; reflexivity).
  split; [reflexivity| | |].
  - intros t t' T T' p p' N E1 E2.
    destruct t as [|[|[|t]]]; cbn in E1; try (destruct t; discriminate); injection E1 as <-;
    destruct t' as [|[|[|t']]]; cbn in E2; try (destruct t'; discriminate); injection E2 as <-; try congruence;
      intros [<-|[]] [<-|[]]; reflexivity.
  - intros t T l c p E1 E2. destruct t as [|[|[|t]]]; cbn in E1, E2; try (destruct t; discriminate);
      injection E1 as <-; injection E2 as <-; intros [<-|[<-|[]]]; cbn; intros E; try discriminate; injection E as <-;
      eexists; (split; [now left|reflexivity]).
  - intros t T l c p E1 E2. destruct t as [|[|[|t]]]; cbn in E1, E2; try (destruct t; discriminate);
      injection E1 as <-; injection E2 as <-; intros [<-|[<-|[]]]; cbn; intros Ip; repeat destruct Ip as [<-|Ip]; try contradiction;
      first [left; eexists; split; [now left|reflexivity]
            |right; split; [exact Rt|]; intros t' T' p' N E Hp;
             destruct t' as [|[|[|t']]]; cbn in E; try (destruct t'; discriminate); try congruence; injection E as <-;
             destruct Hp as [<-|[]]; (split; [reflexivity|]); intros d Hd; cbn in Hd;
             repeat destruct Hd as [<-|Hd]; try contradiction; reflexivity].
Qed.

Example C101_case : apart (ex_fs true 2) ex_own ex_work /\
  exists y, reach nclients_step (nclients_init (ex_fs true 2) ex_work) y /\ nclients_done y /\
  map snd (own_nlog 1 (nc_log y)) = [Ok (Whether true); Ok Nothing] /\
  nc_files y ["f"; "g"; "d"; ".zarray"]%string = None /\ nc_files y ["f"; "x"]%string = Some NDir /\
  (exists o, open_dataset (nc_files y) ex_root_h ["x"; "y"]%string = Ok o /\ op_shape o = [8; 6]) /\
  nc_files y ["f"; "x"; "z"; ".zattrs"]%string = Some (NDoc (JObj [("a"%string, JUInt 1)])).
Proof.
  split; [exact ex_apart|].
  destruct (@nclients_return (nclients_init (ex_fs true 2) ex_work) _ (reach_refl _ _)) as (y & R & D).
  exists y. split; [exact R|]. split; [exact D|].
  destruct (C101_clients ex_apart R) as (A & B & _ & C).
  split; [|split; [|split; [|split]]].
  - destruct (A 1%nat _ eq_refl) as (dn & rest & E1 & E2 & E3). rewrite (E3 D), app_nil_r in E1. subst dn. rewrite E2. vm_compute. reflexivity.
  - rewrite (B D 1%nat _ _ ["f"; "g"; "d"; ".zarray"]%string eq_refl eq_refl); [vm_compute; reflexivity|]. eexists. split; [now left|reflexivity].
  - assert (Cx : common ex_own ["f"; "x"]%string).
    { intros T HT (p & Ip & Bp). cbn in HT. repeat destruct HT as [<-|HT]; try contradiction; destruct Ip as [<-|[]]; discriminate. }
    pose proof (proj2 (C D _ Cx)) as X. destruct (C101_clients ex_apart R) as (_ & _ & F & _). destruct (F _ Cx) as [E|[_ E]]; [|exact E].
    exfalso. apply X; [|exact E]. eexists. split; [now left|]. vm_compute. discriminate.
  - assert (Cr : exists s' o, create_dataset ex_root_h ["x"; "y"]%string "int16" [8; 6] [2; 3] "gzip" [("useZlib"%string, OBool false)] (DZero false) "/" 2 "default" [] (ex_fs true 2) = (s', Ok o) /\
      op_shape o = [8; 6] /\ op_codec o = Cfg_zlib 5 false /\ op_fill o = FInt 0 /\ op_dtype o = DT_int16).
    { apply after_ok. vm_compute. auto. }
    destruct Cr as (s' & o & Cr & Sh & Co & Fi & Dt).
    destruct (@C101_create_open _ _ _ _ 0%nat ex_root_h ["x"; "y"]%string "int16" [8; 6] [2; 3] "gzip" [("useZlib"%string, OBool false)] (DZero false) "/" 2 "default" [] s' o true ex_apart R D eq_refl (ex_fs_ok _ _)) as (o' & So & _ & Eo).
    + split; discriminate.
    + intros k v [H|[]]. discriminate H.
    + exact I.
    + vm_compute. reflexivity.
    + auto.
    + exact Cr.
    + rewrite Co. cbn. auto.
    + left. reflexivity.
    + exists o'. split; [exact Eo|]. now rewrite (so_shape So).
  - rewrite (B D 2%nat _ _ ["f"; "x"; "z"; ".zattrs"]%string eq_refl eq_refl); [vm_compute; reflexivity|]. eexists. split; [now left|reflexivity].
Qed.

(** C101 needs nodes of their own: two clients create the same dataset with different
    extents, both calls succeed, and the dataset has the extents of one of them; *)
Lemma one_object (l : list (outcome answer)) (P : opened -> Prop) :
  match l with [Ok (Object o)] => P o | _ => False end -> exists o, l = [Ok (Object o)] /\ P o.
Proof. destruct l as [|[[| |o|]|e|] [|]]; try contradiction. intros H. now exists o. Qed.
Lemma is_object (x : outcome opened) (P : opened -> Prop) :
  match x with Ok o => P o | _ => False end -> exists o, x = Ok o /\ P o.
Proof. destruct x as [o|e|]; try contradiction. intros H. now exists o. Qed.
Definition ex_turns (n t : nat) : list nat := repeat t n.
Definition ex_both : list (list ncall) := [[ex_new ["x"]%string [8; 6]]; [ex_new ["x"]%string [5; 6]]].
Definition ex_both_end : nclients := nexec (nclients_init (ex_fs true 2) ex_both) (ex_turns 9 0 ++ ex_turns 25 1 ++ ex_turns 25 0).
Theorem C101_same_node_refuted :
  reach nclients_step (nclients_init (ex_fs true 2) ex_both) ex_both_end /\ nclients_done ex_both_end /\
  (exists o, map snd (own_nlog 0 (nc_log ex_both_end)) = [Ok (Object o)] /\ op_shape o = [8; 6]) /\
  (exists o, map snd (own_nlog 1 (nc_log ex_both_end)) = [Ok (Object o)] /\ op_shape o = [5; 6]) /\
  exists o, open_dataset (nc_files ex_both_end) ex_root_h ["x"]%string = Ok o /\ op_shape o = [8; 6].
Proof.
  split; [apply nexec_reach, reach_refl|].
  assert (D : nc_clients ex_both_end = [(None, []); (None, [])]) by (vm_compute; reflexivity).
  split; [unfold nclients_done; rewrite D; repeat constructor|].
  split; [apply one_object; vm_compute; reflexivity|]. split; [apply one_object; vm_compute; reflexivity|].
  apply is_object. vm_compute. reflexivity.
Qed.
Print Assumptions C101_same_node_refuted.

(** and a client that finds a dataset that another one is creating cannot open it. *)
Definition ex_reader : list (list ncall) := [[ex_new ["x"]%string [8; 6]]; [DoIn ex_root_h ["x"]%string; DoOpen ex_root_h ["x"]%string]].
Definition ex_reader_end : nclients := nexec (nclients_init (ex_fs true 2) ex_reader) (ex_turns 10 0 ++ ex_turns 25 1).
Theorem C101_reader_refuted :
  reach nclients_step (nclients_init (ex_fs true 2) ex_reader) ex_reader_end /\
  map snd (own_nlog 1 (nc_log ex_reader_end)) = [Ok (Whether true); Throw ERuntime].
Proof. split; [apply nexec_reach, reach_refl|vm_compute; reflexivity]. Qed.
Print Assumptions C101_reader_refuted.

Example C102_create_case : exists s', let c := ex_new ["x"; "y"]%string [8; 6] in let p := ["f"; "x"; "y"]%string in let s := ex_fs true 2 in
  fs_ok s /\ s p = None /\ s ["f"%string] = Some NDir /\ ncrash (steps_of_ncall c) s s' /\ s' p = Some NDir /\
  is_ok (open_dataset s' ex_root_h ["x"; "y"]%string) = false /\ is_ok (snd (ncall_alone c s)) = true /\
  snd (ncall_alone c (cleared Mode_a p s')) = snd (ncall_alone c s).
Proof.
  exists (nstopped 12 (steps_of_ncall (ex_new ["x"; "y"]%string [8; 6])) (ex_fs true 2)). cbv zeta.
  assert (S : ncrash (steps_of_ncall (ex_new ["x"; "y"]%string [8; 6])) (ex_fs true 2)
    (nstopped 12 (steps_of_ncall (ex_new ["x"; "y"]%string [8; 6])) (ex_fs true 2))) by apply nstopped_crash.
  split; [apply ex_fs_ok|]. split; [vm_compute; reflexivity|]. split; [vm_compute; reflexivity|]. split; [exact S|].
  split; [vm_compute; reflexivity|]. split; [vm_compute; reflexivity|]. split; [vm_compute; reflexivity|].
  refine (proj1 (C102_create_again (m := Mode_a) _ _ (ex_fs_ok true 2) _ _ S _)); try reflexivity.
  - intros r [<-|[]]. split; [vm_compute; reflexivity|]. intros d Hd. cbn in Hd. repeat destruct Hd as [<-|Hd]; try contradiction; reflexivity.
Qed.

(** Without removing what is there the call cannot be repeated: the name is taken, by
    something that cannot be opened; *)
Theorem C102_repeat_refuted : exists s', let c := ex_new ["x"]%string [8; 6] in
  is_ok (snd (ncall_alone c (ex_fs true 2))) = true /\ ncrash (steps_of_ncall c) (ex_fs true 2) s' /\
  snd (ncall_alone c s') = Throw EInvalidArgument /\ group_in s' ex_root_h ["x"%string] = true /\
  open_dataset s' ex_root_h ["x"%string] = Throw ERuntime.
Proof.
  exists (nstopped 9 (steps_of_ncall (ex_new ["x"]%string [8; 6])) (ex_fs true 2)). cbv zeta.
  split; [vm_compute; reflexivity|]. split; [apply nstopped_crash|]. repeat split; vm_compute; reflexivity.
Qed.
Print Assumptions C102_repeat_refuted.

(** and an interrupted creation of a group in a zarr container leaves what is taken for
    an n5 group: a dataset that is created in it is an n5 dataset. *)
Theorem C102_group_refuted : exists s', let c := DoGroup ex_root_h ["x"]%string 2 in
  is_zarr_group (ex_fs true 2) ["f"%string] = Ok true /\ ncrash (steps_of_ncall c) (ex_fs true 2) s' /\
  is_zarr_group s' ["f"; "x"]%string = Ok false /\
  exists s'' o, create_dataset (Handle ["f"; "x"]%string Mode_a) ["d"]%string "int16" [8; 6] [2; 3] "raw" [] (DZero false) "." 2 "default" [] s' = (s'', Ok o) /\
    s'' ["f"; "x"; "d"; ".zarray"]%string = None /\ s'' ["f"; "x"; "d"; "attributes.json"]%string <> None.
Proof.
  exists (nstopped 9 (steps_of_ncall (DoGroup ex_root_h ["x"]%string 2)) (ex_fs true 2)). cbv zeta.
  split; [vm_compute; reflexivity|]. split; [apply nstopped_crash|]. split; [vm_compute; reflexivity|].
  apply after_ok. vm_compute. split; [reflexivity|discriminate].
Qed.
Print Assumptions C102_group_refuted.

(** Removal.  An interrupted one can leave a dataset that opens as before, with chunks
    missing: reading them gives the fill value. *)
Definition ex_chunk : path := ["f"; "x"; "y"; "2"; "0"]%string.
Definition ex_stored : fsys :=
  fst (S_Tree.tree_call Properties_Tree.ex_M Properties_Tree.ex_v2 (S_S3.KWriteArray (M_Access.FromScalar [9; 1]) [4; 0] [1; 2]) Properties_Tree.ex_t2).
Definition ex_left : fsys := fun q => if path_eqb q ex_chunk then None else ex_stored q.
Definition ex_cells (s : fsys) := snd (S_Tree.tree_call Properties_Tree.ex_M Properties_Tree.ex_v2 (S_S3.KReadArray (M_View.View 0 [1; 2] [2; 1]) [4; 0] [[0; 0]; [0; 0]]) s).
Lemma ex_stored_ok : fs_ok ex_stored.
Proof.
  destruct Properties_Tree.ex_place as (_ & P & C).
  pose proof (@Properties_Tree.C89_call Properties_Tree.ex_M Properties_Tree.ex_v2 (S_S3.KWriteArray (M_Access.FromScalar [9; 1]) [4; 0] [1; 2])
    _ _ (proj1 Properties_Tree.ex_obj_ok) I P C) as X.
  unfold ex_stored. destruct (S_Tree.alone_call _ _ _ _) as [st' a]. destruct (S_Tree.tree_call _ _ _ _) as [t' a'].
  destruct X as (_ & Q & _). exact (S_Tree.dp_fs Q).
Qed.
Lemma ex_left_crash m : can_write m = true -> ncrash (steps_of_ncall (DoRemove (Handle ["f"; "x"; "y"]%string m))) ex_stored ex_left.
Proof.
  intros W. cbn [steps_of_ncall]. unfold nsteps_remove. cbn [h_mode h_path]. rewrite W. cbn [negb].
  apply ncrash_later. cbn [fst snd].
  assert (E : fs_exists ex_stored ["f"; "x"; "y"]%string = true) by (vm_compute; reflexivity). rewrite E. cbn [negb].
  apply ncrash_removing.
  - intros q. unfold ex_left. destruct (path_eqb q ex_chunk) eqn:Q; [|now left]. apply path_eqb_eq in Q. subst q. right. split; reflexivity.
  - intros q r N. unfold ex_left. destruct (path_eqb q ex_chunk) eqn:Q; [|congruence]. apply path_eqb_eq in Q. subst q. intros _ B.
    destruct (path_eqb r ex_chunk) eqn:Qr; [reflexivity|]. apply below_spec in B. destruct B as [x ->].
    destruct (ex_stored (ex_chunk ++ x)) eqn:X; [|reflexivity]. exfalso.
    assert (D : ex_stored ex_chunk = Some NDir).
    { refine (fs_ok_below ex_stored_ok (q := x) _ _); [congruence|]. intros ->. rewrite app_nil_r, path_eqb_refl in Qr. discriminate. }
    assert (D' : ex_stored ex_chunk = Some (NBlob [9; 1; 9; 1; 7; 0; 7; 0])) by (vm_compute; reflexivity). congruence.
Qed.
Example C102_remove_case : let h := Handle ["f"; "x"; "y"]%string Mode_a in
  fs_ok ex_stored /\ ex_stored (h_path h) <> None /\ ncrash (steps_of_ncall (DoRemove h)) ex_stored ex_left /\
  ex_left (h_path h) <> None /\ ex_stored ex_chunk <> None.
Proof.
  cbv zeta. split; [exact ex_stored_ok|]. split; [vm_compute; discriminate|]. split; [now apply ex_left_crash|]. split; vm_compute; discriminate.
Qed.
Theorem C102_remove_refuted : exists s', ncrash (steps_of_ncall (DoRemove (Handle ["f"; "x"; "y"]%string Mode_a))) ex_stored s' /\
  open_dataset s' ex_root_h ["x"; "y"]%string = Ok Properties_Tree.ex_v2 /\
  open_dataset ex_stored ex_root_h ["x"; "y"]%string = Ok Properties_Tree.ex_v2 /\
  ex_cells ex_stored = Ok (S_S3.ACells false [[9; 1]; [9; 1]]) /\
  ex_cells s' = Ok (S_S3.ACells false [[7; 0]; [7; 0]]).
Proof. exists ex_left. split; [now apply ex_left_crash|]. repeat split; vm_compute; reflexivity. Qed.
Print Assumptions C102_remove_refuted.
