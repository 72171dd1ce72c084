(** Properties C99 and C100: attributes that several clients access, and calls that are
    interrupted. *)
From Coq Require Import ZArith String.
From Verif Require Import M_Base M_Double M_Json M_Mode M_Metadata M_Fs M_Attributes M_Container M_Pool M_AttrSteps
  S_Attributes S_AttrSteps P_Attributes P_AttrSteps P_AttrSteps2 Properties_Attributes.
Import ListNotations.
Local Open Scope list_scope.
Local Open Scope N_scope.

(** C99: clients (threads or processes) that call readAttributes, writeAttributes and
    removeAttribute, where nodes that one of them changes are not used by the others:
    under every schedule every call returns what it would return if the other clients
    did not exist; so are the documents at the end, and all other files are as they
    were. *)
Theorem C99_clients calls s y : separate calls -> reach aclients_step (aclients_init s calls) y ->
  (forall t l, nth_error calls t = Some l -> exists dn rest,
     l = dn ++ rest /\ own_log t (ac_log y) = combine dn (snd (calls_alone dn s)) /\ (aclients_done y -> rest = [])) /\
  (aclients_done y -> forall t l c q, nth_error calls t = Some l -> In c l -> foot (call_node c) q ->
     ac_files y q = fst (calls_alone l s) q) /\
  (forall q, (forall l c, In l calls -> In c l -> changes c -> ~ doc_of (call_node c) q) -> ac_files y q = s q).
Proof. exact (@clients_alone calls s y). Qed.
Print Assumptions C99_clients.

(** C99: in terms of tables: when all clients have finished, the attributes of each node
    show the table that the calls of its client make, the right calls have succeeded, and
    the metadata of datasets is unchanged. *)
Theorem C99_tables ws s y :
  NoDup (map w_node ws) ->
  (forall w w' d, In w ws -> In w' ws -> In d documents -> w_node w' <> w_node w ++ [d]) ->
  reach aclients_step (aclients_init s (map writer_calls ws)) y -> aclients_done y ->
  forall t w v z j0, nth_error ws t = Some w ->
  can_write (w_mode w) = true -> attr_node (w_kind w) s (w_node w) v z -> Forall aop_ok (w_ops w) ->
  read_attributes (w_kind w) s (w_node w) = Ok j0 ->
  successes (own_log t (ac_log y)) = fst (table_run (protected (w_kind w) z) (w_ops w) (fun a => jfind a j0)) /\
  (exists j, read_attributes (w_kind w) (ac_files y) (w_node w) = Ok j /\
     shows j (snd (table_run (protected (w_kind w) z) (w_ops w) (fun a => jfind a j0)))) /\
  (w_kind w = HDataset -> read_dataset_metadata (ac_files y) (w_node w) = read_dataset_metadata s (w_node w)).
Proof. exact (@writers_spec ws s y). Qed.
Print Assumptions C99_tables.

(** C99: no client waits, and every execution ends. *)
Theorem C99_ends y : Acc (fun a b => aclients_step b a) y /\ (aclients_done y \/ exists y', aclients_step y y').
Proof. split; [apply aclients_terminate|apply aclients_progress]. Qed.
Print Assumptions C99_ends.

(** C100: a call that changes attributes and is interrupted leaves every file but the
    attribute document as it was; reading then shows the attributes from before or from
    after the call, or fails, and the metadata of the dataset is as before or cannot be
    read.  What is missing: it can be unreadable, see [C100_refuted]. *)
Theorem C100_crash_partial k m p o s v z s' : can_write m = true -> attr_node k s p v z -> aop_ok o ->
  acrash (steps_of_call (change_call k m p o)) s s' ->
  (forall q, q <> p ++ [attr_file v z] -> s' q = s q) /\
  (read_attributes k s' p = read_attributes k s p \/
   read_attributes k s' p = read_attributes k (fst (call_alone (change_call k m p o) s)) p \/
   read_attributes k s' p = Throw EJson) /\
  (k = HDataset -> read_dataset_metadata s' p = read_dataset_metadata s p \/ read_dataset_metadata s' p = Throw EJson).
Proof. exact (@crash_spec k m p o s v z s'). Qed.
Print Assumptions C100_crash_partial.

(** ** Cases *)
Definition ex_group : path := ["f"; "g"]%string.
Definition ex_data : path := ["f"; "g"; "d"]%string.
Definition ex_writers : list writer :=
  [Writer HDataset Mode_a ex_data ex_ops; Writer HGroup Mode_a ex_group [AWrite (JObj [("u"%string, JInt 1)])]].

Example C99_case : exists y, NoDup (map w_node ex_writers) /\
  (forall w w' d, In w ex_writers -> In w' ex_writers -> In d documents -> w_node w' <> w_node w ++ [d]) /\
  separate (map writer_calls ex_writers) /\
  reach aclients_step (aclients_init (ex_fs false 2) (map writer_calls ex_writers)) y /\ aclients_done y /\
  (exists j, read_attributes HDataset (ac_files y) ex_data = Ok j /\ jfind "c" j = Some (JArr [JBool true])) /\
  exists j, read_attributes HGroup (ac_files y) ex_group = Ok j /\ jfind "u" j = Some (JUInt 1).
Proof.
  destruct (@aclients_return (aclients_init (ex_fs false 2) (map writer_calls ex_writers)) _ (reach_refl _ _)) as (y & R & D).
  exists y.
  assert (N : NoDup (map w_node ex_writers)).
  { repeat constructor; cbn; intros H; repeat destruct H as [H|H]; (discriminate || destruct H). }
  assert (M : forall w w' d, In w ex_writers -> In w' ex_writers -> In d documents -> w_node w' <> w_node w ++ [d]).
  { intros w w' d [<-|[<-|[]]] [<-|[<-|[]]] Hd E; cbn in E; try discriminate E. injection E as <-. cbn in Hd.
    repeat destruct Hd as [Hd|Hd]; (discriminate || destruct Hd). }
  split; [exact N|]. split; [exact M|]. split; [exact (writers_separate N M)|].
  split; [exact R|]. split; [exact D|]. destruct C48_case as (A1 & _). split.
  - destruct (@C99_tables _ _ _ N M R D 0%nat _ false false (JObj []) eq_refl eq_refl A1 ex_ops_ok) as (_ & (j & Rj & Sj) & _).
    { vm_compute. reflexivity. }
    exists j. split; [exact Rj|]. rewrite (Sj "c"%string). vm_compute. reflexivity.
  - destruct (@C99_tables _ _ _ N M R D 1%nat _ false false JNull eq_refl eq_refl) as (_ & (j & Rj & Sj) & _).
    { split; try (vm_compute; reflexivity). vm_compute. split; [reflexivity|discriminate]. }
    { repeat constructor. intros []. }
    { vm_compute. reflexivity. }
    exists j. split; [exact Rj|]. rewrite (Sj "u"%string). vm_compute. reflexivity.
Qed.

(** C99 needs clients with nodes of their own: two clients set different attributes of one
    dataset, both calls succeed, and one attribute is lost; *)
Definition ex_set (a : string) : acall := AtWrite HDataset Mode_a ex_data (JObj [(a, JInt 1)]).
Definition ex_rest (n t : nat) : list nat := repeat t n.
Theorem C99_same_node_refuted :
  exists y, reach aclients_step (aclients_init (ex_fs false 2) [[ex_set "a"]; [ex_set "b"]]) y /\ aclients_done y /\
    own_log 0 (ac_log y) = [(ex_set "a", Ok JNull)] /\ own_log 1 (ac_log y) = [(ex_set "b", Ok JNull)] /\
    read_attributes HDataset (ac_files y) ex_data = Ok (JObj [("a"%string, JUInt 1)]).
Proof.
  exists (aexec (aclients_init (ex_fs false 2) [[ex_set "a"]; [ex_set "b"]]) (ex_rest 9 0 ++ ex_rest 12 1 ++ ex_rest 3 0)).
  split; [apply aexec_reach, reach_refl|].
  assert (D : ac_clients (aexec (aclients_init (ex_fs false 2) [[ex_set "a"]; [ex_set "b"]]) (ex_rest 9 0 ++ ex_rest 12 1 ++ ex_rest 3 0)) = [(None, []); (None, [])])
    by (vm_compute; reflexivity).
  split; [unfold aclients_done; rewrite D; repeat constructor|]. repeat split; vm_compute; reflexivity.
Qed.
Print Assumptions C99_same_node_refuted.

(** and a client that reads attributes that another one is writing fails; it could not
    even open the dataset. *)
Theorem C99_reader_refuted :
  exists y, reach aclients_step (aclients_init (ex_fs false 2) [[ex_set "a"]; [AtRead HDataset ex_data]]) y /\
    own_log 1 (ac_log y) = [(AtRead HDataset ex_data, Throw EJson)] /\
    read_dataset_metadata (ac_files y) ex_data = Throw EJson /\
    (exists m, read_dataset_metadata (ex_fs false 2) ex_data = Ok m) /\
    exists j, read_attributes HDataset (ex_fs false 2) ex_data = Ok j.
Proof.
  exists (aexec (aclients_init (ex_fs false 2) [[ex_set "a"]; [AtRead HDataset ex_data]]) (ex_rest 10 0 ++ ex_rest 7 1)).
  split; [apply aexec_reach, reach_refl|]. split; [vm_compute; reflexivity|]. split; [vm_compute; reflexivity|].
  split; eexists; vm_compute; reflexivity.
Qed.
Print Assumptions C99_reader_refuted.

(** C100 is refuted: setting an attribute of an n5 dataset (or a zarr v3 dataset) that is
    interrupted loses the other attributes and makes the dataset unreadable. *)
Theorem C100_refuted : forall z fmt, (z, fmt) = (false, 2%Z) \/ (z, fmt) = (true, 3%Z) ->
  exists v s s', s = snd (api_run HDataset Mode_a ex_data [AWrite (JObj [("a"%string, JInt 1)])] (ex_fs z fmt)) /\
  attr_node HDataset s ex_data v z /\
  (exists j, read_attributes HDataset s ex_data = Ok j /\ jfind "a" j = Some (JUInt 1)) /\
  (exists m, read_dataset_metadata s ex_data = Ok m) /\
  acrash (steps_of_call (ex_set "b")) s s' /\
  read_attributes HDataset s' ex_data = Throw EJson /\ read_dataset_metadata s' ex_data = Throw EJson.
Proof.
  intros z fmt H. exists z, (snd (api_run HDataset Mode_a ex_data [AWrite (JObj [("a"%string, JInt 1)])] (ex_fs z fmt))).
  exists (stopped (if z then 10 else 9) (steps_of_call (ex_set "b"))
    (snd (api_run HDataset Mode_a ex_data [AWrite (JObj [("a"%string, JInt 1)])] (ex_fs z fmt)))).
  split; [reflexivity|].
  assert (A : Forall aop_ok [AWrite (JObj [("a"%string, JInt 1)])]) by (repeat constructor; intros []).
  destruct C48_case as (A1 & _ & A3 & _).
  destruct H as [H|H]; injection H as -> ->.
  - split; [exact (proj1 (@api_run_ok HDataset Mode_a ex_data false false eq_refl _ _ A1 A))|].
    split; [eexists; vm_compute; split; reflexivity|]. split; [eexists; vm_compute; reflexivity|].
    split; [apply stopped_crash|]. split; vm_compute; reflexivity.
  - split; [exact (proj1 (@api_run_ok HDataset Mode_a ex_data true true eq_refl _ _ A3 A))|].
    split; [eexists; vm_compute; split; reflexivity|]. split; [eexists; vm_compute; reflexivity|].
    split; [apply stopped_crash|]. split; vm_compute; reflexivity.
Qed.
Print Assumptions C100_refuted.
