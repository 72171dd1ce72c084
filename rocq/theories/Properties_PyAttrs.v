(** Properties of the calls that [attrs] inherits from MutableMapping. *)
From Coq Require Import ZArith String.
From Verif Require Import M_Base M_Double M_Json M_Mode M_Fs M_Attributes S_Attributes M_Container S_Container M_PyGroup S_PyGroup
  P_PyGroup9 M_PyAttrs P_PyAttrs Properties_Attributes Properties_Container.
Import ListNotations.
Local Open Scope list_scope.

(** C108: clear ends with no attributes left and nothing else changed, in
    whichever order the names are taken out.  (Missing: n5 files, see below.) *)
Theorem C108_clear_partial k m p v z s l : let am := AttrManager k m p in
  can_write m = true -> attr_node k s p v z -> py_attrs s am = Ok l -> (forall a, In a (protected k z) -> jlookup a l = None) ->
  (exists s', py_attr_clear am s s' (Ok tt)) /\
  forall s' o, py_attr_clear am s s' o ->
    o = Ok tt /\ py_attrs s' am = Ok [] /\ attr_node k s' p v z /\ forall q, q <> p ++ [attr_file v z] -> s' q = s q.
Proof. intros am W. exact (@clear_ok k m p v z W s l). Qed.
Print Assumptions C108_clear_partial.
(** It does not go on for ever: it takes out no more names than there are. *)
Theorem C108_ends k m p v z s s' l ks : let am := AttrManager k m p in
  can_write m = true -> attr_node k s p v z -> py_attrs s am = Ok l -> py_attr_pops am ks s s' ->
  NoDup ks /\ (forall a, In a ks -> In a (map fst l)) /\ (length ks <= length l)%nat.
Proof.
  intros am W A R H. destruct (@pops_spec k m p v z W ks s s' H l A R) as [_ [_ [N [I _]]]].
  split; [exact N|]. split; [intros a B; now apply I|]. exact (@pops_bounded k m p v z W ks s s' l A R H).
Qed.
Print Assumptions C108_ends.
(** The metadata of n5 datasets is not among the names, so that datasets and groups
    can always be cleared; *)
Theorem C108_all k m p v z s : let am := AttrManager k m p in
  can_write m = true -> attr_node k s p v z -> k <> HFile \/ z = true ->
  exists s', py_attr_clear am s s' (Ok tt) /\ py_attrs s' am = Ok [].
Proof. intros am W. exact (@clear_all k m p v z W s). Qed.
Print Assumptions C108_all.
(** get and setdefault are those of a dict. *)
Theorem C108_get k m p s l a d : let am := AttrManager k m p in
  py_attrs s am = Ok l -> py_attr_get_or s am a d = Ok (match jlookup a l with Some x => x | None => d end).
Proof. exact (@get_or k m p s l a d). Qed.
Print Assumptions C108_get.
Theorem C108_setdefault k m p v z s l a d : let am := AttrManager k m p in
  can_write m = true -> attr_node k s p v z -> py_attrs s am = Ok l ->
  match jlookup a l with
  | Some x => py_attr_setdefault am a d s = (s, Ok x)
  | None =>
      if existsb (String.eqb a) (protected k z)
      then is_ok (snd (py_attr_setdefault am a d s)) = false /\ fst (py_attr_setdefault am a d s) = s
      else exists s' l', py_attr_setdefault am a d s = (s', Ok d) /\ py_attrs s' am = Ok l' /\
             forall b, jlookup b l' = if String.eqb a b then Some (reparse d) else jlookup b l
  end.
Proof. intros am W. exact (@setdefault k m p v z W s l a d). Qed.
Print Assumptions C108_setdefault.

Definition ex_cleared : fsys :=
  fst (py_attr_update (AttrManager HDataset Mode_a ["f"; "g"; "d"]) [("a", JInt 1); ("b", JNull)] (ex_fs false 2))%string.
Example C108_case : let am := AttrManager HDataset Mode_a ["f"; "g"; "d"]%string in
  attr_node HDataset ex_cleared ["f"; "g"; "d"]%string false false /\
  py_attrs ex_cleared am = Ok [("a", JUInt 1); ("b", JNull)]%string /\
  (forall a, In a (protected HDataset false) -> jlookup a [("a", JUInt 1); ("b", JNull)]%string = None) /\
  snd (py_attr_setdefault am "a" (JInt 7) ex_cleared) = Ok (JUInt 1) /\
  snd (py_attr_setdefault am "c" (JInt 7) ex_cleared) = Ok (JInt 7) /\
  snd (py_attr_setdefault am "dataType" (JInt 7) ex_cleared) = Throw ERuntime.
Proof.
  intros am. split; [split; vm_compute; auto|]. split; [vm_compute; reflexivity|].
  split; [|repeat split; vm_compute; reflexivity].
  intros a H. repeat (destruct H as [<-|H]; [reflexivity|]). elim H.
Qed.

(** Clearing the attributes of an n5 file always raises: the version is one of them.
    Some of the attributes may be gone then. *)
Theorem C108_n5_file m p v s l : let am := AttrManager HFile m p in
  can_write m = true -> attr_node HFile s p v false -> py_attrs s am = Ok l -> jlookup "n5" l <> None ->
  (exists s' o, py_attr_clear am s s' o) /\
  forall s' o, py_attr_clear am s s' o ->
    is_ok o = false /\ exists l', py_attrs s' am = Ok l' /\ jlookup "n5" l' = jlookup "n5" l.
Proof. intros am W A R. exact (@clear_stopped HFile m p v false W s l "n5"%string A R (or_introl Logic.eq_refl)). Qed.
Print Assumptions C108_n5_file.
Definition ex_n5_file : fsys :=
  fst (py_attr_update (AttrManager HFile Mode_a ["f"]) [("a", JInt 1); ("z", JInt 2)] (ex_fs false 2))%string.
Theorem C108_clear_refuted : let am := AttrManager HFile Mode_a ["f"]%string in
  attr_node HFile ex_n5_file ["f"]%string false false /\
  py_attrs ex_n5_file am = Ok [("n5", JStr "2.0.0"); ("a", JUInt 1); ("z", JUInt 2)]%string /\
  exists s', py_attr_clear am ex_n5_file s' (Throw ERuntime) /\
    py_attrs s' am = Ok [("n5", JStr "2.0.0"); ("z", JUInt 2)]%string.
Proof.
  intros am. split; [split; vm_compute; auto|]. split; [vm_compute; reflexivity|].
  destruct (py_attr_pop am "a" ex_n5_file) as [s1 o1] eqn:E1. destruct (py_attr_pop am "n5" s1) as [s2 o2] eqn:E2.
  assert (O1 : o1 = Ok (JUInt 1)) by (change o1 with (snd (s1, o1)); rewrite <- E1; vm_compute; reflexivity).
  assert (S1 : s1 = fst (py_attr_pop am "a" ex_n5_file)) by now rewrite E1.
  assert (O2 : o2 = Throw ERuntime) by (change o2 with (snd (s2, o2)); rewrite <- E2, S1; vm_compute; reflexivity).
  assert (S2 : s2 = fst (py_attr_pop am "n5" s1)) by now rewrite E2.
  exists s2. split; [|rewrite S2, S1; vm_compute; reflexivity].
  change (Throw ERuntime : outcome unit) with (let! _ := (Throw ERuntime : outcome json) in Ok tt).
  apply (@clear_stuck am ["a"%string] ex_n5_file s1 s2 [("n5", JStr "2.0.0"); ("z", JUInt 2)]%string "n5"%string).
  - eapply pops_one with (l := [("n5", JStr "2.0.0"); ("a", JUInt 1); ("z", JUInt 2)]%string);
      [vm_compute; reflexivity|right; now left|rewrite E1, O1; reflexivity|constructor].
  - rewrite S1. vm_compute. reflexivity.
  - now left.
  - now rewrite E2, O2.
  - discriminate.
Qed.
Print Assumptions C108_clear_refuted.
