(** Proofs about attributes. *)
From Coq Require Import String.
From Verif Require Import M_Base P_Base M_Json M_Mode M_Fs M_Attributes S_Attributes M_Metadata P_Metadata.
Import ListNotations.
Local Open Scope list_scope.
Local Open Scope N_scope.

(** * Paths *)

Lemma below_refl p : below p p = true.
Proof. induction p; simpl; [reflexivity|]. now rewrite String.eqb_refl. Qed.

Lemma below_antisym : forall p q, below p q = true -> below q p = true -> p = q.
Proof.
  induction p as [|a p IH]; intros [|b q]; simpl; try congruence.
  rewrite !andb_true_iff. intros [A B] [_ D]. apply String.eqb_eq in A. subst. f_equal. auto.
Qed.

Lemma path_eqb_eq p q : path_eqb p q = true <-> p = q.
Proof.
  unfold path_eqb. rewrite andb_true_iff. split.
  - intros [A B]. now apply below_antisym.
  - intros ->. now rewrite below_refl.
Qed.

Lemma path_eqb_refl p : path_eqb p p = true.
Proof. now apply path_eqb_eq. Qed.

Lemma path_eqb_ne p q : p <> q -> path_eqb p q = false.
Proof. intros H. destruct (path_eqb p q) eqn:E; [|reflexivity]. now apply path_eqb_eq in E. Qed.

Lemma below_app p q : below p (p ++ q) = true.
Proof. induction p; simpl; [reflexivity|]. now rewrite String.eqb_refl. Qed.

Lemma below_spec p q : below p q = true <-> exists r, q = p ++ r.
Proof.
  split.
  - revert q. induction p as [|a p IH]; intros q H; [now exists q|].
    destruct q as [|b q]; [discriminate|]. simpl in H. apply andb_true_iff in H. destruct H as [A B].
    apply String.eqb_eq in A. subst. destruct (IH _ B) as [r ->]. now exists r.
  - intros [r ->]. apply below_app.
Qed.

Lemma snoc_ne (p : path) a : p ++ [a] <> p.
Proof.
  intros H. apply (f_equal (@length _)) in H. rewrite app_length in H. simpl in H. lia.
Qed.

(** * Json values *)

Lemma reparse_idem : forall j, parsed (reparse j).
Proof.
  unfold parsed. fix IH 1. intros [ | |z|n|x|s|l|l]; simpl; try reflexivity.
  - destruct (0 <=? z)%Z eqn:E; simpl; [reflexivity|now rewrite E].
  - destruct x; reflexivity.
  - f_equal. induction l as [|y l IL]; simpl; [reflexivity|]. now rewrite IH, IL.
  - f_equal. induction l as [|[k v] l IL]; simpl; [reflexivity|]. now rewrite IH, IL.
Qed.

Lemma jlookup_reparse k l :
  jlookup k (map (fun kv => (fst kv, reparse (snd kv))) l) = option_map reparse (jlookup k l).
Proof.
  induction l as [|[k' v] l IH]; simpl; [reflexivity|]. now destruct (String.eqb k' k).
Qed.

Lemma parsed_entry k l v : parsed (JObj l) -> jlookup k l = Some v -> parsed v.
Proof.
  unfold parsed. rewrite reparse_obj. intros H. inversion H as [E]. clear H.
  induction l as [|[k' v'] l IH]; simpl; [discriminate|]. simpl in E. inversion E as [[A B]].
  destruct (String.eqb k' k); [intros X; inversion X; subst; now rewrite !A|].
  rewrite B. auto.
Qed.

Lemma jlookup_upd k v l k' :
  jlookup k' (jupd k v l) = if String.eqb k k' then Some v else jlookup k' l.
Proof.
  induction l as [|[a b] l IH]; simpl; [reflexivity|].
  destruct (String.eqb a k) eqn:E; simpl.
  - apply String.eqb_eq in E. subst. now destruct (String.eqb k k').
  - rewrite IH. destruct (String.eqb a k') eqn:F; [|reflexivity].
    apply String.eqb_eq in F. subst. destruct (String.eqb k k') eqn:G; [|reflexivity].
    apply String.eqb_eq in G. subst. now rewrite String.eqb_refl in E.
Qed.

Lemma jlookup_del k l k' :
  jlookup k' (jdel k l) = if String.eqb k k' then None else jlookup k' l.
Proof.
  induction l as [|[a b] l IH]; simpl; [now destruct (String.eqb k k')|].
  destruct (String.eqb a k) eqn:E; simpl.
  - rewrite IH. apply String.eqb_eq in E. subst. now destruct (String.eqb k k').
  - rewrite IH. destruct (String.eqb a k') eqn:F; [|reflexivity].
    apply String.eqb_eq in F. subst. destruct (String.eqb k k') eqn:G; [|reflexivity].
    apply String.eqb_eq in G. subst. now rewrite String.eqb_refl in E.
Qed.

Lemma jlookup_none_in k l : jlookup k l = None <-> ~ In k (map fst l).
Proof.
  induction l as [|[a b] l IH]; simpl; [tauto|].
  destruct (String.eqb a k) eqn:E.
  - apply String.eqb_eq in E. split; [discriminate|]. tauto.
  - apply String.eqb_neq in E. rewrite IH. tauto.
Qed.

Lemma merge_obj : forall l o, NoDup (map fst l) ->
  exists o', foldM (fun acc kv => jput (fst kv) (snd kv) acc) l (JObj o) = Ok (JObj o') /\
    forall k, jlookup k o' = match jlookup k l with Some v => Some v | None => jlookup k o end.
Proof.
  induction l as [|[a b] l IH]; intros o H; simpl.
  - exists o. split; reflexivity.
  - simpl in H. apply NoDup_cons_iff in H. destruct H as [N D].
    destruct (IH (jupd a b o) D) as [o' [E L]]. exists o'. split; [exact E|].
    intros k. rewrite L, jlookup_upd.
    destruct (String.eqb a k) eqn:K; [|reflexivity].
    apply String.eqb_eq in K. subst. now rewrite (proj2 (jlookup_none_in k l) N).
Qed.

Lemma erase_list : forall ks o,
  exists o', foldM (fun acc a => jerase a acc) ks (JObj o) = Ok (JObj o') /\
    forall k, jlookup k o' = if existsb (String.eqb k) ks then None else jlookup k o.
Proof.
  induction ks as [|a ks IH]; intros o; simpl.
  - exists o. split; reflexivity.
  - destruct (IH (jdel a o)) as [o' [E L]]. exists o'. split; [exact E|].
    intros k. rewrite L, jlookup_del. rewrite (String.eqb_sym k a).
    destruct (String.eqb a k); simpl; [now destruct existsb|reflexivity].
Qed.

(** * One call *)

Lemma exists_file_other s p f g x : f <> g ->
  fs_exists (fun q => if path_eqb q (p ++ [f]) then Some x else s q) (p ++ [g]) = fs_exists s (p ++ [g]).
Proof.
  intros N. unfold fs_exists. rewrite path_eqb_ne; [reflexivity|].
  intros H. apply app_inv_head in H. congruence.
Qed.

Lemma exists_file_same s p f x :
  fs_exists (fun q => if path_eqb q (p ++ [f]) then Some x else s q) (p ++ [f]) = true.
Proof. unfold fs_exists. now rewrite path_eqb_refl. Qed.

(** The attribute object of a node. *)
Definition held (v3 : bool) (n : option fnode) : list (string * json) :=
  match n with
  | Some (NDoc (JObj l)) =>
      if v3 then match jlookup "attributes" l with Some (JObj a) => a | _ => [] end else l
  | _ => []
  end.

Lemma write_doc_at s p f j n : s p = Some NDir -> s (p ++ [f]) = n -> n <> Some NDir ->
  write_doc p f j s = ((fun q => if path_eqb q (p ++ [f]) then Some (NDoc (reparse j)) else s q), Ok tt).
Proof.
  intros D F N. unfold write_doc, fs_isdir. rewrite D, F. destruct n as [[]|]; congruence || reflexivity.
Qed.

(** Replacing the attribute document by another object keeps the node. *)
Lemma attr_node_written k s p v z l :
  attr_node k s p v z -> parsed (JObj l) ->
  (v = true -> match jlookup "attributes" l with Some (JObj _) | None => True | _ => False end) ->
  attr_node k (fun q => if path_eqb q (p ++ [attr_file v z]) then Some (NDoc (JObj l)) else s q) p v z.
Proof.
  intros [D Z V O] P A.
  assert (W : forall f, f <> ".zattrs"%string -> f <> "attributes.json"%string ->
     fs_exists (fun q => if path_eqb q (p ++ [attr_file v z]) then Some (NDoc (JObj l)) else s q) (p ++ [f]) =
     fs_exists s (p ++ [f])).
  { intros f F1 F2. destruct (string_dec f (attr_file v z)) as [->|N].
    - rewrite exists_file_same. symmetry. unfold attr_file in *. destruct v.
      + symmetry in V. now apply andb_true_iff in V.
      + destruct z; congruence.
    - apply exists_file_other. congruence. }
  split.
  - rewrite path_eqb_ne; [exact D|]. intros H. symmetry in H. now apply snoc_ne in H.
  - unfold handle_is_zarr in *. 
    assert (E : fs_exists (fun q => if path_eqb q (p ++ [attr_file v z]) then Some (NDoc (JObj l)) else s q) p
                = fs_exists s p).
    { unfold fs_exists. rewrite path_eqb_ne; [reflexivity|]. intros H. symmetry in H. now apply snoc_ne in H. }
    destruct k; unfold is_zarr_group, is_zarr_dataset in *; rewrite E, !W by discriminate; exact Z.
  - rewrite W by discriminate. exact V.
  - rewrite path_eqb_refl. simpl. split; assumption.
Qed.

Lemma existsb_contains l ks :
  existsb (fun a => jcontains a (JObj l)) ks = existsb (fun a => existsb (String.eqb a) (map fst l)) ks.
Proof.
  induction ks as [|a ks IH]; simpl; [reflexivity|]. rewrite IH. f_equal.
  unfold jcontains. simpl. clear. induction l as [|[b c] l IH]; simpl; [reflexivity|].
  rewrite (String.eqb_sym a b). destruct (String.eqb b a); [reflexivity|]. exact IH.
Qed.

Lemma protect_json_spec k l (z : bool) :
  (if z then Ok tt else protect_json k (JObj l)) =
  if existsb (fun a => existsb (String.eqb a) (map fst l)) (protected k z) then Throw ERuntime else Ok tt.
Proof.
  destruct z; [reflexivity|]. destruct k; unfold protect_json, protected.
  - rewrite <- existsb_contains. simpl. now rewrite orb_false_r.
  - reflexivity.
  - now rewrite existsb_contains.
Qed.

Lemma protect_key_spec k a (z : bool) :
  (if z then Ok tt else protect_key k a) =
  if existsb (String.eqb a) (protected k z) then Throw ERuntime else Ok tt.
Proof.
  destruct z; [reflexivity|]. destruct k; unfold protect_key, protected.
  - simpl. now rewrite orb_false_r.
  - reflexivity.
  - assert (E : existsb (fun b => String.eqb b a) n5_dataset_keys = existsb (String.eqb a) n5_dataset_keys).
    { unfold n5_dataset_keys. simpl. now rewrite !(String.eqb_sym a). }
    now rewrite E.
Qed.

Lemma protect_other k j (z : bool) : (forall a, jfind a j = None) ->
  (if z then Ok tt else protect_json k j) = Ok tt.
Proof.
  intros H. destruct z; [reflexivity|].
  destruct k; unfold protect_json, jcontains; rewrite ?H; try reflexivity.
  simpl. now rewrite !H.
Qed.

(** What one call does. *)
Definition step_ok (k : hkind) (s : fsys) (p : path) (v z : bool) (o : aop) (s' : fsys) (res : outcome unit) : Prop :=
  attr_node k s' p v z /\
  (forall q, q <> p ++ [attr_file v z] -> s' q = s q) /\
  (v = true -> forall a, a <> "attributes"%string ->
     match s (p ++ [attr_file v z]), s' (p ++ [attr_file v z]) with
     | Some (NDoc d), Some (NDoc d') => jfind a d' = jfind a d
     | _, _ => False
     end) /\
  match table_step (protected k z) o (fun a => jlookup a (held v (s (p ++ [attr_file v z])))) with
  | Some t => res = Ok tt /\ forall a, jlookup a (held v (s' (p ++ [attr_file v z]))) = t a
  | None => is_ok res = false /\ s' = s
  end.

(** The new attribute object, and the call's effect once it is known. *)
Lemma plain_written k s p z o l' t :
  attr_node k s p false z ->
  table_step (protected k z) o (fun a => jlookup a (held false (s (p ++ [attr_file false z])))) = Some t ->
  (forall a, option_map reparse (jlookup a l') = t a) ->
  step_ok k s p false z o
    (fun q => if path_eqb q (p ++ [attr_file false z]) then Some (NDoc (reparse (JObj l'))) else s q) (Ok tt).
Proof.
  intros A T H. unfold step_ok.
  split. { rewrite reparse_obj. apply attr_node_written; [exact A| |discriminate].
    rewrite <- reparse_obj. apply reparse_idem. }
  split. { intros q N. now rewrite path_eqb_ne. }
  split; [discriminate|]. rewrite T. split; [reflexivity|].
  intros a. rewrite path_eqb_refl. rewrite reparse_obj. cbn [held]. rewrite jlookup_reparse. apply H.
Qed.

Lemma v3_written k s p z o l a' t :
  attr_node k s p true z -> s (p ++ [attr_file true z]) = Some (NDoc (JObj l)) ->
  table_step (protected k z) o (fun a => jlookup a (held true (s (p ++ [attr_file true z])))) = Some t ->
  (forall a, option_map reparse (jlookup a a') = t a) ->
  step_ok k s p true z o
    (fun q => if path_eqb q (p ++ [attr_file true z])
              then Some (NDoc (reparse (JObj (jupd "attributes" (JObj a') l)))) else s q) (Ok tt).
Proof.
  intros A L T H. pose proof (an_doc A) as O. rewrite L in O. destruct O as [PL _].
  unfold step_ok.
  split. { rewrite reparse_obj. apply attr_node_written; [exact A| |].
    - rewrite <- reparse_obj. apply reparse_idem.
    - intros _. rewrite jlookup_reparse, jlookup_upd, String.eqb_refl. cbn [option_map].
      now rewrite reparse_obj. }
  split. { intros q N. now rewrite path_eqb_ne. }
  split. { intros _ a N. rewrite L, path_eqb_refl, reparse_obj. cbn [jfind].
    rewrite jlookup_reparse, jlookup_upd. rewrite (proj2 (String.eqb_neq "attributes" a)) by congruence.
    destruct (jlookup a l) eqn:E; [|reflexivity]. cbn [option_map]. f_equal. now apply parsed_entry in E. }
  rewrite T. split; [reflexivity|].
  intros a. rewrite path_eqb_refl. rewrite reparse_obj. cbn [held].
  rewrite jlookup_reparse, jlookup_upd, String.eqb_refl. cbn [option_map].
  rewrite reparse_obj, jlookup_reparse. apply H.
Qed.

Lemma held_parsed v k z n a x :
  attr_doc_ok k v z n -> jlookup a (held v n) = Some x -> reparse x = x.
Proof.
  destruct n as [[|[| | | | | | |l]|]|]; simpl; try (intros []; fail).
  - intros [P V]. destruct v.
    + specialize (V eq_refl). destruct (jlookup "attributes" l) as [[]|] eqn:E; try (discriminate || destruct V).
      intros H. apply parsed_entry in E; [|exact P]. now apply parsed_entry in H.
    + now apply parsed_entry.
  - discriminate.
Qed.

Lemma refused k s p v z o e :
  attr_node k s p v z -> table_step (protected k z) o (fun a => jlookup a (held v (s (p ++ [attr_file v z])))) = None ->
  step_ok k s p v z o s (Throw e).
Proof.
  intros A T. unfold step_ok. rewrite T. split; [exact A|]. split; [reflexivity|].
  split; [|split; reflexivity].
  intros -> a _. pose proof (an_doc A) as O.
  destruct (s (p ++ [attr_file true z])) as [[|[]|]|]; simpl in O; try destruct O; congruence || reflexivity.
Qed.

Lemma gen_write_spec k s p v z j :
  attr_node k s p v z -> (match j with JObj l => NoDup (map fst l) | _ => True end) ->
  match jentries j with
  | Ok l => forall o t,
      table_step (protected k z) o (fun a => jlookup a (held v (s (p ++ [attr_file v z])))) = Some t ->
      (forall a, t a = match jlookup a l with Some x => Some (reparse x)
                       | None => jlookup a (held v (s (p ++ [attr_file v z]))) end) ->
      exists s', gen_write_attributes p z j s = (s', Ok tt) /\ step_ok k s p v z o s' (Ok tt)
  | _ => gen_write_attributes p z j s = (s, Throw EJson)
  end.
Proof.
  intros A J. pose proof (an_doc A) as O.
  assert (JE : match jentries j with Ok l => NoDup (map fst l) | Throw e => e = EJson | UB => False end).
  { destruct j as [| | | | | |[]|]; simpl; try reflexivity; try exact J; constructor. }
  unfold gen_write_attributes, jmerge. rewrite <- (an_v3 A).
  assert (HP := fun a x => @held_parsed v k z (s (p ++ [attr_file v z])) a x O).
  assert (HM : forall l a' t, 
    (forall a, t a = match jlookup a l with Some x => Some (reparse x)
                       | None => jlookup a (held v (s (p ++ [attr_file v z]))) end) ->
    (forall a, jlookup a a' = match jlookup a l with Some x => Some x
                       | None => jlookup a (held v (s (p ++ [attr_file v z]))) end) ->
    forall a, option_map reparse (jlookup a a') = t a).
  { intros l a' t T H a. rewrite H, T. destruct (jlookup a l); [reflexivity|].
    destruct (jlookup a (held v (s (p ++ [attr_file v z])))) eqn:E; [|reflexivity].
    simpl. f_equal. now apply HP in E. }
  destruct v.
  - destruct (s (p ++ [attr_file true z])) as [[|[| | | | | | |d]|]|] eqn:F; simpl in O;
      try destruct O as [? ?]; try contradiction; try discriminate.
    assert (R : read_doc_or s p "zarr.json" (JObj []) = Ok (JObj d)).
    { unfold read_doc_or, read_doc. unfold attr_file in F. rewrite F. reflexivity. }
    unfold write_v3_attributes, fbind, freading, fret. rewrite R. cbn [jfind].
    assert (B : exists d0, match jlookup "attributes" d with Some a => a | None => JObj [] end = JObj d0 /\
                held true (Some (NDoc (JObj d))) = d0).
    { specialize (H0 eq_refl). cbn [held]. destruct (jlookup "attributes" d) as [[]|]; try (destruct H0; fail);
        eexists; split; reflexivity. }
    destruct B as [d0 [B1 B2]]. rewrite B1. unfold jmerge.
    destruct (jentries j) as [l|e|]; cbn [bind]; [|now subst|destruct JE].
    intros o t T1 T2. destruct (@merge_obj l d0 JE) as [a' [M L]]. rewrite M. cbn [jput].
    rewrite (@write_doc_at s p "zarr.json" _ _ (an_dir A) F) by discriminate.
    eexists. split; [reflexivity|].
    eapply v3_written with (t := t); [exact A|exact F|rewrite F; exact T1|].
    apply HM with (l := l); [exact T2|]. rewrite B2. exact L.
  - assert (R : exists d, read_doc_or s p (attr_file false z) (JObj []) = Ok (JObj d) /\
                 held false (s (p ++ [attr_file false z])) = d /\ s (p ++ [attr_file false z]) <> Some NDir).
    { unfold read_doc_or, read_doc.
      destruct (s (p ++ [attr_file false z])) as [[|[| | | | | | |d]|]|] eqn:F; simpl in O;
      try destruct O as [? ?]; try contradiction; try discriminate;
      eexists; split; try reflexivity; split; (reflexivity || discriminate). }
    destruct R as [d [R [H ND]]].
    change (attributes_name z) with (attr_file false z). unfold fbind, freading, fret. rewrite R.
    destruct (jentries j) as [l|e|]; cbn [bind]; [|now subst|destruct JE].
    intros o t T1 T2. destruct (@merge_obj l d JE) as [a' [M L]]. rewrite M.
    rewrite (@write_doc_at s p (attr_file false z) _ _ (an_dir A) eq_refl ND).
    eexists. split; [reflexivity|].
    eapply plain_written with (t := t); [exact A|exact T1|].
    apply HM with (l := l); [exact T2|]. rewrite H. exact L.
Qed.

Lemma gen_remove_spec k s p v z b t :
  attr_node k s p v z ->
  table_step (protected k z) (ARemove b) (fun a => jlookup a (held v (s (p ++ [attr_file v z])))) = Some t ->
  exists s', gen_remove_attribute p z b s = (s', Ok tt) /\ step_ok k s p v z (ARemove b) s' (Ok tt).
Proof.
  intros A T. pose proof (an_doc A) as O. unfold gen_remove_attribute. rewrite <- (an_v3 A).
  assert (HP := fun a x => @held_parsed v k z (s (p ++ [attr_file v z])) a x O).
  assert (TT : forall a, t a = if String.eqb a b then None else jlookup a (held v (s (p ++ [attr_file v z])))).
  { simpl in T. destruct existsb; [discriminate|]. now inversion T. }
  assert (HM : forall a' d, held v (s (p ++ [attr_file v z])) = d -> a' = jdel b d ->
    forall a, option_map reparse (jlookup a a') = t a).
  { intros a' d E -> a. rewrite jlookup_del, TT, E, (String.eqb_sym a b).
    destruct (String.eqb b a); [reflexivity|]. rewrite E in HP.
    destruct (jlookup a d) eqn:F; [|reflexivity].
    simpl. f_equal. now apply HP in F. }
  destruct v.
  - destruct (s (p ++ [attr_file true z])) as [[|[| | | | | | |d]|]|] eqn:F; simpl in O;
      try destruct O as [? ?]; try contradiction; try discriminate.
    assert (R : read_doc s p "zarr.json" = Ok (Some (JObj d))).
    { unfold read_doc. unfold attr_file in F. rewrite F. reflexivity. }
    unfold remove_v3_attribute, fbind, freading, fret. rewrite R. cbn [jfind].
    specialize (H0 eq_refl).
    destruct (jlookup "attributes" d) as [x|] eqn:LA.
    + destruct x as [| | | | | | |a0]; try (destruct H0; fail). cbn [jerase bind jput].
      rewrite (@write_doc_at s p "zarr.json" _ _ (an_dir A) F) by discriminate.
      eexists. split; [reflexivity|].
      eapply v3_written with (t := t); [exact A|exact F|rewrite F; exact T|].
      apply HM with (d := a0); [|reflexivity]. cbn [held]. now rewrite LA.
    + rewrite (@write_doc_at s p "zarr.json" _ _ (an_dir A) F) by discriminate.
      eexists. split; [reflexivity|]. unfold step_ok.
      change "zarr.json"%string with (attr_file true z).
      split. { rewrite H. apply attr_node_written; [exact A|exact H|]. intros _. now rewrite LA. }
      split. { intros q N. now rewrite path_eqb_ne. }
      split. { intros _ a N. rewrite F, path_eqb_refl. now rewrite H. }
      rewrite F, T. split; [reflexivity|]. intros a. rewrite path_eqb_refl, H, TT. cbn [held]. rewrite LA.
      simpl. now destruct (String.eqb a b).
  - change (attributes_name z) with (attr_file false z). unfold fbind, freading, fret, read_doc.
    destruct (s (p ++ [attr_file false z])) as [[|[| | | | | | |d]|]|] eqn:F; simpl in O;
      try destruct O as [? ?]; try contradiction; try discriminate.
    + cbn [jerase]. rewrite (@write_doc_at s p (attr_file false z) _ _ (an_dir A) F) by discriminate.
      eexists. split; [reflexivity|].
      eapply plain_written with (t := t); [exact A|rewrite F; exact T|].
      apply HM with (d := d); reflexivity.
    + eexists. split; [reflexivity|]. unfold step_ok. rewrite F, T.
      split; [exact A|]. split; [reflexivity|]. split; [discriminate|]. split; [reflexivity|].
      intros a. rewrite TT. simpl. now destruct (String.eqb a b).
Qed.

Lemma fbind_reading {A B} (f : fsys -> outcome A) (g : A -> fact B) s a :
  f s = Ok a -> fbind (freading f) g s = g a s.
Proof. intros H. unfold fbind, freading. now rewrite H. Qed.

Lemma run_aop_ok k m s p v z o : can_write m = true -> attr_node k s p v z -> aop_ok o ->
  step_ok k s p v z o (fst (run_aop k m p o s)) (snd (run_aop k m p o s)).
Proof.
  intros W A J. destruct o as [j|b]; simpl run_aop.
  - unfold write_attributes. rewrite W. cbn [negb]. rewrite (@fbind_reading _ _ _ _ s z) by exact (an_zarr A).
    pose proof (@gen_write_spec k s p v z j A) as G.
    assert (NP : forall t0, match j with JObj _ => False | _ => True end ->
       (do* _ <- fret (if z then Ok tt else protect_json k j) in gen_write_attributes p z j) t0 =
       gen_write_attributes p z j t0).
    { intros t0 H. rewrite protect_other; [reflexivity|]. now destruct j. }
    assert (TH : forall e, jentries j = Throw e -> match j with JObj _ => False | _ => True end ->
       table_step (protected k z) (AWrite j) (fun a => jlookup a (held v (s (p ++ [attr_file v z])))) = None ->
       step_ok k s p v z (AWrite j)
         (fst ((do* _ <- fret (if z then Ok tt else protect_json k j) in gen_write_attributes p z j) s))
         (snd ((do* _ <- fret (if z then Ok tt else protect_json k j) in gen_write_attributes p z j) s))).
    { intros e E H T. rewrite NP by exact H. rewrite E in G. rewrite G by (now destruct j).
      now apply refused. }
    assert (EM : jentries j = Ok [] -> match j with JObj _ => False | _ => True end ->
       table_step (protected k z) (AWrite j) (fun a => jlookup a (held v (s (p ++ [attr_file v z])))) =
         Some (fun a => jlookup a (held v (s (p ++ [attr_file v z])))) ->
       step_ok k s p v z (AWrite j)
         (fst ((do* _ <- fret (if z then Ok tt else protect_json k j) in gen_write_attributes p z j) s))
         (snd ((do* _ <- fret (if z then Ok tt else protect_json k j) in gen_write_attributes p z j) s))).
    { intros E H T. rewrite NP by exact H. rewrite E in G.
      destruct (G ltac:(now destruct j) _ _ T) as [s' [R S]]; [reflexivity|]. rewrite R. exact S. }
    destruct j as [| | | | | |[|]|l]; try (eapply TH; reflexivity || exact Logic.I);
      try (apply EM; reflexivity || exact Logic.I).
    cbv beta iota.
    rewrite protect_json_spec. unfold fbind, fret.
    destruct (existsb (fun a => existsb (String.eqb a) (map fst l)) (protected k z)) eqn:P.
    + apply refused; [exact A|]. simpl. now rewrite P.
    + destruct (G J (AWrite (JObj l)) (fun a => match jlookup a l with Some x => Some (reparse x)
                       | None => jlookup a (held v (s (p ++ [attr_file v z]))) end)) as [s' [R S]].
      * simpl. now rewrite P.
      * reflexivity.
      * rewrite R. exact S.
  - unfold remove_attribute. rewrite W. cbn [negb]. rewrite (@fbind_reading _ _ _ _ s z) by exact (an_zarr A).
    cbv beta iota. rewrite protect_key_spec. unfold fbind, fret.
    destruct (existsb (String.eqb b) (protected k z)) eqn:P.
    + apply refused; [exact A|]. simpl. now rewrite P.
    + edestruct (@gen_remove_spec k s p v z b) as [s' [R S]]; [exact A|simpl; rewrite P; reflexivity|].
      rewrite R. exact S.
Qed.

(** * Histories *)

Lemma table_step_ext prot o t t' : (forall a, t a = t' a) ->
  match table_step prot o t, table_step prot o t' with
  | Some u, Some u' => forall a, u a = u' a
  | None, None => True
  | _, _ => False
  end.
Proof.
  intros E. destruct o as [j|b]; simpl.
  - destruct j as [| | | | | |[|]|l]; simpl; try exact Logic.I; try exact E.
    destruct existsb; [exact Logic.I|]. intros a. now rewrite E.
  - destruct existsb; [exact Logic.I|]. intros a. now rewrite E.
Qed.

Lemma table_run_ext prot : forall ops t t', (forall a, t a = t' a) ->
  fst (table_run prot ops t) = fst (table_run prot ops t') /\
  forall a, snd (table_run prot ops t) a = snd (table_run prot ops t') a.
Proof.
  induction ops as [|o ops IH]; intros t t' E; simpl; [now split|].
  pose proof (@table_step_ext prot o t t' E) as S.
  destruct (table_step prot o t) as [u|], (table_step prot o t') as [u'|]; try destruct S.
  - destruct (IH u u' S) as [A B]. destruct (table_run prot ops u), (table_run prot ops u').
    simpl in *. split; [congruence|exact B].
  - destruct (IH t t' E) as [A B]. destruct (table_run prot ops t), (table_run prot ops t').
    simpl in *. split; [congruence|exact B].
Qed.

(** Protected names keep their entries. *)
Lemma table_run_prot prot : forall ops t a, In a prot -> snd (table_run prot ops t) a = t a.
Proof.
  assert (X : forall a, In a prot -> existsb (String.eqb a) prot = true).
  { intros a H. apply existsb_exists. exists a. split; [exact H|apply String.eqb_refl]. }
  induction ops as [|o ops IH]; intros t a H; simpl; [reflexivity|].
  destruct (table_step prot o t) as [u|] eqn:S.
  - assert (U : u a = t a).
    { destruct o as [j|b]; simpl in S.
      - destruct j as [| | | | | |[|]|l]; try discriminate; inversion S as [E]; try reflexivity.
        destruct (existsb (fun a0 => existsb (String.eqb a0) (map fst l)) prot) eqn:P; [discriminate|].
        inversion E. destruct (jlookup a l) eqn:L; [|reflexivity].
        exfalso. assert (N : jlookup a l <> None) by congruence.
        apply N. apply jlookup_none_in. intros I.
        assert (existsb (fun a0 => existsb (String.eqb a0) (map fst l)) prot = true); [|congruence].
        apply existsb_exists. exists a. split; [exact H|]. apply existsb_exists.
        exists a. split; [exact I|apply String.eqb_refl].
      - destruct (existsb (String.eqb b) prot) eqn:P; [discriminate|]. inversion S. 
        destruct (String.eqb a b) eqn:E; [|reflexivity]. apply String.eqb_eq in E. subst.
        rewrite X in P by exact H. discriminate. }
    specialize (IH u a H). destruct (table_run prot ops u). simpl in *. congruence.
  - specialize (IH t a H). now destruct (table_run prot ops t).
Qed.

(** Hiding protected names commutes with the history. *)
Definition mask (hid : list string) (t : table) : table :=
  fun a => if existsb (String.eqb a) hid then None else t a.

Lemma table_run_mask prot hid : (forall a, In a hid -> In a prot) -> forall ops t,
  fst (table_run prot ops (mask hid t)) = fst (table_run prot ops t) /\
  forall a, snd (table_run prot ops (mask hid t)) a = mask hid (snd (table_run prot ops t)) a.
Proof.
  intros I. induction ops as [|o ops IH]; intros t; simpl; [now split|].
  assert (S : match table_step prot o t, table_step prot o (mask hid t) with
              | Some u, Some u' => forall a, u' a = mask hid u a
              | None, None => True
              | _, _ => False
              end).
  { destruct o as [j|b]; simpl.
    - destruct j as [| | | | | |[|]|l]; simpl; try exact Logic.I; try reflexivity.
      destruct (existsb (fun a0 => existsb (String.eqb a0) (map fst l)) prot) eqn:P; [exact Logic.I|].
      intros a. unfold mask. destruct (existsb (String.eqb a) hid) eqn:H; [|reflexivity].
      destruct (jlookup a l) eqn:L; [|reflexivity].
      exfalso. assert (N : jlookup a l <> None) by congruence. apply N. apply jlookup_none_in. intros J.
      apply existsb_exists in H. destruct H as [a' [H1 H2]]. apply String.eqb_eq in H2. subst a'.
      assert (existsb (fun a0 => existsb (String.eqb a0) (map fst l)) prot = true); [|congruence].
      apply existsb_exists. exists a. split; [now apply I|]. apply existsb_exists.
      exists a. split; [exact J|apply String.eqb_refl].
    - destruct existsb; [exact Logic.I|]. intros a. unfold mask.
      destruct (existsb (String.eqb a) hid), (String.eqb a b); reflexivity. }
  destruct (table_step prot o t) as [u|], (table_step prot o (mask hid t)) as [u'|]; try destruct S.
  - destruct (@table_run_ext prot ops u' (mask hid u) S) as [A B]. destruct (IH u) as [C D].
    destruct (table_run prot ops u), (table_run prot ops u'), (table_run prot ops (mask hid u)).
    simpl in *. split; [congruence|]. intros a. now rewrite B, D.
  - destruct (IH t) as [C D]. destruct (table_run prot ops t), (table_run prot ops (mask hid t)).
    simpl in *. split; [congruence|exact D].
Qed.

(** The document's other entries (zarr v3). *)
Definition doc_frame (s s' : fsys) (f : path) : Prop :=
  forall a, a <> "attributes"%string ->
    match s f, s' f with
    | Some (NDoc d), Some (NDoc d') => jfind a d' = jfind a d
    | _, _ => False
    end.

Lemma api_run_ok k m p v z : can_write m = true -> forall ops s,
  attr_node k s p v z -> Forall aop_ok ops ->
  let r := api_run k m p ops s in
  let t := table_run (protected k z) ops (fun a => jlookup a (held v (s (p ++ [attr_file v z])))) in
  attr_node k (snd r) p v z /\
  (forall q, q <> p ++ [attr_file v z] -> snd r q = s q) /\
  (v = true -> doc_frame s (snd r) (p ++ [attr_file v z])) /\
  fst r = fst t /\
  forall a, jlookup a (held v (snd r (p ++ [attr_file v z]))) = snd t a.
Proof.
  intros W. induction ops as [|o ops IH]; intros s A F; simpl.
  - split; [exact A|]. split; [reflexivity|]. split; [|split; reflexivity].
    intros -> a _. pose proof (an_doc A) as O.
    destruct (s (p ++ [attr_file true z])) as [[|[]|]|]; simpl in O; try destruct O; congruence || reflexivity.
  - inversion F as [|? ? F1 F2]; subst.
    pose proof (@run_aop_ok k m s p v z o W A F1) as S.
    destruct (run_aop k m p o s) as [s1 res]. cbn [fst snd] in S.
    destruct S as [A1 [Q1 [V1 T1]]].
    specialize (IH s1 A1 F2).
    destruct (api_run k m p ops s1) as [bs s2]. cbn [fst snd] in *.
    destruct IH as [A2 [Q2 [V2 [B2 L2]]]].
    split; [exact A2|].
    split. { intros q N. now rewrite Q2, Q1. }
    split. { intros E a N. specialize (V1 E a N). specialize (V2 E a N).
      destruct (s (p ++ [attr_file v z])) as [[]|]; try destruct V1.
      destruct (s1 (p ++ [attr_file v z])) as [[]|]; try destruct V2; try contradiction.
      destruct (s2 (p ++ [attr_file v z])) as [[]|]; try contradiction. congruence. }
    destruct (table_step (protected k z) o
      (fun a => jlookup a (held v (s (p ++ [attr_file v z]))))) as [t|] eqn:E.
    + destruct T1 as [-> T1]. 
      destruct (@table_run_ext (protected k z) ops (fun a => jlookup a (held v (s1 (p ++ [attr_file v z])))) t T1)
        as [X Y].
      destruct (table_run (protected k z) ops t). simpl in *.
      split; [congruence|]. intros a. now rewrite L2, Y.
    + destruct T1 as [R ->]. rewrite R.
      destruct (table_run (protected k z) ops (fun a => jlookup a (held v (s (p ++ [attr_file v z]))))).
      simpl in *. split; [congruence|exact L2].
Qed.

(** * Reading *)

Definition hidden (k : hkind) (z : bool) : list string :=
  match k with HDataset => protected HDataset z | _ => [] end.

Lemma hidden_protected k z a : In a (hidden k z) -> In a (protected k z).
Proof. destruct k; simpl; try tauto. Qed.

Lemma read_attributes_ok k s p v z : attr_node k s p v z ->
  exists j, read_attributes k s p = Ok j /\
    (j = JNull \/ exists l, j = JObj l) /\
    forall a, jfind a j = mask (hidden k z) (fun a => jlookup a (held v (s (p ++ [attr_file v z])))) a.
Proof.
  intros A. pose proof (an_doc A) as O. unfold read_attributes. rewrite (an_zarr A). cbn [bind].
  unfold gen_read_attributes. rewrite <- (an_v3 A).
  assert (R : exists j, (if v then read_v3_attributes s p JNull else read_doc_or s p (attributes_name z) JNull) = Ok j /\
            ((j = JNull /\ (k = HDataset -> z = true)) \/ (exists l, j = JObj l)) /\
            forall a, jfind a j = jlookup a (held v (s (p ++ [attr_file v z])))).
  { destruct v.
    - unfold read_v3_attributes, read_doc. change "zarr.json"%string with (attr_file true z).
      destruct (s (p ++ [attr_file true z])) as [[|[| | | | | | |d]|]|] eqn:F; simpl in O;
        try destruct O as [? ?]; try contradiction; try discriminate.
      cbn [bind jfind held]. specialize (H0 eq_refl).
      pose proof (an_v3 A) as V. symmetry in V. apply andb_true_iff in V. destruct V as [-> _].
      destruct (jlookup "attributes" d) as [x|].
      + destruct x as [| | | | | | |l]; try (destruct H0; fail).
        eexists. split; [reflexivity|]. split; [right; now eexists|reflexivity].
      + eexists. split; [reflexivity|]. split; [left; now split|reflexivity].
    - unfold read_doc_or, read_doc. change (attributes_name z) with (attr_file false z).
      destruct (s (p ++ [attr_file false z])) as [[|[| | | | | | |d]|]|] eqn:F; simpl in O;
        try destruct O as [? ?]; try contradiction; try discriminate; cbn [bind held].
      + eexists. split; [reflexivity|]. split; [right; now eexists|reflexivity].
      + eexists. split; [reflexivity|]. split; [left; now split|reflexivity]. }
  destruct R as [j [-> [J L]]]. cbn [bind].
  assert (D : forall n, (hidden k z = []) -> Ok j = Ok n -> exists j0, Ok j = Ok j0 /\ (j0 = JNull \/ (exists l, j0 = JObj l)) /\
      forall a, jfind a j0 = mask (hidden k z) (fun a => jlookup a (held v (s (p ++ [attr_file v z])))) a).
  { intros n H _. exists j. split; [reflexivity|]. split; [destruct J as [[? _]|?]; auto|].
    intros a. rewrite H. apply L. }
  destruct k; try (apply (D j); reflexivity).
  destruct z; [apply (D j); reflexivity|].
  destruct J as [[_ J]|[l ->]]; [discriminate (J eq_refl)|].
  destruct (@erase_list n5_dataset_keys l) as [o' [E X]]. unfold hide_n5.
  exists (JObj o'). split; [exact E|]. split; [right; now eexists|].
  intros a. cbn [jfind]. rewrite X. unfold mask. 
  change (hidden HDataset false) with n5_dataset_keys.
  destruct existsb; [reflexivity|]. apply L.
Qed.

(** The whole: any history of calls, then reading. *)
Theorem attributes_history k m p v z ops s j0 :
  can_write m = true -> attr_node k s p v z -> Forall aop_ok ops ->
  read_attributes k s p = Ok j0 ->
  let r := api_run k m p ops s in
  let t := table_run (protected k z) ops (fun a => jfind a j0) in
  fst r = fst t /\
  exists j, read_attributes k (snd r) p = Ok j /\ forall a, jfind a j = snd t a.
Proof.
  intros W A F R. simpl.
  destruct (@api_run_ok k m p v z W ops s A F) as [A2 [_ [_ [B L]]]].
  destruct (@read_attributes_ok k s p v z A) as [j1 [R1 [_ L1]]].
  rewrite R in R1. inversion R1; subst j1.
  destruct (@read_attributes_ok k _ p v z A2) as [j [R2 [_ L2]]].
  destruct (@table_run_ext (protected k z) ops (fun a => jfind a j0) _ L1) as [E1 E2].
  destruct (@table_run_mask (protected k z) (hidden k z) (@hidden_protected k z) ops
     (fun a => jlookup a (held v (s (p ++ [attr_file v z]))))) as [M1 M2].
  split; [congruence|]. exists j. split; [exact R2|].
  intros a. rewrite L2, E2, M2. unfold mask. destruct existsb; [reflexivity|]. apply L.
Qed.

(** * The protected entries of an n5 dataset *)

Lemma n5_hidden s p j a :
  attr_node HDataset s p false false -> read_attributes HDataset s p = Ok j ->
  In a n5_dataset_keys -> jfind a j = None.
Proof.
  intros A R I. destruct (read_attributes_ok A) as [j' [E [_ H]]]. rewrite R in E. inversion E; subst j'.
  rewrite H. unfold mask.
  assert (X : existsb (String.eqb a) (hidden HDataset false) = true).
  { apply existsb_exists. exists a. split; [exact I|apply String.eqb_refl]. }
  now rewrite X.
Qed.

Lemma n5_refused m p l a s :
  attr_node HDataset s p false false -> In a n5_dataset_keys ->
  (jlookup a l <> None ->
    fst (write_attributes HDataset m p (JObj l) s) = s /\ is_ok (snd (write_attributes HDataset m p (JObj l) s)) = false) /\
  fst (remove_attribute HDataset m p a s) = s /\ is_ok (snd (remove_attribute HDataset m p a s)) = false.
Proof.
  intros A I. pose proof (an_zarr A) as Z. cbn [handle_is_zarr] in Z. split.
  - intros N. unfold write_attributes. destruct (negb (can_write m)); [now split|].
    rewrite (@fbind_reading _ _ _ _ s _ Z). unfold fbind, fret. cbn [protect_json].
    assert (X : existsb (fun a => jcontains a (JObj l)) n5_dataset_keys = true).
    { apply existsb_exists. exists a. split; [exact I|]. unfold jcontains. cbn [jfind]. now destruct (jlookup a l). }
    rewrite X. now split.
  - unfold remove_attribute. destruct (negb (can_write m)); [now split|].
    rewrite (@fbind_reading _ _ _ _ s _ Z). unfold fbind, fret. cbn [protect_key].
    assert (X : existsb (fun b => String.eqb b a) n5_dataset_keys = true).
    { apply existsb_exists. exists a. split; [exact I|apply String.eqb_refl]. }
    rewrite X. now split.
Qed.
