(** Proofs about containers in an object store: histories of calls, names of children. *)
From Coq Require Import ZArith Ascii String.
From Verif Require Import M_Base P_Base M_Double M_Json M_Mode M_Key M_Blocking M_Metadata M_Fs M_Attributes M_Container M_Store M_S3 M_S3Container
  S_Attributes P_Attributes S_Container P_Container P_Container2 P_Container3 S_Text S_S3 S_S3Container P_Key P_S3 P_S3Sim
  P_S3Container P_S3Container2 P_S3Container3 P_S3Container4.
Import ListNotations.
Set Implicit Arguments.
Local Open Scope list_scope.
Local Open Scope N_scope.

Section Mirror.
Variables (T : text_codec) (p : path) (n : string) (s0 : s3).
Hypothesis TOK : text_ok T.
Notation alike := (alike T p n s0).
Notation tells := (tells T p n s0).
Notation both := (@both T p n s0).

Lemma tells_both t s A (a : act s3 A) o : tells t a o -> alike t s -> both (t, o) (a s).
Proof using. intros H A0. destruct (H s A0) as (s' & E & O & R). rewrite E. split; [reflexivity|]. exact (alike_same A0 O R). Qed.
Lemma both_map t s A B (f : A -> B) (a : act fsys A) (b : act s3 A) : both (a t) (b s) -> both (amap f a t) (amap f b s).
Proof using. intros [E H]. unfold amap. split; cbn [fst snd]; [now rewrite E|exact H]. Qed.
Lemma no_file_bool t q : no_file t q -> fs_exists t q = fs_isdir t q.
Proof using. unfold no_file, fs_exists, fs_isdir. intros [-> | ->]; reflexivity. Qed.

Lemma call_same m c t s : alike t s -> agreed p t c -> both (dir_call m p c t) (bucket_call T m n c s).
Proof using TOK.
  intros A0. pose proof A0 as [M _]. pose proof (mi_fs M) as FS. destruct c; cbn [agreed dir_call bucket_call]; unfold freading.
  - intros [F NF]. rewrite (no_file_bool NF). apply (@tells_both t s); [|exact A0]. exact (tells_map ABool (@tells_exists T p n s0 q F t m)).
  - intros [F NF]. unfold group_in. cbn [h_path]. rewrite <- app_assoc, <- (no_file_bool NF). apply (@tells_both t s); [|exact A0].
    apply Forall_app in F as [F Fc]. inversion Fc as [|? ? Pc _]; subst. exact (tells_map ABool (@tells_in T p n s0 q F t c m Pc)).
  - intros [F D]. apply (@tells_both t s); [|exact A0]. apply tells_map. now apply tells_zarr.
  - intros [F N]. apply (@tells_both t s); [|exact A0]. apply tells_map. now apply tells_sub_group.
  - intros [F D]. apply (@tells_both t s); [|exact A0]. apply tells_map. now apply tells_attributes.
  - intros [F N]. apply both_map. now apply both_write.
  - intros [F N]. apply both_map. now apply both_remove.
  - intros (F & D & C). apply (@tells_both t s); [|exact A0]. now apply tells_open.
  - intros [W NF]. apply both_map. now apply both_create_file.
  - intros (F & N & NI & NF). apply both_map. now apply both_create_group.
  - intros (F & N & NI & NF & C). now apply both_create_dataset.
  - intros (F & D & NE). apply both_map. now apply both_remove_node.
Qed.

Lemma history_same m cs : forall t s, alike t s -> all_agreed m p cs t ->
  snd (history (bucket_call T m n) cs s) = snd (history (dir_call m p) cs t) /\
  alike (fst (history (dir_call m p) cs t)) (fst (history (bucket_call T m n) cs s)).
Proof using TOK.
  induction cs as [|c cs IH]; intros t s A0 AG; [now split|]. cbn [history all_agreed] in *. destruct AG as [G AG].
  destruct (@call_same m c t s A0 G) as [E A1]. destruct (dir_call m p c t) as [t1 a], (bucket_call T m n c s) as [s1 b]. cbn [fst snd] in *. subst b.
  specialize (IH t1 s1 A1 AG). destruct (history (dir_call m p) cs t1), (history (bucket_call T m n) cs s1). cbn [fst snd] in *.
  destruct IH as [-> H]. now split.
Qed.
End Mirror.

Theorem containers_same T p n m cs t s : text_ok T -> mirror T p n t s -> reliable s -> all_agreed m p cs t ->
  let '(t', l) := history (dir_call m p) cs t in
  let '(s', l') := history (bucket_call T m n) cs s in
  l' = l /\ mirror T p n t' s' /\ rest_same n s s'.
Proof.
  intros TOK M R AG. destruct (@history_same T p n s TOK m cs t s) as [E [M' [_ RS]]]; [|exact AG|].
  - split; [exact M|]. split; [exact R|]. now intros k _.
  - destruct (history (dir_call m p) cs t), (history (bucket_call T m n) cs s). auto.
Qed.

Theorem children_same T p n q m t s : mirror T p n t s -> reliable s -> Forall plain_name q ->
  exists s' l, s3_keys (S3Handle (place n q) m) s = (s', Ok l) /\ objects s' = objects s /\ reliable s' /\ NoDup l /\
    forall c, In c l <-> plain_name c /\ t (p ++ q ++ [c]) = Some NDir.
Proof.
  intros M R F. destruct (@s3_keys_spec (S3Handle (place n q) m) s R) as (s' & l & E & O & R' & ND & H). exists s', l.
  split; [exact E|]. split; [exact O|]. split; [exact R'|]. split; [exact ND|]. intros c. rewrite H. cbn [sh_name]. split.
  - intros (Sc & r & K). assert (I : inside (place n q) (child (place n q) c ++ "/" ++ r)%string).
    { unfold inside, child. destruct (String.eqb_spec (place n q) ""); [now left|]. right. exists (c ++ "/" ++ r)%string. now rewrite !sapp_assoc3. }
    destruct (mi_keys M K (inside_sub F I)) as (q' & N' & F' & Ek). rewrite Ek in I. apply inside_place in I; auto. destruct I as (x & Nx & ->).
    rewrite place_app in Ek. apply Forall_app in F' as [_ Fx]. rewrite (place_eq Nx Fx) in Ek.
    assert (Ex : key_of x = (c ++ "/" ++ r)%string).
    { unfold child in Ek. destruct (String.eqb_spec (place n q) ""); [auto|]. rewrite sapp_assoc3 in Ek. cbn in Ek.
      apply sapp_inj in Ek. injection Ek as Ek. auto. }
    assert (Pc : plain_name c).
    { split; [|exact Sc]. intros ->. destruct x as [|d x]; [contradiction|]. inversion Fx as [|? ? [Nd Sd] Fx']; subst.
      destruct d as [|a d]; [contradiction|]. destruct x as [|d' x]; cbn in Ex; injection Ex as -> _; discriminate. }
    split; [exact Pc|]. apply (inside_dir M (plain_snoc F Pc)). eexists. split; [exact K|]. rewrite place_snoc. right. now exists r.
  - intros [Pc D]. split; [apply Pc|]. assert (Fc : Forall plain_name (q ++ [c])) by now apply plain_snoc.
    apply (inside_dir M Fc) in D as (k & K & I). destruct I as [I|[r ->]].
    + exfalso. apply place_ne in I; auto. now destruct q.
    + rewrite place_snoc in K. eauto.
Qed.
