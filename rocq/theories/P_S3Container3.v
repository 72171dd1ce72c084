(** Proofs about containers in an object store: the calls that only read, and the
    attributes. *)
From Coq Require Import ZArith Ascii String.
From Verif Require Import M_Base P_Base M_Double M_Json M_Mode M_Key M_Metadata M_Fs M_Attributes M_Container M_Store M_S3 M_S3Container
  S_Attributes P_Attributes S_Container P_Container S_Text S_S3 S_S3Container P_Key P_S3 P_S3Sim P_S3Container P_S3Container2.
Import ListNotations.
Set Implicit Arguments.
Local Open Scope list_scope.
Local Open Scope N_scope.

(** * The file system backend is the generic code over its JsonIO *)

Lemma fs_gen_read t b z j : g_read_attributes (fs_io b) z j t = (t, gen_read_attributes t b z j).
Proof.
  unfold g_read_attributes, gen_read_attributes, g_is_v3, g_read_v3_attributes, read_v3_attributes, io_read_or, read_doc_or,
    fs_io, abind, freading, aret. cbn [io_exists io_read].
  destruct z; cbn [andb attributes_name split_slash removelast last String.append Ascii.eqb Bool.eqb]; cbn;
    rewrite ?app_nil_r.
  - destruct (fs_exists t (b ++ ["zarr.json"%string])).
    + destruct (read_doc t b "zarr.json") as [[f|]|e|]; cbn; try reflexivity. now destruct (jfind "attributes" f).
    + now destruct (read_doc t b ".zattrs") as [[f|]|e|].
  - now destruct (read_doc t b "attributes.json") as [[f|]|e|].
Qed.

Lemma fs_gen_write t b z j : g_write_attributes (fs_io b) z j t = gen_write_attributes b z j t.
Proof.
  unfold g_write_attributes, gen_write_attributes, g_is_v3, g_write_v3_attributes, write_v3_attributes, io_read_or, read_doc_or,
    fs_io, abind, fbind, freading, aret, fret. cbn [io_exists io_read io_write].
  destruct z; cbn [andb attributes_name split_slash removelast last String.append Ascii.eqb Bool.eqb]; cbn;
    rewrite ?app_nil_r.
  - destruct (fs_exists t (b ++ ["zarr.json"%string])).
    + destruct (read_doc t b "zarr.json") as [[f|]|e|]; cbn; reflexivity.
    + now destruct (read_doc t b ".zattrs") as [[f|]|e|].
  - now destruct (read_doc t b "attributes.json") as [[f|]|e|].
Qed.

Lemma fs_gen_remove t b z k : g_remove_attribute (fs_io b) z k t = gen_remove_attribute b z k t.
Proof.
  unfold g_remove_attribute, gen_remove_attribute, g_is_v3, g_remove_v3_attribute, remove_v3_attribute, io_read_or, read_doc_or,
    fs_io, abind, fbind, freading, aret, fret. cbn [io_exists io_read io_write].
  destruct z; cbn [andb attributes_name split_slash removelast last String.append Ascii.eqb Bool.eqb]; cbn;
    rewrite ?app_nil_r.
  - destruct (fs_exists t (b ++ ["zarr.json"%string])).
    + destruct (read_doc t b "zarr.json") as [[f|]|e|]; cbn; reflexivity.
    + now destruct (read_doc t b ".zattrs") as [[f|]|e|].
  - now destruct (read_doc t b "attributes.json") as [[f|]|e|].
Qed.

Lemma split_plain : forall x c, slash_free x = true -> split_slash x c = [(c ++ x)%string].
Proof.
  induction x as [|a x IH]; intros c H; cbn [split_slash]; [now rewrite P_Key.sapp_nil|]. cbn in H.
  destruct (Ascii.eqb a "/"); [discriminate|]. rewrite IH by exact H. f_equal. now rewrite sapp_assoc3.
Qed.
Lemma split_doc key name : slash_free key = true -> slash_free name = true ->
  split_slash (key ++ "/" ++ name) "" = [key; name].
Proof.
  intros H1 H2. assert (G : forall c, split_slash (key ++ "/" ++ name) c = [(c ++ key)%string; name]); [|apply G].
  induction key as [|a x IH]; intros c.
  - cbn. rewrite split_plain by exact H2. now rewrite P_Key.sapp_nil.
  - cbn in *. destruct (Ascii.eqb a "/"); [discriminate|]. rewrite IH by exact H1. now rewrite sapp_assoc3.
Qed.

(** * Generic code over two backends *)
Section Generic.
Variables (S1 S2 : Type) (R : S1 -> S2 -> Prop) (io1 : json_io S1) (io2 : json_io S2).
Notation rl := (@rel _ _ R (fun _ => False) (fun _ => True)).
Hypothesis ex : forall c, In c documents -> rl (io_exists io1 c) (io_exists io2 c).
Hypothesis rd : forall c, In c documents -> rl (io_read io1 c) (io_read io2 c).
Hypothesis wr : forall c j, In c documents -> c <> "attributes.json"%string -> rl (io_write io1 c j) (io_write io2 c j).

Lemma rel_read_or c j : In c documents -> rl (io_read_or io1 c j) (io_read_or io2 c j).
Proof using rd. intros I. apply rel_bind; [now apply rd|]. intros o. apply rel_ret. Qed.

Lemma rel_g_write j : rl (g_write_attributes io1 true j) (g_write_attributes io2 true j).
Proof using ex rd wr.
  unfold g_write_attributes, g_is_v3. apply rel_bind; [apply ex; cbn; tauto|]. intros [].
  - unfold g_write_v3_attributes. apply rel_bind; [apply rel_read_or; cbn; tauto|]. intros full.
    apply rel_bind; [apply rel_ret|]. intros a. apply rel_bind; [apply rel_ret|]. intros f. apply wr; [cbn; tauto|discriminate].
  - apply rel_bind; [apply rel_read_or; cbn; tauto|]. intros old.
    apply rel_bind; [apply rel_ret|]. intros f. apply wr; [cbn; tauto|discriminate].
Qed.
Lemma rel_g_remove k : rl (g_remove_attribute io1 true k) (g_remove_attribute io2 true k).
Proof using ex rd wr.
  unfold g_remove_attribute, g_is_v3. apply rel_bind; [apply ex; cbn; tauto|]. intros [].
  - unfold g_remove_v3_attribute. apply rel_bind; [apply rd; cbn; tauto|]. intros [full|]; [|apply rel_ret].
    apply rel_bind; [apply rel_ret|]. intros f. apply wr; [cbn; tauto|discriminate].
  - apply rel_bind; [apply rd; cbn; tauto|]. intros [old|]; [|apply rel_ret].
    apply rel_bind; [apply rel_ret|]. intros f. apply wr; [cbn; tauto|discriminate].
Qed.
End Generic.

Section Mirror.
Variables (T : text_codec) (p : path) (n : string) (s0 : s3).
Hypothesis TOK : text_ok T.
Notation alike := (alike T p n s0).
Notation alike_at := (alike_at T p n s0).
Notation rl_at q := (@rel _ _ (alike_at q) (fun _ => False) (fun _ => True)).

(** The reading call [a] on the bucket has the outcome [o]. *)
Definition tells (t : fsys) {A} (a : act s3 A) (o : outcome A) : Prop :=
  forall s, alike t s -> exists s', a s = (s', o) /\ objects s' = objects s /\ reliable s'.

Lemma tells_ret t A (o : outcome A) : tells t (aret o) o.
Proof using. intros s H. exists s. split; [reflexivity|]. split; [reflexivity|apply H]. Qed.
Lemma tells_bind t A B (a : act s3 A) o (f : A -> act s3 B) g :
  tells t a o -> (forall x, o = Ok x -> tells t (f x) (g x)) -> tells t (abind a f) (bind o g).
Proof using.
  intros H K s A0. destruct (H s A0) as (s1 & E & O & R). unfold abind. rewrite E. destruct o as [x|e|]; cbn [bind]; [|eauto|eauto].
  destruct (K x eq_refl s1) as (s2 & E2 & O2 & R2); [exact (alike_same A0 O R)|]. exists s2. split; [exact E2|]. split; [congruence|exact R2].
Qed.
Lemma tells_map t A B (h : A -> B) (a : act s3 A) o : tells t a o -> tells t (amap h a) (omap h o).
Proof using.
  intros H s A0. destruct (H s A0) as (s1 & E & O & R). exists s1. split; [|auto]. unfold amap. now rewrite E.
Qed.
Lemma tells_if t A (b : bool) (a1 a2 : act s3 A) o1 o2 : (b = true -> tells t a1 o1) -> (b = false -> tells t a2 o2) -> tells t (if b then a1 else a2) (if b then o1 else o2).
Proof using. destruct b; auto. Qed.

Section Node.
Variable q : path.
Hypothesis F : Forall plain_name q.
Notation h m := (S3Handle (place n q) m).

Lemma tells_object t c : In c documents -> tells t (object_exists (join_key (place n q) c)) (Ok (fs_exists t (p ++ q ++ [c]))).
Proof using F. intros I s A0. rewrite join_place. exact (object_step A0 F I). Qed.
Lemma tells_read t c : In c documents -> tells t (s3_read_json T (join_key (place n q) c)) (read_doc t (p ++ q) c).
Proof using F. intros I s A0. rewrite join_place. exact (read_step A0 F I). Qed.
Lemma tells_in t c m : plain_name c -> tells t (s3_in (h m) c) (Ok (fs_exists t (p ++ q ++ [c]))).
Proof using F. intros I s A0. exact (in_step m A0 (plain_snoc F I)). Qed.
Lemma tells_exists t m : tells t (s3_exists (h m)) (Ok (fs_isdir t (p ++ q))).
Proof using F. intros s A0. exact (exists_step m A0 F). Qed.

Lemma bind_bool (a b : bool) : (let! x := Ok a in if x then Ok true else Ok b) = Ok (a || b).
Proof. now destruct a. Qed.
Lemma tells_zarr t k m : t (p ++ q) = Some NDir -> tells t (s3_handle_is_zarr k (h m)) (handle_is_zarr k t (p ++ q)).
Proof using F.
  intros D. assert (X : negb (fs_exists t (p ++ q)) = false) by (unfold fs_exists; now rewrite D).
  destruct k; cbn [s3_handle_is_zarr handle_is_zarr]; unfold is_zarr_group, is_zarr_dataset; rewrite X, <- !app_assoc, <- bind_bool;
    (apply tells_bind; [apply tells_in, document_plain; cbn; tauto|]; intros []; [intros _; apply tells_ret|intros _; apply tells_in, document_plain; cbn; tauto]).
Qed.

Lemma tells_read_or t c j m : In c documents -> tells t (io_read_or (s3_io T (h m)) c j) (read_doc_or t (p ++ q) c j).
Proof using F. intros I. apply tells_bind; [now apply tells_read|]. intros x _. apply tells_ret. Qed.

Lemma tells_gen_read t z j m : tells t (g_read_attributes (s3_io T (h m)) z j) (gen_read_attributes t (p ++ q) z j).
Proof using F.
  unfold g_read_attributes, gen_read_attributes, g_is_v3. destruct z; cbn [andb].
  - replace (if fs_exists t ((p ++ q) ++ ["zarr.json"%string]) then read_v3_attributes t (p ++ q) j else read_doc_or t (p ++ q) (attributes_name true) j)
      with (bind (Ok (fs_exists t (p ++ q ++ ["zarr.json"%string])))
              (fun v : bool => if v then read_v3_attributes t (p ++ q) j else read_doc_or t (p ++ q) (attributes_name true) j))
      by now rewrite <- app_assoc.
    apply tells_bind; [apply tells_object; cbn; tauto|]. intros v _. apply tells_if; intros _.
    + unfold g_read_v3_attributes, read_v3_attributes. apply tells_bind; [apply tells_read; cbn; tauto|].
      intros [f|] _; [destruct (jfind "attributes" f)|]; apply tells_ret.
    + apply tells_read_or. cbn; tauto.
  - change (read_doc_or t (p ++ q) (attributes_name false) j) with (bind (Ok false) (fun _ : bool => read_doc_or t (p ++ q) (attributes_name false) j)).
    apply tells_bind; [apply tells_ret|]. intros v [= <-]. apply tells_read_or. cbn; tauto.
Qed.

Lemma tells_attributes t k m : t (p ++ q) = Some NDir -> tells t (s3_read_attributes T k (h m)) (read_attributes k t (p ++ q)).
Proof using F.
  intros D. unfold s3_read_attributes, read_attributes. apply tells_bind; [now apply tells_zarr|]. intros z _.
  apply tells_bind; [apply tells_gen_read|]. intros j _. destruct k; [apply tells_ret|apply tells_ret|destruct z; apply tells_ret].
Qed.

Lemma node_zarr k t : is_node k t (p ++ q) -> handle_is_zarr k t (p ++ q) = Ok true.
Proof using.
  intros [D (c & I & E)]. destruct k; cbn [handle_is_zarr] in *; unfold is_zarr_group, is_zarr_dataset, fs_exists at 1;
    rewrite D; cbn [negb]; f_equal; unfold fs_exists; destruct I as [<-|[<-|[]]];
    (destruct (t ((p ++ q) ++ _)) eqn:X at 1; [reflexivity|]) || idtac;
    repeat match goal with |- context [t ?r] => destruct (t r); try reflexivity end; congruence.
Qed.

Lemma protected_zarr t k m chk : is_node k t (p ++ q) -> tells t (s3_protected k (h m) chk) (Ok true).
Proof using F.
  intros N. pose proof (node_zarr N) as Z. destruct N as [D _].
  assert (K : tells t (s3_handle_is_zarr k (h m)) (Ok true)). { rewrite <- Z. now apply tells_zarr. }
  destruct k; cbn [s3_protected s3_handle_is_zarr] in *.
  - replace (Ok true) with (bind (Ok true) (fun z : bool => bind (if z then Ok tt else chk) (fun _ => Ok true))) by reflexivity.
    apply tells_bind; [exact K|]. intros z _. apply tells_bind; [apply tells_ret|]. intros _ _. exact K.
  - exact K.
  - replace (Ok true) with (bind (Ok true) (fun z : bool => bind (if z then Ok tt else chk) (fun _ => Ok z))) by reflexivity.
    apply tells_bind; [exact K|]. intros z _. apply tells_bind; [apply tells_ret|]. intros _ _. apply tells_ret.
Qed.

Lemma rel_io_write j m : rl_at q (g_write_attributes (fs_io (p ++ q)) true j) (g_write_attributes (s3_io T (h m)) true j).
Proof using F TOK.
  apply rel_g_write; cbn [io_exists io_read io_write fs_io s3_io sh_name].
  - intros c I. apply rel_read_at. intros t s A0 D. pose proof (@tells_object t c I s A0) as H.
    replace (split_slash c "") with [c]; [now rewrite <- app_assoc|]. cbn in I; intuition; now subst.
  - intros c I. apply rel_read_at. intros t s A0 D. pose proof (@tells_read t c I s A0) as H.
    replace (split_slash c "") with [c]; [cbn [removelast last]; now rewrite app_nil_r|]. cbn in I; intuition; now subst.
  - intros c j' I NA. rewrite join_place. now apply write_rel.
Qed.
Lemma rel_io_remove a m : rl_at q (g_remove_attribute (fs_io (p ++ q)) true a) (g_remove_attribute (s3_io T (h m)) true a).
Proof using F TOK.
  apply rel_g_remove; cbn [io_exists io_read io_write fs_io s3_io sh_name].
  - intros c I. apply rel_read_at. intros t s A0 D. pose proof (@tells_object t c I s A0) as H.
    replace (split_slash c "") with [c]; [now rewrite <- app_assoc|]. cbn in I; intuition; now subst.
  - intros c I. apply rel_read_at. intros t s A0 D. pose proof (@tells_read t c I s A0) as H.
    replace (split_slash c "") with [c]; [cbn [removelast last]; now rewrite app_nil_r|]. cbn in I; intuition; now subst.
  - intros c j' I NA. rewrite join_place. now apply write_rel.
Qed.

(** What both calls lead to. *)
Definition both {A} (x : fsys * outcome A) (y : s3 * outcome A) : Prop := snd y = snd x /\ alike (fst x) (fst y).

Lemma rel_both A (a1 : act fsys A) a2 t s : rl_at q a1 a2 -> alike t s -> t (p ++ q) = Some NDir -> both (a1 t) (a2 s).
Proof using. intros H A0 D. destruct (H t s (conj A0 D)) as [[[A1 _] E]|(? & [] & _)]. split; auto. Qed.

Lemma both_write t s k m j : alike t s -> is_node k t (p ++ q) -> both (write_attributes k m (p ++ q) j t) (s3_write_attributes T k (h m) j s).
Proof using F TOK.
  intros A0 N. unfold write_attributes, s3_write_attributes. cbn [sh_mode]. destruct (negb (can_write m)); [now split|].
  destruct (protected_zarr m (protect_json k j) N A0) as (s1 & E & O & R). unfold abind, fbind, freading, fret. rewrite E, (node_zarr N).
  rewrite <- fs_gen_write. apply rel_both; [apply rel_io_write|exact (alike_same A0 O R)|apply N].
Qed.
Lemma both_remove t s k m a : alike t s -> is_node k t (p ++ q) -> both (remove_attribute k m (p ++ q) a t) (s3_remove_attribute T k (h m) a s).
Proof using F TOK.
  intros A0 N. unfold remove_attribute, s3_remove_attribute. cbn [sh_mode]. destruct (negb (can_write m)); [now split|].
  destruct (protected_zarr m (protect_key k a) N A0) as (s1 & E & O & R). unfold abind, fbind, freading, fret. rewrite E, (node_zarr N).
  rewrite <- fs_gen_remove. apply rel_both; [apply rel_io_remove|exact (alike_same A0 O R)|apply N].
Qed.
End Node.
End Mirror.
