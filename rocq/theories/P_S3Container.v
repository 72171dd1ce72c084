(** Proofs about containers in an object store: keys as paths, and the elementary
    operations on a directory and its copy in a bucket. *)
From Coq Require Import ZArith Ascii String.
From Verif Require Import M_Base P_Base M_Double M_Json M_Mode M_Key M_Metadata M_Fs M_Attributes M_Container M_Store M_S3 M_S3Container
  S_Attributes P_Attributes S_Container P_Container S_Text S_S3 S_S3Container P_Key P_S3 P_S3Sim.
Import ListNotations.
Set Implicit Arguments.
Local Open Scope list_scope.
Local Open Scope N_scope.

(** * Keys *)

Lemma sapp_assoc3 (a b c : string) : ((a ++ b) ++ c)%string = (a ++ b ++ c)%string.
Proof. induction a; cbn; [reflexivity|]. now rewrite IHa. Qed.
Lemma sapp_inj (a b c : string) : (a ++ b)%string = (a ++ c)%string -> b = c.
Proof. induction a; cbn; [auto|]. intros [= H]. auto. Qed.
Lemma sapp_nil (a b : string) : (a ++ b)%string = a -> b = ""%string.
Proof. induction a; cbn; [auto|]. intros [= H]. auto. Qed.

Lemma place_snoc n q c : place n (q ++ [c]) = child (place n q) c.
Proof. unfold place. now rewrite fold_left_app. Qed.
Lemma place_app n q r : place n (q ++ r) = place (place n q) r.
Proof. unfold place. now rewrite fold_left_app. Qed.
Lemma child_ne n c : plain_name c -> child n c <> ""%string.
Proof. intros [H _]. unfold child. destruct (String.eqb_spec n ""); [exact H|]. now destruct n. Qed.

(** The key behind the name of the container. *)
Lemma place_eq q : q <> [] -> Forall plain_name q -> forall n, place n q = child n (key_of q).
Proof.
  induction q as [|c q IH]; [contradiction|]. intros _ F n. inversion F as [|? ? Pc Fq]; subst. destruct q as [|c' q].
  - reflexivity.
  - change (place n (c :: c' :: q)) with (place (child n c) (c' :: q)). rewrite IH by (assumption || discriminate).
    rewrite (key_cons c (q := c' :: q)) by discriminate. unfold child at 1. destruct (String.eqb_spec (child n c) "") as [E|_]; [now apply child_ne in E|].
    unfold child. destruct (String.eqb n ""); [reflexivity|]. now rewrite !sapp_assoc3.
Qed.
Lemma place_ne n q : q <> [] -> Forall plain_name q -> place n q <> ""%string.
Proof.
  intros N F. destruct q as [|c q _] using rev_ind; [contradiction|]. rewrite place_snoc. apply child_ne.
  apply Forall_app in F as [_ F]. now inversion F.
Qed.

Lemma key_inj : forall q r, Forall plain_name q -> Forall plain_name r -> q <> [] -> r <> [] -> key_of q = key_of r -> q = r.
Proof.
  induction q as [|c q IH]; intros r Fq Fr Nq Nr E; [contradiction|]. inversion Fq as [|? ? Pc Fq']; subst.
  destruct q as [|c' q].
  - destruct r as [|d r]; [contradiction|]. inversion Fr as [|? ? Pd Fr']; subst. destruct r as [|d' r]; [cbn in E; congruence|].
    rewrite (key_cons d (q := d' :: r)) in E by discriminate. change (key_of [c]) with c in E. exfalso. destruct Pc as [_ Pc]. rewrite E in Pc.
    rewrite slash_free_app in Pc. cbn in Pc. rewrite andb_false_r in Pc. discriminate.
  - rewrite (key_cons c (q := c' :: q)) in E by discriminate. symmetry in E. destruct (key_no_slash Pc Nr Fr E) as (r' & -> & Nr' & E').
    inversion Fr; subst. f_equal. apply IH; auto; discriminate.
Qed.
Lemma child_inj n a b : child n a = child n b -> a = b.
Proof. unfold child. destruct (String.eqb n ""); [auto|]. intros H. apply sapp_inj in H. now injection H. Qed.
Lemma child_self n c : plain_name c -> child n c <> n.
Proof.
  intros Pc. unfold child. destruct (String.eqb_spec n "") as [->|N]; [apply Pc|]. intros E. apply sapp_nil in E. discriminate.
Qed.
Lemma place_inj n q r : Forall plain_name q -> Forall plain_name r -> place n q = place n r -> q = r.
Proof.
  intros Fq Fr E. destruct q as [|c q], r as [|d r].
  - reflexivity.
  - exfalso. rewrite (place_eq (q := d :: r)) in E by (assumption || discriminate). change (place n []) with n in E. symmetry in E. unfold child in E.
    destruct (String.eqb_spec n "") as [->|N]; [now apply key_nonempty in E|]. apply sapp_nil in E. discriminate.
  - exfalso. rewrite (place_eq (q := c :: q)) in E by (assumption || discriminate). change (place n []) with n in E. unfold child in E.
    destruct (String.eqb_spec n "") as [->|N]; [now apply key_nonempty in E|]. apply sapp_nil in E. discriminate.
  - rewrite !place_eq in E by (assumption || discriminate). apply child_inj in E. apply key_inj; auto; discriminate.
Qed.

Lemma inside_place_app n q r : Forall plain_name (q ++ r) -> r <> [] -> inside (place n q) (place n (q ++ r)).
Proof.
  intros F N. rewrite place_app. apply Forall_app in F as [_ F]. rewrite (place_eq N F). unfold child, inside.
  destruct (String.eqb_spec (place n q) "") as [->|_]; [now left|]. right. eauto.
Qed.
Lemma inside_root n r : Forall plain_name r -> r <> [] -> inside n (place n r).
Proof. intros F N. exact (@inside_place_app n [] r F N). Qed.
Lemma inside_place n q r : Forall plain_name q -> Forall plain_name r -> r <> [] ->
  inside (place n q) (place n r) <-> exists r', r' <> [] /\ r = q ++ r'.
Proof.
  intros Fq Fr Nr. split.
  - intros I. destruct q as [|c q]; [exists r; auto|].
    destruct (inside_path Fq Fr) as [H _]; [discriminate|assumption|]. apply H. clear H.
    destruct I as [E|[x E]]; [now apply place_ne in E|]. right. exists x.
    rewrite !place_eq in E by (assumption || discriminate). unfold child in E.
    destruct (String.eqb n ""); [exact E|]. rewrite sapp_assoc3 in E. apply sapp_inj in E. cbn in E. injection E as E.
    exact E.
  - intros (r' & N & ->). now apply inside_place_app.
Qed.
Lemma inside_sub n q k : Forall plain_name q -> inside (place n q) k -> inside n k.
Proof.
  intros Fq I. destruct q as [|c q]; [exact I|].
  destruct I as [E|[x E]]; [now apply place_ne in E|].
  rewrite place_eq in E by (assumption || discriminate). unfold child in E. unfold inside.
  destruct (String.eqb_spec n ""); [now left|]. right. rewrite E. eexists. rewrite !sapp_assoc3. cbn [String.append]. reflexivity.
Qed.

Lemma join_place n q c : join_key (place n q) c = place n (q ++ [c]).
Proof. now rewrite join_child, place_snoc. Qed.
Lemma child_place n q c m : s3_child (S3Handle (place n q) m) c = S3Handle (place n (q ++ [c])) m.
Proof.
  unfold s3_child. cbn [sh_name sh_mode]. f_equal. rewrite place_snoc. unfold child.
  destruct (place n q); [reflexivity|]. destruct (String.eqb_spec (String a s) ""); [discriminate|reflexivity].
Qed.
