(** Proofs about containers in an object store: the elementary operations on a directory
    and on the same container in a bucket. *)
From Coq Require Import ZArith Ascii String.
From Verif Require Import M_Base P_Base M_Double M_Json M_Mode M_Key M_Metadata M_Fs M_Attributes M_Container M_Store M_S3 M_S3Container
  S_Attributes P_Attributes S_Container P_Container S_Text S_S3 S_S3Container P_Key P_S3 P_S3Sim P_S3Container.
Import ListNotations.
Set Implicit Arguments.
Local Open Scope list_scope.
Local Open Scope N_scope.

Section Mirror.
Variables (T : text_codec) (p : path) (n : string) (s0 : s3).
Hypothesis TOK : text_ok T.

(** The two containers are the same, no request fails, the rest of the bucket is as in
    the beginning. *)
Definition alike (t : fsys) (s : s3) : Prop := mirror T p n t s /\ reliable s /\ rest_same n s0 s.
(** And the node at [q] is there. *)
Definition alike_at (q : path) (t : fsys) (s : s3) : Prop := alike t s /\ t (p ++ q) = Some NDir.

Notation rl := (@rel _ _ alike (fun _ => False) (fun _ => True)).
Notation rl_at q := (@rel _ _ (alike_at q) (fun _ => False) (fun _ => True)).

Lemma alike_same t s s' : alike t s -> objects s' = objects s -> reliable s' -> alike t s'.
Proof using.
  intros [M [_ O]] E R. split; [|split; [exact R|]].
  - destruct M. constructor; auto.
    + intros q c F. rewrite E. auto.
    + intros k H I. apply mi_keys; auto. destruct H as [b H]. exists b. now rewrite <- E.
  - intros k H. rewrite E. now apply O.
Qed.

(** A read request. *)
Lemma rel_read A (f : fsys -> outcome A) (a : act s3 A) :
  (forall t s, alike t s -> exists s', a s = (s', f t) /\ objects s' = objects s /\ reliable s') ->
  rl (freading f) a.
Proof using.
  intros H t s R. destruct (H t s R) as (s' & E & O & R'). left. rewrite E. cbn [fst snd freading].
  split; [|reflexivity]. exact (alike_same R O R').
Qed.
Lemma rel_read_at q A (f : fsys -> outcome A) (a : act s3 A) :
  (forall t s, alike t s -> t (p ++ q) = Some NDir -> exists s', a s = (s', f t) /\ objects s' = objects s /\ reliable s') ->
  rl_at q (freading f) a.
Proof using.
  intros H t s [R D]. destruct (H t s R D) as (s' & E & O & R'). left. rewrite E. cbn [fst snd freading].
  split; [|reflexivity]. split; [exact (alike_same R O R')|exact D].
Qed.

Lemma plain_snoc q c : Forall plain_name q -> plain_name c -> Forall plain_name (q ++ [c]).
Proof. intros H1 H2. apply Forall_app. auto. Qed.

Lemma document_plain c : In c documents -> plain_name c.
Proof. cbn. intuition; subst; split; try discriminate; reflexivity. Qed.
Lemma marker_document c : In c markers -> In c documents.
Proof. cbn. intuition. Qed.

Lemma no_doc_held t s q c : mirror T p n t s -> Forall plain_name (q ++ [c]) ->
  held s (place n (q ++ [c])) <-> t (p ++ q ++ [c]) <> None /\ t (p ++ q ++ [c]) <> Some NDir.
Proof using.
  intros M F. pose proof (@mi_files _ _ _ _ _ M q c F) as H. unfold held, stored in *. destruct (t (p ++ q ++ [c])) as [[|j|b]|].
  - rewrite H. split; [now intros [b Hb]|]. now intros [_ X].
  - destruct H as (b & -> & _). split; [|eauto]. intros _. split; discriminate.
  - destruct H as [-> _]. split; [|eauto]. intros _. split; discriminate.
  - rewrite H. split; [now intros [b Hb]|]. now intros [X _].
Qed.

(** What lies inside of a node: there is something if and only if it is a directory. *)
Lemma inside_dir t s q : mirror T p n t s -> Forall plain_name q ->
  (exists k, held s k /\ inside (place n q) k) <-> t (p ++ q) = Some NDir.
Proof using.
  intros M F. split.
  - intros (k & H & I). pose proof (@inside_sub n q k F I) as I'. destruct (mi_keys M H I') as (r & Nr & Fr & ->).
    apply inside_place in I; auto. destruct I as (r' & Nr' & ->).
    destruct (rev_ind (fun l => l <> [] -> exists l0 a, l = l0 ++ [a]) (fun C => match C eq_refl with end)
      (fun a l0 _ _ => ex_intro _ l0 (ex_intro _ a eq_refl)) r' Nr') as (r0 & c & ->).
    rewrite app_assoc in H, Fr. apply (@no_doc_held t s _ _ M Fr) in H as [H _].
    apply (@fs_ok_below t (p ++ q) (r0 ++ [c])); [exact (mi_fs M)|now rewrite <- !app_assoc in *|now destruct r0].
  - intros D. destruct (mi_marker M F D) as (c & j & I & E). pose proof (document_plain (marker_document I)) as Pc.
    exists (place n (q ++ [c])). split.
    + apply (no_doc_held M); [now apply plain_snoc|]. rewrite E. split; discriminate.
    + apply (@inside_place_app n q [c]); [now apply plain_snoc|discriminate].
Qed.

Lemma dir_bool t s q b : mirror T p n t s -> Forall plain_name q ->
  (b = true <-> exists k, held s k /\ inside (place n q) k) -> b = fs_isdir t (p ++ q).
Proof using.
  intros M F H. rewrite (inside_dir M F) in H. unfold fs_isdir. destruct b.
  - rewrite (proj1 H eq_refl). reflexivity.
  - destruct (t (p ++ q)) as [[| |]|]; try reflexivity. now apply H.
Qed.

Lemma exists_step t s q m : alike t s -> Forall plain_name q ->
  exists s', s3_exists (S3Handle (place n q) m) s = (s', Ok (fs_isdir t (p ++ q))) /\ objects s' = objects s /\ reliable s'.
Proof using.
  intros [M [R O]] F. destruct (s3_exists_spec (S3Handle (place n q) m) R) as (s' & b & E & O' & R' & H).
  cbn [sh_name] in H. rewrite (dir_bool M F H) in E. eauto.
Qed.

Lemma object_step t s q c : alike t s -> Forall plain_name q -> In c documents ->
  exists s', object_exists (place n (q ++ [c])) s = (s', Ok (fs_exists t (p ++ q ++ [c]))) /\ objects s' = objects s /\ reliable s'.
Proof using.
  intros [M [R O]] F I. destruct (object_exists_reliable (place n (q ++ [c])) R) as (s' & b & E & O' & R' & H).
  exists s'. split; [|auto]. rewrite E. do 2 f_equal. rewrite (no_doc_held M) in H by now apply plain_snoc, document_plain.
  pose proof (@mi_names _ _ _ _ _ M q c I) as ND. unfold fs_exists. destruct (t (p ++ q ++ [c])) eqn:X.
  - apply H. split; [discriminate|exact ND].
  - destruct b; [|reflexivity]. now destruct (proj1 H eq_refl) as [[] _].
Qed.

Lemma in_step t s q c m : alike t s -> Forall plain_name (q ++ [c]) ->
  exists s', s3_in (S3Handle (place n q) m) c s = (s', Ok (fs_exists t (p ++ q ++ [c]))) /\ objects s' = objects s /\ reliable s'.
Proof using.
  intros [M [R O]] F. pose proof F as F'. apply Forall_app in F' as [_ Fc]. inversion Fc as [|? ? Pc _]; subst.
  destruct (@s3_in_spec (S3Handle (place n q) m) c s R) as (s' & b & E & O' & R' & H).
  { cbn [sh_name]. now apply child_ne. }
  exists s'. split; [|auto]. rewrite E. do 2 f_equal. cbn [sh_name] in H. rewrite <- place_snoc in H.
  rewrite (no_doc_held M F), (inside_dir M F) in H. unfold fs_exists. destruct (t (p ++ q ++ [c])) as [x|] eqn:X.
  - apply H. destruct x; [now right|left|left]; split; discriminate.
  - destruct b; [|reflexivity]. destruct (proj1 H eq_refl) as [[[] _]|Y]; [reflexivity|discriminate].
Qed.

Lemma get_step t s q c : alike t s -> Forall plain_name q -> In c documents ->
  exists s', get_object (place n (q ++ [c])) s = (s', Ok (lookup (objects s) (place n (q ++ [c])))) /\ objects s' = objects s /\ reliable s'.
Proof using.
  intros [M [R O]] F I. unfold get_object, or_throw.
  destruct (reliable_request (fun l => l) (fun l => lookup l (place n (q ++ [c]))) R) as (s' & E & O' & R'). rewrite E. eauto.
Qed.

Lemma read_step t s q c : alike t s -> Forall plain_name q -> In c documents ->
  exists s', s3_read_json T (place n (q ++ [c])) s = (s', read_doc t (p ++ q) c) /\ objects s' = objects s /\ reliable s'.
Proof using.
  intros A F I. destruct (get_step A F I) as (s' & E & O & R). exists s'. split; [|auto].
  unfold s3_read_json, abind. rewrite E. unfold aret. f_equal. destruct A as [M _].
  pose proof (@mi_files _ _ _ _ _ M q c (plain_snoc F (document_plain I))) as H. pose proof (@mi_names _ _ _ _ _ M q c I) as ND. unfold read_doc. rewrite <- app_assoc.
  unfold stored in H. destruct (t (p ++ q ++ [c])) as [[|j|b]|].
  - contradiction.
  - destruct H as (b & -> & P & Nb). destruct b; [contradiction|]. now rewrite P.
  - destruct H as [-> H]. destruct (H I) as [P Nb]. destruct b; [contradiction|]. now rewrite P.
  - now rewrite H.
Qed.

(** Writing a document. *)
Lemma mirror_write t s q c j s' : mirror T p n t s -> reliable s' -> Forall plain_name q -> In c documents -> c <> "attributes.json"%string ->
  t (p ++ q) = Some NDir -> objects s' = put_key (place n (q ++ [c])) (dump T j) (objects s) ->
  mirror T p n (fst (write_doc (p ++ q) c j t)) s'.
Proof using TOK.
  intros M R F I NA D O. pose proof (@mi_names _ _ _ _ _ M q c I) as ND. pose proof (plain_snoc F (document_plain I)) as Fc.
  assert (E : forall r, fst (write_doc (p ++ q) c j t) r = if path_eqb r (p ++ q ++ [c]) then Some (NDoc (reparse j)) else t r).
  { intros r. unfold write_doc. rewrite <- app_assoc. unfold fs_isdir. rewrite D. destruct (t (p ++ q ++ [c])) as [[]|]; try reflexivity. contradiction. }
  set (t' := fst (write_doc (p ++ q) c j t)) in *. clearbody t'.
  assert (Ed : forall r, r <> p ++ q ++ [c] -> t' r = t r). { intros r N. rewrite E. now rewrite path_eqb_ne. }
  assert (Es : t' (p ++ q ++ [c]) = Some (NDoc (reparse j))). { rewrite E. now rewrite path_eqb_refl. }
  constructor.
  - destruct (mi_fs M) as [F0 F1]. split.
    + rewrite Ed; [exact F0|]. now destruct p, q.
    + intros r a H. destruct (path_eqb (r ++ [a]) (p ++ q ++ [c])) eqn:X.
      * apply path_eqb_eq in X. rewrite app_assoc in X. apply app_inj_tail in X as [-> ->]. rewrite Ed; [exact D|].
        rewrite app_assoc. intros Y. symmetry in Y. now apply (@snoc_ne (p ++ q) c) in Y.
      * rewrite E, X in H. specialize (F1 r a H). rewrite Ed; [exact F1|]. intros ->. destruct (t (p ++ q ++ [c])) as [[]|]; congruence.
  - intros r d Fr. rewrite O, lookup_put. destruct (String.eqb_spec (place n (r ++ [d])) (place n (q ++ [c]))) as [X|X].
    + apply place_inj in X; auto. apply app_inj_tail in X as [-> ->]. rewrite Es. cbn [stored].
      exists (dump T j). destruct (TOK j). auto.
    + rewrite Ed; [exact (@mi_files _ _ _ _ _ M r d Fr)|]. intros Y. apply app_inv_head in Y. congruence.
  - intros k [b H] K. rewrite O, lookup_put in H. destruct (String.eqb_spec k (place n (q ++ [c]))) as [->|X].
    + exists (q ++ [c]). split; [now destruct q|auto].
    + exact (mi_keys M (ex_intro _ b H) K).
  - intros r Fr H. assert (Hr : r <> q ++ [c]). { intros ->. rewrite Es in H. discriminate. }
    rewrite Ed in H by (intros Y; now apply app_inv_head in Y). destruct (mi_marker M Fr H) as (d & j' & Id & Ej).
    destruct (path_eqb (p ++ r ++ [d]) (p ++ q ++ [c])) eqn:X.
    + exists d, (reparse j). split; [exact Id|]. now rewrite E, X.
    + exists d, j'. split; [exact Id|]. now rewrite E, X.
  - intros r d Id. rewrite E. destruct path_eqb; [discriminate|]. exact (@mi_names _ _ _ _ _ M r d Id).
  - intros r Fr. rewrite Ed; [exact (mi_zarr M Fr)|]. intros Y. apply app_inv_head in Y. apply app_inj_tail in Y as [_ Y]. congruence.
Qed.

Lemma put_step s k b : reliable s -> exists s', put_object k b s = (s', Ok tt) /\ objects s' = put_key k b (objects s) /\ reliable s'.
Proof using.
  intros R. unfold put_object, or_throw. destruct (reliable_request (put_key k b) (fun _ => tt) R) as (s' & E & O & R'). rewrite E. eauto.
Qed.

Lemma rest_put s s' q c b : rest_same n s0 s -> Forall plain_name (q ++ [c]) -> objects s' = put_key (place n (q ++ [c])) b (objects s) -> rest_same n s0 s'.
Proof using.
  intros H F O k K. rewrite O, lookup_put. destruct (String.eqb_spec k (place n (q ++ [c]))) as [->|]; [|now apply H].
  exfalso. apply K. apply inside_root; [exact F|now destruct q].
Qed.

Lemma write_rel q c j : Forall plain_name q -> In c documents -> c <> "attributes.json"%string ->
  rl_at q (write_doc (p ++ q) c j) (s3_write_json T (place n (q ++ [c])) j).
Proof using TOK.
  intros F I NA t s [[M [R O]] D]. left. unfold s3_write_json. destruct (put_step (place n (q ++ [c])) (dump T j) R) as (s' & E & O' & R').
  rewrite E. cbn [fst snd]. split.
  - split; [split; [|split]|].
    + exact (@mirror_write t s q c j s' M R' F I NA D O').
    + exact R'.
    + exact (@rest_put s s' q c _ O (plain_snoc F (document_plain I)) O').
    + unfold write_doc. destruct (_ && _); cbn [fst]; [|exact D]. rewrite path_eqb_ne; [exact D|]. intros Y.
      symmetry in Y. now apply (@snoc_ne (p ++ q) c) in Y.
  - unfold write_doc. now destruct (_ && _).
Qed.
End Mirror.
