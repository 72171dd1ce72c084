(** Containers on a failing disk. *)
From Coq Require Import ZArith Ascii String.
From Verif Require Import M_Base P_Base M_Double M_Json M_Mode M_Key M_Metadata M_Fs M_Attributes M_Container M_Store M_S3Container M_DiskDocs
  S_Text S_Attributes P_Attributes S_Container P_Container S_S3 S_S3Container S_DiskDocs P_Key P_S3Sim P_S3Container3.
Import ListNotations.
Set Implicit Arguments.
Local Open Scope list_scope.
Local Open Scope N_scope.

(** * The calls on a working disk, access by access *)

Definition fs_is_zarr (k : hkind) (p : path) : act fsys bool :=
  do^ e <- freading (fun t => Ok (fs_exists t p)) in
  if negb e then aret (Throw ERuntime)
  else
    do^ v2 <- freading (fun t => Ok (fs_exists t (p ++ [match k with HDataset => ".zarray" | _ => ".zgroup" end%string]))) in
    if v2 then aret (Ok true) else freading (fun t => Ok (fs_exists t (p ++ ["zarr.json"%string]))).
Lemma fs_is_zarr_eq k p t : fs_is_zarr k p t = (t, handle_is_zarr k t p).
Proof.
  unfold fs_is_zarr, handle_is_zarr, is_zarr_dataset, is_zarr_group, abind, freading, aret.
  destruct k; destruct (fs_exists t p); cbn [negb]; try reflexivity; destruct (fs_exists t (p ++ _)); reflexivity.
Qed.

Lemma abind_fbind A B (a : act fsys A) (f : A -> act fsys B) t : abind a f t = fbind a f t.
Proof. unfold abind, fbind. destruct (a t) as [t' [x|e|]]; reflexivity. Qed.

(** * Simulation *)
Section Sim.
Variables (T : text_codec) (old : path -> option fnode -> Prop) (K : fsys -> Prop) (D : path -> Prop) (w0 : list write_fate) (b : bool).
Hypothesis KD : forall t d, K t -> D d -> old d (t d).

Definition at_ (t : fsys) (s : docs) : Prop :=
  dc_files s = t /\ K t /\ dc_writes s = w0 /\ (b = true -> Forall (eq DocWorks) (dc_fates s)).
Definition esc (e : error) : Prop := b = false /\ doc_error e.
Notation rl := (@rel _ _ at_ esc (fun s => K (dc_files s))).

Lemma next_doc s : dc_files (fst (next_doc_fate s)) = dc_files s /\ dc_writes (fst (next_doc_fate s)) = dc_writes s /\
  (Forall (eq DocWorks) (dc_fates s) -> Forall (eq DocWorks) (dc_fates (fst (next_doc_fate s))) /\ snd (next_doc_fate s) = DocWorks).
Proof using.
  unfold next_doc_fate. destruct (dc_fates s) as [|f r] eqn:E; cbn [fst snd dc_files dc_writes dc_fates]; rewrite ?E.
  - split; [reflexivity|split; [reflexivity|]]. auto.
  - split; [reflexivity|split; [reflexivity|]]. intros H. inversion H; subst. auto.
Qed.

Lemma access_rel A e (an : fsys -> outcome A) : doc_error e -> rl (freading an) (doc_access e an).
Proof using.
  intros He t s (F & HK & W & B). unfold doc_access, freading. destruct (next_doc s) as (N1 & N2 & N3). destruct (next_doc_fate s) as [s' f].
  cbn [fst snd] in *. destruct f as [|n g]; cbn [fst snd].
  - left. rewrite N1, F. split; [|reflexivity]. split; [congruence|]. split; [exact HK|]. split; [congruence|]. intros Eb. apply N3, B, Eb.
  - right. exists e. split; [|split; [reflexivity|congruence]]. split; [|exact He]. destruct b; [|reflexivity].
    destruct (N3 (B eq_refl)) as [_ X]. discriminate X.
Qed.
Lemma exists_rel q : rl (freading (fun t => Ok (fs_exists t q))) (doc_exists q).
Proof using. apply access_rel. now left. Qed.
Lemma isdir_rel q : rl (freading (fun t => Ok (fs_isdir t q))) (doc_isdir q).
Proof using. apply access_rel. now left. Qed.
Lemma parse_rel q n : rl (freading (fun t => parse_doc t q n)) (doc_parse q n).
Proof using. apply access_rel. now right. Qed.

Lemma rel_same A (a1 a1' : act fsys A) (a2 : act docs A) : (forall t, a1 t = a1' t) -> rl a1 a2 -> rl a1' a2.
Proof using. intros E H t s Hs. rewrite <- E. now apply H. Qed.

Lemma read_rel q n : rl (freading (fun t => read_doc t q n)) (doc_read q n).
Proof using.
  apply (@rel_same _ (do^ e <- freading (fun t => Ok (fs_exists t (q ++ [n]))) in
    if negb e then aret (Ok None) else do^ j <- freading (fun t => parse_doc t q n) in aret (Ok (Some j)))).
  { intros t. unfold abind, freading, aret, fs_exists, read_doc, parse_doc. destruct (t (q ++ [n])) as [[]|] eqn:E; cbn [negb]; rewrite ?E; reflexivity. }
  apply rel_bind; [apply exists_rel|]. intros []; cbn [negb]; [|apply rel_ret]. apply rel_bind; [apply parse_rel|]. intros j. apply rel_ret.
Qed.

Lemma is_zarr_rel k q : rl (fs_is_zarr k q) (doc_is_zarr k q).
Proof using.
  apply rel_bind; [apply exists_rel|]. intros []; cbn [negb]; [|apply rel_ret].
  apply rel_bind; [apply exists_rel|]. intros []; [apply rel_ret|apply exists_rel].
Qed.
Lemma zarr_rel k q : rl (freading (fun t => handle_is_zarr k t q)) (doc_is_zarr k q).
Proof using. apply (@rel_same _ (fs_is_zarr k q)); [intros t; apply fs_is_zarr_eq|apply is_zarr_rel]. Qed.

(** The JsonIO of a node. *)
Lemma io_exists_rel q n : rl (io_exists (fs_io q) n) (io_exists (doc_io T q) n).
Proof using. apply exists_rel. Qed.
Lemma io_read_rel q n : rl (io_read (fs_io q) n) (io_read (doc_io T q) n).
Proof using. apply read_rel. Qed.
Lemma io_read_or_rel q n j : rl (io_read_or (fs_io q) n j) (io_read_or (doc_io T q) n j).
Proof using. apply rel_bind; [apply io_read_rel|]. intros o. apply rel_ret. Qed.
Lemma io_v3_rel q z : rl (g_is_v3 (fs_io q) z) (g_is_v3 (doc_io T q) z).
Proof using. destruct z; [apply io_exists_rel|apply rel_ret]. Qed.

Lemma g_read_rel q z j : rl (g_read_attributes (fs_io q) z j) (g_read_attributes (doc_io T q) z j).
Proof using.
  apply rel_bind; [apply io_v3_rel|]. intros []; [|apply io_read_or_rel]. apply rel_bind; [apply io_read_rel|]. intros o. apply rel_ret.
Qed.
Lemma read_attributes_rel k q : rl (freading (fun t => read_attributes k t q)) (doc_read_attributes T k q).
Proof using.
  apply (@rel_same _ (do^ z <- freading (fun t => handle_is_zarr k t q) in do^ j <- g_read_attributes (fs_io q) z JNull in
    aret (match k with HDataset => if z then Ok j else hide_n5 j | _ => Ok j end))).
  { intros t. unfold read_attributes. unfold abind at 1, freading. destruct (handle_is_zarr k t q) as [z|e|]; [|reflexivity|reflexivity].
    cbn [bind]. unfold abind. rewrite fs_gen_read. destruct (gen_read_attributes t q z JNull) as [j|e|]; [|reflexivity|reflexivity]. reflexivity. }
  apply rel_bind; [apply zarr_rel|]. intros z. apply rel_bind; [apply g_read_rel|]. intros j. apply rel_ret.
Qed.
Lemma sub_group_rel q c : plain_name c -> rl (freading (fun t => is_sub_group t q [c])) (doc_is_sub_group T q c).
Proof using.
  intros [_ P].
  apply (@rel_same _ (do^ z <- freading (fun t => handle_is_zarr HGroup t q) in g_is_sub_group (fs_io q) z c)).
  { intros t. unfold is_sub_group. unfold abind at 1, freading. cbn [handle_is_zarr]. destruct (is_zarr_group t q) as [z|e|]; [|reflexivity|reflexivity].
    cbn [bind]. unfold g_is_sub_group, io_read_or. cbn [io_node fs_io io_exists io_read]. change (c ++ "/zarr.json")%string with (c ++ "/" ++ "zarr.json")%string.
    change (c ++ "/.zgroup")%string with (c ++ "/" ++ ".zgroup")%string. change (c ++ "/attributes.json")%string with (c ++ "/" ++ "attributes.json")%string.
    rewrite !split_doc, split_plain by (auto; reflexivity). cbn [String.append removelast last app]. unfold abind, freading, aret. destruct (fs_exists t (q ++ [c])); cbn [negb]; [|reflexivity].
    destruct z.
    - destruct (fs_exists t (q ++ [c; "zarr.json"%string])); [|reflexivity]. unfold read_doc_or.
      destruct (read_doc t (q ++ [c]) "zarr.json") as [[x|]|e|]; cbn [bind]; try reflexivity;
        (destruct (jvalue jget_str "node_type" "group"%string _); reflexivity).
    - destruct (read_doc t (q ++ [c]) "attributes.json") as [[x|]|e|]; cbn [bind]; try reflexivity. now destruct (has_all_n5 x). }
  apply rel_bind; [apply zarr_rel|]. intros z. unfold g_is_sub_group. cbn [io_node fs_io doc_io].
  apply rel_bind; [apply exists_rel|]. intros []; cbn [negb]; [|apply rel_ret]. destruct z.
  - apply rel_bind; [apply io_exists_rel|]. intros []; [|apply io_exists_rel]. apply rel_bind; [apply io_read_or_rel|]. intros j.
    apply rel_bind; [apply rel_ret|]. intros nt. apply rel_ret.
  - apply rel_bind; [apply io_read_rel|]. intros [j|]; [|apply rel_ret]. apply rel_bind; [apply rel_ret|]. intros x. apply rel_ret.
Qed.
Lemma in_rel q c : rl (freading (fun t => Ok (fs_isdir t (q ++ c)))) (doc_in q c).
Proof using.
  apply (@rel_same _ (do^ e <- freading (fun t => Ok (fs_exists t (q ++ c))) in
    if e then freading (fun t => Ok (fs_isdir t (q ++ c))) else aret (Ok false))).
  { intros t. unfold abind, freading, aret, fs_exists, fs_isdir. destruct (t (q ++ c)) as [[]|] eqn:E; rewrite ?E; reflexivity. }
  apply rel_bind; [apply exists_rel|]. intros []; [apply isdir_rel|apply rel_ret].
Qed.

Lemma read_metadata_rel q : rl (freading (fun t => read_dataset_metadata t q)) (doc_read_metadata q).
Proof using.
  apply (@rel_same _ (
    do^ v2 <- freading (fun t => Ok (fs_exists t (q ++ [".zarray"%string]))) in
    do^ v3 <- freading (fun t => Ok (fs_exists t (q ++ ["zarr.json"%string]))) in
    do^ n5 <- freading (fun t => Ok (fs_exists t (q ++ ["attributes.json"%string]))) in
    if (v2 || v3) && n5 then aret (Throw ERuntime)
    else if negb v2 && negb v3 && negb n5 then aret (Throw ERuntime)
    else
      do^ j <- freading (fun t => parse_doc t q (if v3 then "zarr.json" else if v2 then ".zarray" else "attributes.json")%string) in
      aret (from_json j (v2 || v3)))).
  { intros t. unfold abind, freading, aret, read_dataset_metadata, metadata_doc.
    destruct (_ && _); [reflexivity|]. destruct (_ && _); [reflexivity|]. cbn [bind]. now destruct (parse_doc t q _). }
  apply rel_bind; [apply exists_rel|]. intros v2. apply rel_bind; [apply exists_rel|]. intros v3. apply rel_bind; [apply exists_rel|]. intros n5.
  destruct (_ && _); [apply rel_ret|]. destruct (_ && _); [apply rel_ret|]. apply rel_bind; [apply parse_rel|]. intros j. apply rel_ret.
Qed.
Lemma chunk_config_rel q : rl (freading (fun t => chunk_config t q)) (doc_chunk_config q).
Proof using.
  unfold doc_chunk_config.
  match goal with |- context [abind (doc_parse q "zarr.json") (fun j => aret (@?f j))] => set (f3 := f) end.
  match goal with |- context [abind (doc_parse q ".zarray") (fun j => aret (@?f j))] => set (f2 := f) end.
  apply (@rel_same _ (
    do^ v3 <- freading (fun t => Ok (fs_exists t (q ++ ["zarr.json"%string]))) in
    if v3 then do^ j <- freading (fun t => parse_doc t q "zarr.json") in aret (f3 j)
    else
      do^ v2 <- freading (fun t => Ok (fs_exists t (q ++ [".zarray"%string]))) in
      if v2 then do^ j <- freading (fun t => parse_doc t q ".zarray") in aret (f2 j)
      else aret (Ok (KeyArgs "." 2 "default")))).
  { intros t. unfold abind, freading, aret, chunk_config. destruct (fs_exists t (q ++ ["zarr.json"%string])).
    - now destruct (parse_doc t q "zarr.json").
    - destruct (fs_exists t (q ++ [".zarray"%string])); [|reflexivity]. now destruct (parse_doc t q ".zarray"). }
  apply rel_bind; [apply exists_rel|]. intros [].
  - apply rel_bind; [apply parse_rel|]. intros j. apply rel_ret.
  - apply rel_bind; [apply exists_rel|]. intros []; [|apply rel_ret]. apply rel_bind; [apply parse_rel|]. intros j. apply rel_ret.
Qed.
Lemma open_rel h c : rl (freading (fun t => open_dataset t h c)) (doc_open_dataset h c).
Proof using.
  apply (@rel_same _ (
    do^ z <- freading (fun t => handle_is_zarr HGroup t (h_path h)) in
    do^ ka <- (if z then freading (fun t => chunk_config t (h_path h ++ c)) else aret (Ok (KeyArgs "." 2 "default"))) in
    do^ e <- freading (fun t => Ok (fs_exists t (h_path h ++ c))) in
    if negb e then aret (Throw ERuntime)
    else do^ m <- freading (fun t => read_dataset_metadata t (h_path h ++ c)) in
      aret (make_dataset (Handle (h_path h ++ c) (h_mode h)) ka m))).
  { intros t. unfold open_dataset, fs_open_dataset. cbn [h_path handle_is_zarr]. unfold abind, freading, aret.
    destruct (is_zarr_group t (h_path h)) as [z|e|]; cbn [bind]; [|reflexivity|reflexivity].
    destruct z; [destruct (chunk_config t (h_path h ++ c)) as [ka|e|]; cbn [bind]; [|reflexivity|reflexivity]|cbn [bind]];
      (destruct (fs_exists t (h_path h ++ c)); cbn [negb]; [|reflexivity]; now destruct (read_dataset_metadata t (h_path h ++ c))). }
  apply rel_bind; [apply zarr_rel|]. intros z. apply rel_bind; [destruct z; [apply chunk_config_rel|apply rel_ret]|]. intros ka.
  apply rel_bind; [apply exists_rel|]. intros []; cbn [negb]; [|apply rel_ret]. apply rel_bind; [apply read_metadata_rel|]. intros m. apply rel_ret.
Qed.

(** * Calls that end with a write *)

Definition lost (t1 t' : fsys) : Prop :=
  exists d j, D d /\ t1 d = Some (NDoc (reparse j)) /\ (forall x, x <> d -> t' x = t1 x) /\
    (old d (t' d) \/ exists n, (n < List.length (dump T j))%nat /\ t' d = Some (NBlob (firstn n (dump T j)))).
Definition ends {A} (a1 : act fsys A) (a2 : act docs A) : Prop := forall t s, at_ t s ->
  (snd (a2 s) = snd (a1 t) /\ ((forall x, dc_files (fst (a2 s)) x = fst (a1 t) x) \/ (~ Forall (eq Saved) w0 /\ lost (fst (a1 t)) (dc_files (fst (a2 s)))))) \/
  (exists e, esc e /\ snd (a2 s) = Throw e /\ K (dc_files (fst (a2 s)))).

Lemma rel_ends A (a1 : act fsys A) a2 : rl a1 a2 -> ends a1 a2.
Proof using.
  intros H t s R. destruct (H t s R) as [[(F & _) E]|X]; [left|right; exact X]. split; [now symmetry|]. left. intros x. now rewrite F.
Qed.
Lemma ends_same A (a1 a1' : act fsys A) (a2 : act docs A) : (forall t, a1 t = a1' t) -> ends a1 a2 -> ends a1' a2.
Proof using. intros E H t s Hs. rewrite <- E. now apply H. Qed.
Lemma ends_bind A B (a1 : act fsys A) a2 (f1 : A -> act fsys B) f2 : rl a1 a2 -> (forall x, ends (f1 x) (f2 x)) -> ends (abind a1 f1) (abind a2 f2).
Proof using.
  intros H N t s R. specialize (H t s R). unfold abind. destruct (a1 t) as [t' r1], (a2 s) as [s' r2]. cbn [fst snd] in H.
  destruct H as [[R' E]|(e & He & -> & HK)]; [|right; exists e; auto]. subst r2. destruct r1 as [x|e|]; [now apply N| |];
    (left; split; [reflexivity|]; left; intros x; destruct R' as [F _]; cbn [fst snd]; now rewrite F).
Qed.
(** A value computed after the write. *)
Lemma ends_ret A B (a1 : act fsys A) a2 (o : A -> outcome B) : ends a1 a2 -> ends (abind a1 (fun x => aret (o x))) (abind a2 (fun x => aret (o x))).
Proof using.
  intros H t s R. specialize (H t s R). unfold abind, aret. destruct (a1 t) as [t' r1], (a2 s) as [s' r2]. cbn [fst snd] in H.
  destruct H as [[-> HL]|(e & He & -> & HK)]; [|right; exists e; auto]. left. destruct r1; cbn [fst snd]; auto.
Qed.
Lemma ends_map A B (f : A -> B) (a1 : act fsys A) a2 : ends a1 a2 -> ends (amap f a1) (amap f a2).
Proof using.
  intros H t s R. specialize (H t s R). unfold amap. destruct (a1 t) as [t' r1], (a2 s) as [s' r2]. cbn [fst snd] in *.
  destruct H as [[-> HL]|(e & He & -> & HK)]; [left; auto|right; exists e; auto].
Qed.

Lemma write_ends q n j : D (q ++ [n]) -> ends (io_write (fs_io q) n j) (io_write (doc_io T q) n j).
Proof using KD.
  intros Dd t s (F & HK & W & B). left. cbn [fs_io doc_io io_write]. unfold doc_write, next_write. rewrite W.
  destruct w0 as [|f r] eqn:Ew.
  - rewrite F. cbn [fst snd]. unfold write_doc. destruct (_ && _); cbn [fst snd dc_files]; rewrite ?F; auto.
  - cbn [dc_files dc_fates dc_writes]. rewrite F. destruct f as [| |n'].
    + unfold write_doc. destruct (_ && _); cbn [fst snd dc_files]; auto.
    + unfold write_doc. destruct (_ && _); cbn [fst snd dc_files]; [|auto]. split; [reflexivity|]. right.
      split; [intros X; inversion X; discriminate|]. exists (q ++ [n]), j. rewrite path_eqb_refl. split; [exact Dd|]. split; [reflexivity|]. split.
      * intros x N. destruct (path_eqb x (q ++ [n])) eqn:E; [|reflexivity]. now apply path_eqb_eq in E.
      * left. now apply KD.
    + unfold write_doc. destruct (_ && _); cbn [fst snd dc_files]; [|auto]. split; [reflexivity|].
      unfold cut_doc. destruct (Nat.ltb_spec n' (List.length (dump T j))) as [L|L].
      * right. split; [intros X; inversion X; discriminate|]. exists (q ++ [n]), j. rewrite !path_eqb_refl. split; [exact Dd|].
        split; [reflexivity|]. split; [|eauto]. intros x N. destruct (path_eqb x (q ++ [n])) eqn:E; [|reflexivity]. now apply path_eqb_eq in E.
      * left. reflexivity.
Qed.

Lemma g_write_ends q z j : (forall n, In n [".zattrs"; "zarr.json"; "attributes.json"]%string -> D (q ++ [n])) ->
  ends (g_write_attributes (fs_io q) z j) (g_write_attributes (doc_io T q) z j).
Proof using KD.
  intros HD. apply ends_bind; [apply io_v3_rel|]. intros [].
  - apply ends_bind; [apply io_read_or_rel|]. intros f. apply ends_bind; [apply rel_ret|]. intros a. apply ends_bind; [apply rel_ret|]. intros g.
    apply write_ends, HD. cbn; auto.
  - apply ends_bind; [apply io_read_or_rel|]. intros f. apply ends_bind; [apply rel_ret|]. intros a.
    apply write_ends, HD. destruct z; cbn; auto.
Qed.
Lemma g_remove_ends q z a : (forall n, In n [".zattrs"; "zarr.json"; "attributes.json"]%string -> D (q ++ [n])) ->
  ends (g_remove_attribute (fs_io q) z a) (g_remove_attribute (doc_io T q) z a).
Proof using KD.
  intros HD. apply ends_bind; [apply io_v3_rel|]. intros [].
  - apply ends_bind; [apply io_read_rel|]. intros [f|]; [|apply rel_ends, rel_ret]. apply ends_bind; [apply rel_ret|]. intros g.
    apply write_ends, HD. cbn; auto.
  - apply ends_bind; [apply io_read_rel|]. intros [f|]; [|apply rel_ends, rel_ret]. apply ends_bind; [apply rel_ret|]. intros g.
    apply write_ends, HD. destruct z; cbn; auto.
Qed.

(** The answer of isZarr is the same when it is asked twice. *)
Lemma protected_rel k q check : rl (do^ z <- freading (fun t => handle_is_zarr k t q) in
    do^ _ <- aret (if z then Ok tt else check) in aret (Ok z)) (doc_protected k q check) \/ k = HGroup.
Proof using.
  destruct k; [left|now right|left]; cbn [doc_protected].
  - apply (@rel_same _ (do^ z <- freading (fun t => handle_is_zarr HFile t q) in
      do^ _ <- aret (if z then Ok tt else check) in freading (fun t => handle_is_zarr HFile t q))).
    { intros t. unfold abind, freading, aret. destruct (handle_is_zarr HFile t q) as [z|e|]; [|reflexivity|reflexivity].
      destruct (if z then Ok tt else check); [reflexivity|reflexivity|reflexivity]. }
    apply rel_bind; [apply zarr_rel|]. intros z. apply rel_bind; [apply rel_ret|]. intros _. apply zarr_rel.
  - apply rel_bind; [apply zarr_rel|]. intros z. apply rel_bind; [apply rel_ret|]. intros _. apply rel_ret.
Qed.
Lemma protected_ends A k q check (f1 : bool -> act fsys A) f2 : (k = HGroup -> check = Ok tt) -> (forall z, ends (f1 z) (f2 z)) ->
  ends (do^ z <- freading (fun t => handle_is_zarr k t q) in do^ _ <- aret (if z then Ok tt else check) in f1 z)
       (do^ z <- doc_protected k q check in f2 z).
Proof using.
  intros G HE. destruct (protected_rel k q check) as [H| ->].
  - apply (@ends_same _ (do^ z <- (do^ z <- freading (fun t => handle_is_zarr k t q) in do^ _ <- aret (if z then Ok tt else check) in aret (Ok z)) in f1 z)).
    { intros t. unfold abind, freading, aret. destruct (handle_is_zarr k t q) as [z|e|]; [|reflexivity|reflexivity].
      now destruct (if z then Ok tt else check). }
    apply ends_bind; [exact H|exact HE].
  - rewrite (G eq_refl). apply (@ends_same _ (do^ z <- freading (fun t => handle_is_zarr HGroup t q) in f1 z)).
    { intros t. unfold abind, freading, aret. destruct (handle_is_zarr HGroup t q) as [z|e|]; [|reflexivity|reflexivity]. now destruct z. }
    apply ends_bind; [apply zarr_rel|exact HE].
Qed.
Lemma write_attributes_ends k m q j : (forall n, In n [".zattrs"; "zarr.json"; "attributes.json"]%string -> D (q ++ [n])) ->
  ends (write_attributes k m q j) (doc_write_attributes T k m q j).
Proof using KD.
  intros HD. unfold doc_write_attributes, write_attributes. destruct (negb _); [apply rel_ends, rel_ret|].
  apply (@ends_same _ (do^ z <- freading (fun t => handle_is_zarr k t q) in
    do^ _ <- aret (if z then Ok tt else protect_json k j) in g_write_attributes (fs_io q) z j)).
  { intros t. unfold fbind, abind, freading, aret, fret. destruct (handle_is_zarr k t q) as [z|e|]; [|reflexivity|reflexivity].
    destruct (if z then Ok tt else protect_json k j); [apply fs_gen_write|reflexivity|reflexivity]. }
  apply protected_ends; [intros ->; reflexivity|]. intros z. now apply g_write_ends.
Qed.
Lemma remove_attribute_ends k m q a : (forall n, In n [".zattrs"; "zarr.json"; "attributes.json"]%string -> D (q ++ [n])) ->
  ends (remove_attribute k m q a) (doc_remove_attribute T k m q a).
Proof using KD.
  intros HD. unfold doc_remove_attribute, remove_attribute. destruct (negb _); [apply rel_ends, rel_ret|].
  apply (@ends_same _ (do^ z <- freading (fun t => handle_is_zarr k t q) in
    do^ _ <- aret (if z then Ok tt else protect_key k a) in g_remove_attribute (fs_io q) z a)).
  { intros t. unfold fbind, abind, freading, aret, fret. destruct (handle_is_zarr k t q) as [z|e|]; [|reflexivity|reflexivity].
    destruct (if z then Ok tt else protect_key k a); [apply fs_gen_remove|reflexivity|reflexivity]. }
  apply protected_ends; [intros ->; reflexivity|]. intros z. now apply g_remove_ends.
Qed.

(** Metadata documents. *)
Lemma fs_v3_group q t : g_write_v3_group (fs_io q) t = write_v3_group q t.
Proof using.
  unfold g_write_v3_group, write_v3_group, io_read_or, read_doc_or, fs_io, abind, fbind, freading, aret, fret. cbn [io_read io_write].
  cbn. rewrite ?app_nil_r. destruct (read_doc t q "zarr.json") as [[f|]|e|]; cbn; reflexivity.
Qed.
Lemma v3_group_ends q : D (q ++ ["zarr.json"%string]) -> ends (write_v3_group q) (g_write_v3_group (doc_io T q)).
Proof using KD.
  intros HD. apply (@ends_same _ (g_write_v3_group (fs_io q))); [apply fs_v3_group|].
  apply ends_bind; [apply io_read_or_rel|]. intros j0. apply ends_bind; [apply rel_ret|]. intros j1. apply ends_bind; [apply rel_ret|]. intros j2.
  apply ends_bind; [apply rel_ret|]. intros j3. now apply write_ends.
Qed.
Lemma file_metadata_ends q z fmt : (forall n, In n [".zgroup"; "zarr.json"; "attributes.json"]%string -> D (q ++ [n])) ->
  ends (write_file_metadata q z fmt) (g_write_file_metadata (doc_io T q) z fmt).
Proof using KD.
  intros HD. unfold write_file_metadata, g_write_file_metadata. destruct (z && _); [apply v3_group_ends, HD; cbn; auto|].
  destruct z; [apply (@write_ends q ".zgroup"%string), HD; cbn; auto|].
  apply (@ends_same _ (do^ j0 <- io_read_or (fs_io q) "attributes.json" JNull in do^ j1 <- aret (jput "n5" (JStr n5_format) j0) in
    io_write (fs_io q) "attributes.json" j1)).
  { intros t. unfold io_read_or, read_doc_or, fs_io, abind, fbind, freading, aret, fret. cbn [io_read io_write]. cbn. rewrite ?app_nil_r.
    destruct (read_doc t q "attributes.json") as [[f|]|e|]; cbn; reflexivity. }
  apply ends_bind; [apply io_read_or_rel|]. intros j0. apply ends_bind; [apply rel_ret|]. intros j1. apply write_ends, HD. cbn; auto.
Qed.
Lemma group_metadata_ends q z fmt : (forall n, In n [".zgroup"; "zarr.json"]%string -> D (q ++ [n])) ->
  ends (write_group_metadata q z fmt) (g_write_group_metadata (doc_io T q) z fmt).
Proof using KD.
  intros HD. unfold write_group_metadata, g_write_group_metadata. destruct (z && _); [apply v3_group_ends, HD; cbn; auto|].
  destruct z; [apply (@write_ends q ".zgroup"%string), HD; cbn; auto|]. apply rel_ends. apply rel_ret.
Qed.
Lemma dataset_metadata_ends q m : (forall n, In n [".zarray"; "zarr.json"; "attributes.json"]%string -> D (q ++ [n])) ->
  ends (write_dataset_metadata q m) (g_write_dataset_metadata (doc_io T q) m).
Proof using KD.
  intros HD. unfold write_dataset_metadata, g_write_dataset_metadata. destruct (md_zarr m && _).
  - apply (@ends_same _ (do^ ex <- io_read (fs_io q) "zarr.json" in do^ j <- aret (to_json m) in
      do^ j' <- aret (match ex with Some e => match jfind "attributes" e with Some a => jput "attributes" a j | None => Ok j end | None => Ok j end) in
      io_write (fs_io q) "zarr.json" j')).
    { intros t. unfold fs_io, abind, fbind, freading, aret, fret. cbn [io_read io_write]. cbn. rewrite ?app_nil_r.
      destruct (read_doc t q "zarr.json") as [f|e|]; cbn; reflexivity. }
    apply ends_bind; [apply io_read_rel|]. intros ex. apply ends_bind; [apply rel_ret|]. intros j. apply ends_bind; [apply rel_ret|]. intros j'.
    apply write_ends, HD. cbn; auto.
  - apply (@ends_same _ (do^ j <- aret (to_json m) in io_write (fs_io q) (if md_zarr m then ".zarray" else "attributes.json")%string j)).
    { intros t. unfold fs_io, abind, fbind, aret, fret. cbn [io_write]. now destruct (to_json m). }
    apply ends_bind; [apply rel_ret|]. intros j. apply write_ends, HD. destruct (md_zarr m); cbn; auto.
Qed.

(** Making a node. *)
Lemma create_rel h (may : bool) : rl (fs_mkdirs (h_path h)) (doc_mkdirs (h_path h)) ->
  rl (fun t => (if negb may then fret (Throw EInvalidArgument) else if fs_exists t (h_path h) then fret (Throw EInvalidArgument) else fs_mkdirs (h_path h)) t)
     (doc_create may h).
Proof using.
  intros HM. unfold doc_create. destruct may; cbn [negb]; [|apply rel_ret].
  apply (@rel_same _ (do^ e <- freading (fun t => Ok (fs_exists t (h_path h))) in if e then aret (Throw EInvalidArgument) else fs_mkdirs (h_path h))).
  { intros t. unfold abind, freading, aret, fret. now destruct (fs_exists t (h_path h)). }
  apply rel_bind; [apply exists_rel|]. intros []; [apply rel_ret|exact HM].
Qed.
Lemma node_create_rel h : rl (fs_mkdirs (h_path h)) (doc_mkdirs (h_path h)) -> rl (node_create h) (doc_create (negb (is_mode_r (h_mode h))) h).
Proof using.
  intros HM. eapply rel_same; [|apply (@create_rel h _ HM)]. intros t. unfold node_create. now destruct (is_mode_r (h_mode h)).
Qed.
Lemma create_file_ends h z fmt : rl (fs_mkdirs (h_path h)) (doc_mkdirs (h_path h)) ->
  (forall n, In n [".zgroup"; "zarr.json"; "attributes.json"]%string -> D (h_path h ++ [n])) ->
  ends (create_file h z fmt) (doc_create_file T h z fmt).
Proof using KD.
  intros HM HD. unfold create_file, doc_create_file.
  apply (@ends_same _ (do^ _ <- file_create h in write_file_metadata (h_path h) z fmt)); [intros t; apply abind_fbind|].
  apply ends_bind; [|intros _; now apply file_metadata_ends]. exact (@create_rel h (can_create (h_mode h)) HM).
Qed.
Lemma create_group_ends r key fmt : let n := h_path r ++ key in rl (fs_mkdirs n) (doc_mkdirs n) ->
  (forall a, In a [".zgroup"; "zarr.json"]%string -> D (n ++ [a])) ->
  ends (create_group r key fmt) (doc_create_group T r key fmt).
Proof using KD.
  intros n HM HD. unfold create_group, doc_create_group. fold n.
  apply (@ends_same _ (do^ z <- freading (fun t => handle_is_zarr HGroup t (h_path r)) in
    do^ _ <- node_create (Handle n (h_mode r)) in write_group_metadata n z fmt)).
  { intros t. unfold fbind, abind, freading. cbn [handle_is_zarr]. destruct (is_zarr_group t (h_path r)) as [z|e|]; [|reflexivity|reflexivity].
    destruct (node_create (Handle n (h_mode r)) t) as [t' [x|e|]]; reflexivity. }
  apply ends_bind; [apply zarr_rel|]. intros z. apply ends_bind; [|intros _; now apply group_metadata_ends].
  exact (@node_create_rel (Handle n (h_mode r)) HM).
Qed.
Lemma create_dataset_ends r key dt sh ch cn o fill delim fmt enc shard : let n := h_path r ++ key in rl (fs_mkdirs n) (doc_mkdirs n) ->
  (forall a, In a [".zarray"; "zarr.json"; "attributes.json"]%string -> D (n ++ [a])) ->
  ends (create_dataset r key dt sh ch cn o fill delim fmt enc shard) (doc_create_dataset T r key dt sh ch cn o fill delim fmt enc shard).
Proof using KD.
  intros n HM HD. unfold create_dataset, doc_create_dataset, fs_create_dataset. cbn [h_path h_mode]. fold n.
  apply (@ends_same _ (do^ z <- freading (fun t => handle_is_zarr HGroup t (h_path r)) in
    do^ m <- aret (create_metadata dt sh ch z cn o fill delim fmt enc shard) in
    do^ _ <- node_create (Handle n (h_mode r)) in
    do^ _ <- write_dataset_metadata n m in
    aret (make_dataset (Handle n (h_mode r)) (KeyArgs delim fmt enc) m))).
  { intros t. unfold fbind, abind, freading, aret, fret. cbn [handle_is_zarr]. destruct (is_zarr_group t (h_path r)) as [z|e|]; [|reflexivity|reflexivity].
    destruct (create_metadata dt sh ch z cn o fill delim fmt enc shard) as [m|e|]; [|reflexivity|reflexivity].
    destruct (node_create (Handle n (h_mode r)) t) as [t' [x|e|]]; [|reflexivity|reflexivity].
    destruct (write_dataset_metadata n m t') as [t'' [y|e|]]; reflexivity. }
  apply ends_bind; [apply zarr_rel|]. intros z. apply ends_bind; [apply rel_ret|]. intros m.
  apply ends_bind; [exact (@node_create_rel (Handle n (h_mode r)) HM)|]. intros _. apply ends_ret. now apply dataset_metadata_ends.
Qed.
End Sim.

(** * All calls *)
Section Calls.
Variables (T : text_codec) (z : bool) (m : mode) (p : path) (c : cont_call) (t0 : fsys) (w0 : list write_fate) (b : bool).
Notation K := (left_by p c t0).
Notation rl := (@rel _ _ (at_ K w0 b) (esc b) (fun s => K (dc_files s))).
Notation en := (@ends T (fun d v => v = t0 d) K (written_docs p c) w0 b).

Lemma left_docs t d : K t -> written_docs p c d -> t d = t0 d.
Proof using.
  intros H W. destruct (H d) as [E|[(n & N & B & _)|(q & -> & _)]]; [exact E| |contradiction W].
  exfalso. destruct c; try discriminate N; cbn in N; injection N as <-; cbn in W; destruct W as (a & _ & ->); rewrite below_doc in B; discriminate B.
Qed.

Lemma mkdirs_rel n : new_node p c = Some n -> rl (fs_mkdirs n) (doc_mkdirs n).
Proof using.
  intros N t s (F & HK & W & B). unfold doc_mkdirs. destruct (next_doc s) as (N1 & N2 & N3). destruct (next_doc_fate s) as [s' f].
  cbn [fst snd] in *. rewrite N1, F.
  assert (M : forall x k, below x n = true -> k = x \/ True -> existsb (fun q => fs_exists t q && negb (fs_isdir t q)) (prefixes n) = false -> t x = None \/ t x = Some NDir).
  { intros x _ Bx _ E. assert (X : In x (prefixes n)) by now apply prefixes_below. 
    destruct (fs_exists t x && negb (fs_isdir t x)) eqn:Ex.
    - exfalso. assert (Y : existsb (fun q => fs_exists t q && negb (fs_isdir t q)) (prefixes n) = true) by (apply existsb_exists; eauto). congruence.
    - unfold fs_exists, fs_isdir in Ex. destruct (t x) as [[]|]; auto; discriminate Ex. }
  destruct f as [|k g].
  - left. unfold fs_mkdirs. destruct (existsb _ (prefixes n)) eqn:E; cbn [fst snd]; (split; [|reflexivity]);
      (split; [reflexivity|]); (split; [|split; [cbn; congruence|intros Eb; apply N3, B, Eb]]); [exact HK|].
    intros x. destruct (below x n) eqn:Bx; [|apply HK].
    destruct (M x x Bx (or_introl eq_refl) eq_refl) as [Z|Z]; destruct (HK x) as [Y|[Y|Y]]; auto.
    + right. left. exists n. repeat split; congruence.
    + destruct Y as (n' & _ & _ & _ & Y). congruence.
    + destruct Y as (q & Eq & _). rewrite Eq in N. discriminate N.
    + left. congruence.
    + destruct Y as (n' & A1 & A2 & A3 & A4). right. left. exists n. rewrite N in A1. injection A1 as <-. auto.
    + destruct Y as (q & Eq & _). rewrite Eq in N. discriminate N.
  - right. assert (Eb : b = false). { destruct b; [|reflexivity]. destruct (N3 (B eq_refl)) as [_ X]. discriminate X. }
    destruct (fs_mkdirs (firstn k n) t) as [t' r] eqn:E. cbn [fst snd dc_files]. exists EFilesystem.
    split; [split; [exact Eb|now left]|]. split; [reflexivity|]. unfold fs_mkdirs in E. destruct (existsb _ (prefixes (firstn k n))) eqn:E2; injection E as <- <-; [exact HK|].
    intros x. destruct (below x (firstn k n)) eqn:Bx; [|apply HK].
    assert (Bn : below x n = true).
    { apply below_spec in Bx. destruct Bx as [r Er]. apply below_spec. exists (r ++ skipn k n). rewrite app_assoc, <- Er. symmetry. apply firstn_skipn. }
    assert (Z : t x = None \/ t x = Some NDir).
    { destruct (fs_exists t x && negb (fs_isdir t x)) eqn:Ex.
      - exfalso. assert (Y : existsb (fun q => fs_exists t q && negb (fs_isdir t q)) (prefixes (firstn k n)) = true)
          by (apply existsb_exists; exists x; split; [now apply prefixes_below|exact Ex]). congruence.
      - unfold fs_exists, fs_isdir in Ex. destruct (t x) as [[]|]; auto; discriminate Ex. }
    destruct Z as [Z|Z]; destruct (HK x) as [Y|[Y|Y]].
    + right. left. exists n. repeat split; congruence.
    + destruct Y as (n' & _ & _ & _ & Y). congruence.
    + destruct Y as (q & Eq & _). rewrite Eq in N. discriminate N.
    + left. congruence.
    + destruct Y as (n' & A1 & A2 & A3 & A4). right. left. exists n. rewrite N in A1. injection A1 as <-. auto.
    + destruct Y as (q & Eq & _). rewrite Eq in N. discriminate N.
Qed.
Lemma remove_rel q : c = KRemove q -> rl (node_remove (Handle (p ++ q) m)) (doc_remove (Handle (p ++ q) m)).
Proof using.
  intros Ec. unfold doc_remove, node_remove. cbn [h_path h_mode]. destruct (negb (can_write m)); [apply rel_ret|].
  apply (@rel_same K w0 b _ (do^ e <- freading (fun t => Ok (fs_exists t (p ++ q))) in if negb e then aret (Throw EInvalidArgument) else fs_remove_all (p ++ q))).
  { intros t. unfold abind, freading, aret, fret. now destruct (fs_exists t (p ++ q)). }
  apply rel_bind; [apply exists_rel|]. intros []; cbn [negb]; [|apply rel_ret].
  intros t s (F & HK & W & B). unfold doc_remove_all. destruct (next_doc s) as (N1 & N2 & N3). destruct (next_doc_fate s) as [s' f].
  cbn [fst snd] in *. rewrite N1, F. destruct f as [|k g].
  - left. unfold fs_remove_all. cbn [fst snd]. split; [|reflexivity]. split; [reflexivity|]. split; [|split; [cbn; congruence|intros Eb; apply N3, B, Eb]].
    intros x. destruct (below (p ++ q) x) eqn:Bx; [right; right; eauto|apply HK].
  - right. exists EFilesystem. cbn [fst snd dc_files]. split; [|split; [reflexivity|]].
    + split; [|now left]. destruct b; [|reflexivity]. destruct (N3 (B eq_refl)) as [_ X]. discriminate X.
    + intros x. destruct (below (p ++ q) x && g x) eqn:Bx; [|apply HK]. apply andb_prop in Bx. right; right. exists q. tauto.
Qed.

Lemma calls_end : call_named c -> en (sound_call z m p c) (disk_call T z m p c).
Proof using.
  assert (KD := left_docs). assert (MK := mkdirs_rel). assert (RM := remove_rel). intros NM.
  destruct c as [q|q a|k q|q a|k q|k q j|k q a|q a|fmt|q a fmt|q a dt sh ch cn o fill delim fmt enc shard|q] eqn:Ec; cbn [sound_call disk_call dir_call].
  - apply ends_map with (f := ABool) (a1 := freading (fun t => Ok (fs_exists t (p ++ q)))). apply rel_ends, exists_rel.
  - apply ends_map with (f := ABool) (a1 := freading (fun t => Ok (fs_isdir t ((p ++ q) ++ [a])))). apply rel_ends, in_rel.
  - apply ends_map with (f := ABool) (a1 := freading (fun t => handle_is_zarr k t (p ++ q))). apply rel_ends, zarr_rel.
  - apply ends_map with (f := ABool) (a1 := freading (fun t => is_sub_group t (p ++ q) [a])). apply rel_ends, sub_group_rel, NM.
  - apply ends_map with (f := AJson) (a1 := freading (fun t => read_attributes k t (p ++ q))). apply rel_ends, read_attributes_rel.
  - apply ends_map. apply write_attributes_ends; [exact KD|]. intros n I. exists n. split; [exact I|reflexivity].
  - apply ends_map. apply remove_attribute_ends; [exact KD|]. intros n I. exists n. split; [exact I|reflexivity].
  - apply ends_map with (f := opened_at (p ++ q ++ [a])) (a1 := freading (fun t => open_dataset t (Handle (p ++ q) m) [a])). apply rel_ends, open_rel.
  - apply ends_map. apply create_file_ends; [exact KD|now apply MK|]. intros n I. exists n. split; [exact I|reflexivity].
  - apply ends_map. apply create_group_ends; [exact KD| |]; cbn [h_path]; rewrite <- app_assoc; [now apply MK|]. intros n I. exists n. split; [exact I|reflexivity].
  - apply ends_map. apply create_dataset_ends; [exact KD| |]; cbn [h_path]; rewrite <- app_assoc; [now apply MK|]. intros n I. exists n. split; [exact I|reflexivity].
  - apply ends_map. apply rel_ends. now apply RM.
Qed.
End Calls.

Theorem any_call T z m p c s : call_named c ->
  let '(s', r) := disk_call T z m p c s in let '(t1, r1) := sound_call z m p c (dc_files s) in
  (r = r1 /\ ((forall x, dc_files s' x = t1 x) \/ (~ writes_saved s /\ one_lost T p c (dc_files s) t1 (dc_files s')))) \/
  (exists e, doc_error e /\ r = Throw e /\ left_by p c (dc_files s) (dc_files s')).
Proof.
  intros NM. assert (A : at_ (left_by p c (dc_files s)) (dc_writes s) false (dc_files s) s).
  { split; [reflexivity|]. split; [intros x; now left|]. split; [reflexivity|discriminate]. }
  pose proof (@calls_end T z m p c (dc_files s) (dc_writes s) false NM _ _ A) as H.
  destruct (disk_call T z m p c s) as [s' r], (sound_call z m p c (dc_files s)) as [t1 r1]. cbn [fst snd] in H.
  destruct H as [H|(e & (_ & De) & H)]; [left; exact H|right; exists e; auto].
Qed.
Theorem calm_docs T z m p c s : call_named c -> docs_work s ->
  let '(s', r) := disk_call T z m p c s in let '(t1, r1) := sound_call z m p c (dc_files s) in
  r = r1 /\ forall x, dc_files s' x = t1 x.
Proof.
  intros NM [W1 W2]. assert (A : at_ (left_by p c (dc_files s)) (dc_writes s) true (dc_files s) s).
  { split; [reflexivity|]. split; [intros x; now left|]. split; [reflexivity|]. intros _. exact W1. }
  pose proof (@calls_end T z m p c (dc_files s) (dc_writes s) true NM _ _ A) as H.
  destruct (disk_call T z m p c s) as [s' r], (sound_call z m p c (dc_files s)) as [t1 r1]. cbn [fst snd] in H.
  destruct H as [[E [H|[N _]]]|(e & (X & _) & _)]; [auto|contradiction|discriminate X].
Qed.

(** * Opening a File object *)
Section Open.
Variables (T : text_codec) (p : path) (m : mode) (t0 : fsys) (w0 : list write_fate) (b : bool).
Notation w := (should_truncate m).
Notation K := (open_left w p t0).
Notation D := (fun d => exists n, In n [".zgroup"; "zarr.json"; "attributes.json"]%string /\ d = p ++ [n]).
Notation old := (fun d v => v = None \/ v = t0 d).
Notation rl := (@rel _ _ (at_ K w0 b) (esc b) (fun s => K (dc_files s))).
Notation en := (@ends T old K D w0 b).

Lemma open_docs t d : K t -> D d -> old d (t d).
Proof using.
  intros H (n & _ & ->). destruct (H (p ++ [n])) as [E|[(_ & _ & E)|(B & _)]]; auto. rewrite below_doc in B. discriminate B.
Qed.
Lemma mkdirs_free t x n : existsb (fun q => fs_exists t q && negb (fs_isdir t q)) (prefixes n) = false -> below x n = true -> t x = None \/ t x = Some NDir.
Proof using.
  intros E Bx. destruct (fs_exists t x && negb (fs_isdir t x)) eqn:Ex.
  - exfalso. assert (Y : existsb (fun q => fs_exists t q && negb (fs_isdir t q)) (prefixes n) = true)
      by (apply existsb_exists; exists x; split; [now apply prefixes_below|exact Ex]). congruence.
  - unfold fs_exists, fs_isdir in Ex. destruct (t x) as [[]|]; auto; discriminate Ex.
Qed.
Lemma mkdirs_left t n : K t -> below n p = true -> K (fst (fs_mkdirs n t)).
Proof using.
  intros HK Bn. unfold fs_mkdirs. destruct (existsb _ _) eqn:E; cbn [fst]; [exact HK|]. intros x. destruct (below x n) eqn:Bx; [|apply HK].
  assert (Bp : below x p = true). { apply below_spec in Bx, Bn. destruct Bx as [r ->], Bn as [r' ->]. rewrite <- app_assoc. apply below_app. }
  destruct (HK x) as [Y|[(W & B & Y)|(B & Y & Z)]].
  - destruct (@mkdirs_free t x n E Bx) as [Z|Z]; [|left; congruence]. right. right. split; [exact Bp|]. split; [reflexivity|]. left. congruence.
  - right. right. split; [exact Bp|]. split; [reflexivity|]. right. split; [exact W|]. now apply below_antisym.
  - right. right. auto.
Qed.
Lemma open_mkdirs_rel : rl (fs_mkdirs p) (doc_mkdirs p).
Proof using.
  intros t s (F & HK & W & B). unfold doc_mkdirs. destruct (next_doc s) as (N1 & N2 & N3). destruct (next_doc_fate s) as [s' f].
  cbn [fst snd] in *. rewrite N1, F. destruct f as [|k g].
  - left. pose proof (mkdirs_left HK (below_refl p)) as L. destruct (fs_mkdirs p t) as [t' r]. cbn [fst snd] in *.
    split; [|reflexivity]. split; [reflexivity|]. split; [exact L|]. split; [cbn; congruence|]. intros Eb. apply N3, B, Eb.
  - right. assert (L : K (fst (fs_mkdirs (firstn k p) t))).
    { apply mkdirs_left; [exact HK|]. apply below_spec. exists (skipn k p). symmetry. apply firstn_skipn. }
    destruct (fs_mkdirs (firstn k p) t) as [t' r]. cbn [fst snd dc_files] in *. exists EFilesystem. split; [|auto].
    split; [|now left]. destruct b; [|reflexivity]. destruct (N3 (B eq_refl)) as [_ X]. discriminate X.
Qed.
Lemma open_remove_rel : w = true -> rl (node_remove (Handle p m)) (doc_remove (Handle p m)).
Proof using.
  intros Ew. unfold doc_remove, node_remove. cbn [h_path h_mode]. destruct (negb (can_write m)); [apply rel_ret|].
  apply (@rel_same K w0 b _ (do^ e <- freading (fun t => Ok (fs_exists t p)) in if negb e then aret (Throw EInvalidArgument) else fs_remove_all p)).
  { intros t. unfold abind, freading, aret, fret. now destruct (fs_exists t p). }
  apply rel_bind; [apply exists_rel|]. intros []; cbn [negb]; [|apply rel_ret].
  intros t s (F & HK & W & B). unfold doc_remove_all. destruct (next_doc s) as (N1 & N2 & N3). destruct (next_doc_fate s) as [s' f].
  cbn [fst snd] in *. rewrite N1, F. destruct f as [|k g].
  - left. unfold fs_remove_all. cbn [fst snd]. split; [|reflexivity]. split; [reflexivity|]. split; [|split; [cbn; congruence|intros Eb; apply N3, B, Eb]].
    intros x. pose proof (HK x) as HX. destruct (below p x) eqn:Bx; [right; left; auto|exact HX].
  - right. exists EFilesystem. cbn [fst snd dc_files]. split; [|split; [reflexivity|]].
    + split; [|now left]. destruct b; [|reflexivity]. destruct (N3 (B eq_refl)) as [_ X]. discriminate X.
    + intros x. destruct (below p x && g x) eqn:Bx; [|apply HK]. apply andb_prop in Bx. right; left. tauto.
Qed.

Lemma group_metadata_rel : rl (freading (fun t => read_group_metadata t p)) (doc_read_group_metadata p).
Proof using.
  unfold doc_read_group_metadata.
  match goal with |- context [abind (doc_parse p "zarr.json") (fun j => aret (@?f j))] => set (f3 := f) end.
  match goal with |- context [abind (doc_parse p ".zgroup") (fun j => aret (@?f j))] => set (f2 := f) end.
  match goal with |- context [abind (doc_parse p "attributes.json") (fun j => aret (@?f j))] => set (f5 := f) end.
  apply (@rel_same K w0 b _ (
    do^ z <- freading (fun t => handle_is_zarr HFile t p) in
    if z then
      do^ v3 <- freading (fun t => Ok (fs_exists t (p ++ ["zarr.json"%string]))) in
      if v3 then do^ j <- freading (fun t => parse_doc t p "zarr.json") in aret (f3 j)
      else do^ j <- freading (fun t => parse_doc t p ".zgroup") in aret (f2 j)
    else do^ j <- freading (fun t => parse_doc t p "attributes.json") in aret (f5 j))).
  { intros t. unfold abind, freading, aret, read_group_metadata. cbn [handle_is_zarr].
    destruct (is_zarr_group t p) as [z|e|]; cbn [bind]; [|reflexivity|reflexivity]. destruct z.
    - destruct (fs_exists t (p ++ ["zarr.json"%string])); [now destruct (parse_doc t p "zarr.json")|now destruct (parse_doc t p ".zgroup")].
    - destruct (parse_doc t p "attributes.json") as [j|e|]; cbn [bind]; [|reflexivity|reflexivity]. unfold f5. now destruct (jfind "n5" j). }
  apply rel_bind; [apply zarr_rel|]. intros [].
  - apply rel_bind; [apply exists_rel|]. intros []; (apply rel_bind; [apply parse_rel|]; intros j; apply rel_ret).
  - apply rel_bind; [apply parse_rel|]; intros j; apply rel_ret.
Qed.
Lemma version_rel fmt : rl (freading (fun t => check_version t p fmt)) (doc_check_version p fmt).
Proof using.
  unfold doc_check_version.
  apply (@rel_same K w0 b _ (
    do^ md <- freading (fun t => read_group_metadata t p) in
    do^ z <- freading (fun t => handle_is_zarr HFile t p) in
    aret (
    if z then
      match jfind "zarr_format" md with
      | Some v => if jeq_int v 2 then Ok 2%Z else if jeq_int v 3 then Ok 3%Z else Throw ERuntime
      | None => Throw ELogic
      end
    else
      match md with
      | JNull => Throw ELogic
      | _ =>
          match jfind "n5" md with
          | None | Some JNull => Ok fmt
          | Some (JStr t) => match first_digit t with Some d => if 4 <? d then Throw ERuntime else Ok fmt | None => Throw ELogic end
          | Some _ => Throw ELogic
          end
      end))).
  { intros t. unfold abind, freading, aret, check_version. cbn [handle_is_zarr]. destruct (read_group_metadata t p) as [md|e|]; cbn [bind]; [|reflexivity|reflexivity].
    now destruct (is_zarr_group t p). }
  apply rel_bind; [apply group_metadata_rel|]. intros md. apply rel_bind; [apply zarr_rel|]. intros z. apply rel_ret.
Qed.

Definition doc_open_as (z : bool) (uz : option bool) (fmt : Z) : act docs Z := doc_open_file T (Handle p m) (Some z) uz fmt.
Lemma open_ends z uz fmt : en (py_open_file (Handle p m) (Some z) uz fmt) (doc_open_as z uz fmt).
Proof using.
  unfold doc_open_as, doc_open_file, py_open_file. cbn [h_path h_mode doc_infer_format infer_format].
  match goal with |- context [abind (aret (Ok z)) ?f] => change (abind (aret (Ok z)) f) with (f z) end. cbv beta zeta.
  destruct (negb (match uz with None => true | Some u => Bool.eqb u z end)) eqn:Eu.
  { apply (@ends_same T old K D w0 b _ (aret (Throw ERuntime))); [reflexivity|]. apply rel_ends, rel_ret. }
  apply (@ends_same T old K D w0 b _ (
    do^ e <- freading (fun t => Ok (fs_exists t p)) in
    do^ _ <- (if e && w then node_remove (Handle p m) else aret (Ok tt)) in
    do^ here <- freading (fun t => Ok (fs_exists t p)) in
    if here then if must_not_exist m then aret (Throw EFilesystem) else freading (fun t => check_version t p fmt)
    else if negb (can_create m) then aret (Throw EFilesystem)
    else do^ _ <- create_file (Handle p m) z fmt in aret (Ok fmt))).
  { intros t. unfold abind, fbind, freading, aret, fret.
    destruct (fs_exists t p && w); [destruct (node_remove (Handle p m) t) as [t1 [x|e|]]; [|reflexivity|reflexivity]|].
    - destruct (fs_exists t1 p); [now destruct (must_not_exist m)|]. destruct (negb (can_create m)); reflexivity.
    - destruct (fs_exists t p); [now destruct (must_not_exist m)|]. destruct (negb (can_create m)); reflexivity. }
  apply ends_bind; [apply exists_rel|]. intros e. apply ends_bind.
  { destruct e; [|apply rel_ret]. destruct w eqn:Ew; cbn [andb]; [|apply rel_ret]. rewrite <- Ew. now apply open_remove_rel. }
  intros _. apply ends_bind; [apply exists_rel|]. intros [].
  - apply rel_ends. destruct (must_not_exist m); [apply rel_ret|apply version_rel].
  - destruct (negb (can_create m)); [apply rel_ends, rel_ret|]. apply ends_ret.
    apply create_file_ends; [exact open_docs|exact open_mkdirs_rel|]. intros n I. eauto.
Qed.
End Open.

Lemma probe_files q s : dc_files (fst (doc_probe q s)) = dc_files s /\ dc_writes (fst (doc_probe q s)) = dc_writes s /\
  (Forall (eq DocWorks) (dc_fates s) -> Forall (eq DocWorks) (dc_fates (fst (doc_probe q s))) /\ snd (doc_probe q s) = Ok (fs_exists (dc_files s) q)) /\
  exists x, snd (doc_probe q s) = Ok x /\ (x = true -> fs_exists (dc_files s) q = true).
Proof.
  unfold doc_probe. destruct (next_doc s) as (N1 & N2 & N3). destruct (next_doc_fate s) as [s' f]. cbn [fst snd] in *. destruct f as [|n g]; cbn [fst snd].
  - rewrite N1. split; [reflexivity|]. split; [exact N2|]. split; [intros W; split; [apply N3, W|reflexivity]|].
    eexists. split; [reflexivity|auto].
  - split; [exact N1|]. split; [exact N2|]. split; [intros W; destruct (N3 W) as [_ X]; discriminate X|].
    exists false. split; [reflexivity|discriminate].
Qed.
Lemma infer_step p ext s : exists s1 z, doc_infer_format p ext s = (s1, Ok z) /\ dc_files s1 = dc_files s /\ dc_writes s1 = dc_writes s /\
  (Forall (eq DocWorks) (dc_fates s) -> Forall (eq DocWorks) (dc_fates s1) /\ z = infer_format (dc_files s) p ext) /\
  (forall z0, ext = Some z0 -> z = z0) /\ (z = true -> infer_format (dc_files s) p ext = true).
Proof.
  destruct ext as [z0|]; cbn [doc_infer_format infer_format].
  { exists s, z0. unfold aret. repeat split; auto. now intros z1 [= ->]. }
  unfold abind. destruct (probe_files (p ++ [".zgroup"%string]) s) as (A1 & A2 & A3 & x & Ex & A4).
  destruct (doc_probe (p ++ [".zgroup"%string]) s) as [s1 r]. cbn [fst snd] in *. subst r. destruct x.
  { exists s1, true. unfold aret. rewrite (A4 eq_refl). repeat split; auto; try discriminate. now apply A3. }
  destruct (probe_files (p ++ [".zarray"%string]) s1) as (B1 & B2 & B3 & y & Ey & B4).
  destruct (doc_probe (p ++ [".zarray"%string]) s1) as [s2 r]. cbn [fst snd] in *. subst r. rewrite A1 in *. destruct y.
  { exists s2, true. unfold aret. rewrite (B4 eq_refl), !orb_true_r. split; [reflexivity|]. split; [exact B1|]. split; [congruence|].
    split; [|split; [discriminate|reflexivity]]. intros W. split; [apply B3, A3, W|reflexivity]. }
  destruct (probe_files (p ++ ["zarr.json"%string]) s2) as (C1 & C2 & C3 & v & Ev & C4).
  destruct (doc_probe (p ++ ["zarr.json"%string]) s2) as [s3 r]. cbn [fst snd] in *. subst r. rewrite B1 in *.
  exists s3, v. split; [reflexivity|]. split; [exact C1|]. split; [congruence|]. split; [|split; [discriminate|]].
  - intros W. destruct (A3 W) as [W1 X1]. destruct (B3 W1) as [W2 X2]. destruct (C3 W2) as [W3 X3]. split; [exact W3|].
    injection X1 as <-. injection X2 as <-. now injection X3 as ->.
  - intros ->. rewrite (C4 eq_refl). now rewrite orb_true_r.
Qed.

Theorem opened_file T p m ext uz fmt s :
  exists z, (forall z0, ext = Some z0 -> z = z0) /\ (z = true -> infer_format (dc_files s) p ext = true) /\
  let '(s', r) := doc_open_file T (Handle p m) ext uz fmt s in
  let '(t1, r1) := py_open_file (Handle p m) (Some z) uz fmt (dc_files s) in
  (r = r1 /\ ((forall x, dc_files s' x = t1 x) \/ (~ writes_saved s /\ new_lost T p (dc_files s) t1 (dc_files s')))) \/
  (exists e, doc_error e /\ r = Throw e /\ open_left (should_truncate m) p (dc_files s) (dc_files s')).
Proof.
  destruct (infer_step p ext s) as (s1 & z & E & F & W & _ & Z1 & Z2). exists z. split; [exact Z1|]. split; [exact Z2|].
  assert (X : doc_open_file T (Handle p m) ext uz fmt s = doc_open_as T p m z uz fmt s1).
  { unfold doc_open_as, doc_open_file. cbn [h_path h_mode]. unfold abind at 1. rewrite E. reflexivity. }
  rewrite X. assert (A : at_ (open_left (should_truncate m) p (dc_files s)) (dc_writes s) false (dc_files s) s1).
  { split; [exact F|]. split; [intros x; now left|]. split; [exact W|discriminate]. }
  pose proof (@open_ends T p m (dc_files s) (dc_writes s) false z uz fmt _ _ A) as H.
  destruct (doc_open_as T p m z uz fmt s1) as [s' r], (py_open_file (Handle p m) (Some z) uz fmt (dc_files s)) as [t1 r1]. cbn [fst snd] in H.
  destruct H as [[E1 [H|[N (d & j & (n & I & ->) & H1 & H2 & H3)]]]|(e & (_ & De) & H)]; [left; auto| |right; exists e; auto].
  left. split; [exact E1|]. right. split; [exact N|]. exists n, j. split; [exact I|]. cbv zeta. split; [exact H1|]. split; [exact H2|]. tauto.
Qed.
Theorem calm_open T p m ext uz fmt s : docs_work s ->
  let '(s', r) := doc_open_file T (Handle p m) ext uz fmt s in
  let '(t1, r1) := py_open_file (Handle p m) ext uz fmt (dc_files s) in
  r = r1 /\ forall x, dc_files s' x = t1 x.
Proof.
  intros [W1 W2]. destruct (infer_step p ext s) as (s1 & z & E & F & W & Z & _). destruct (Z W1) as [W3 Ez].
  assert (X : doc_open_file T (Handle p m) ext uz fmt s = doc_open_as T p m z uz fmt s1).
  { unfold doc_open_as, doc_open_file. cbn [h_path h_mode]. unfold abind at 1. rewrite E. reflexivity. }
  assert (Y : py_open_file (Handle p m) ext uz fmt (dc_files s) = py_open_file (Handle p m) (Some z) uz fmt (dc_files s)).
  { unfold py_open_file. cbn [h_path h_mode infer_format]. now rewrite <- Ez. }
  rewrite X, Y. assert (A : at_ (open_left (should_truncate m) p (dc_files s)) (dc_writes s) true (dc_files s) s1).
  { split; [exact F|]. split; [intros x; now left|]. split; [exact W|]. intros _. exact W3. }
  pose proof (@open_ends T p m (dc_files s) (dc_writes s) true z uz fmt _ _ A) as H.
  destruct (doc_open_as T p m z uz fmt s1) as [s' r], (py_open_file (Handle p m) (Some z) uz fmt (dc_files s)) as [t1 r1]. cbn [fst snd] in H.
  destruct H as [[E1 [H|[N _]]]|(e & (Q & _) & _)]; [auto|contradiction|discriminate Q].
Qed.
