(** Proofs about chunk keys. *)
From Coq Require Import DecimalN DecimalFacts.
From Verif Require Import M_Base M_Text M_Key S_Text P_Base.

Local Open Scope string_scope.

Fixpoint all_digits (s : string) : bool :=
  match s with EmptyString => true | String c r => digit c && all_digits r end.

Lemma sapp_assoc (a b c : string) : (a ++ b) ++ c = a ++ b ++ c.
Proof. induction a as [|x a IH]; cbn; [easy|now rewrite IH]. Qed.

Lemma sapp_nil (a : string) : a ++ "" = a.
Proof. induction a as [|x a IH]; cbn; [easy|now rewrite IH]. Qed.

Lemma sapp_inj_l (a b c : string) : a ++ b = a ++ c -> b = c.
Proof. induction a as [|x a IH]; cbn; [easy|]. intros H. apply IH. congruence. Qed.

Lemma uint_digits d : all_digits (NilEmpty.string_of_uint d) = true.
Proof. induction d; cbn; easy. Qed.

Lemma to_string_digits n : all_digits (to_string n) = true.
Proof.
  unfold to_string, NilZero.string_of_uint. pose proof (uint_digits (N.to_uint n)).
  destruct (N.to_uint n); easy.
Qed.

Lemma to_string_nonempty n : to_string n <> "".
Proof.
  unfold to_string, NilZero.string_of_uint. destruct (N.to_uint n); cbn; discriminate.
Qed.

Lemma to_string_head n : exists c r, to_string n = String c r /\ digit c = true.
Proof.
  pose proof (to_string_digits n). pose proof (@to_string_nonempty n).
  destruct (to_string n) as [|c r]; [easy|]. exists c, r. cbn in H.
  split; [easy|]. destruct (digit c); easy.
Qed.

Lemma to_uint_nonnil n : N.to_uint n <> Decimal.Nil.
Proof.
  unfold N.to_uint. destruct n; [discriminate|]. apply DecimalPos.Unsigned.to_uint_nonnil.
Qed.

Lemma to_string_inj a b : to_string a = to_string b -> a = b.
Proof.
  unfold to_string. intros H.
  assert (E : Some (N.to_uint a) = Some (N.to_uint b)).
  { rewrite <- !NilZero.usu by apply to_uint_nonnil. now rewrite H. }
  injection E as E. rewrite <- (DecimalN.Unsigned.of_to a), <- (DecimalN.Unsigned.of_to b).
  now rewrite E.
Qed.

Definition digit_free_head (s : string) : Prop :=
  match s with EmptyString => True | String c _ => digit c = false end.

Lemma digits_split a b x y : all_digits a = true -> all_digits b = true ->
  digit_free_head x -> digit_free_head y -> a ++ x = b ++ y -> a = b /\ x = y.
Proof.
  revert b. induction a as [|c a IH]; intros [|d b] Ha Hb Hx Hy E; cbn in *.
  - easy.
  - subst x. cbn in Hx. destruct (digit d); easy.
  - subst y. cbn in Hy. destruct (digit c); easy.
  - injection E as <- E. destruct (digit c); [|easy].
    destruct (IH b) as [-> ->]; easy.
Qed.

(** Concatenation of separator + number. *)
Fixpoint tails (d : string) (ids : list N) : string :=
  match ids with [] => "" | i :: r => d ++ to_string i ++ tails d r end.

Lemma tails_head d ids : good_separator d -> digit_free_head (tails d ids).
Proof. destruct ids; cbn; [easy|]. destruct d; cbn; easy. Qed.

Lemma tails_inj d ids ids' : good_separator d -> tails d ids = tails d ids' -> ids = ids'.
Proof.
  intros Hd. revert ids'. induction ids as [|i r IH]; intros [|j r'] E; cbn in E.
  - easy.
  - destruct d; easy.
  - destruct d; easy.
  - apply sapp_inj_l in E. apply digits_split in E as [E1 E2];
      auto using to_string_digits, tails_head.
    apply to_string_inj in E1. apply IH in E2. now subst.
Qed.

Lemma fold_default d ids acc :
  fold_left (fun name idx => name ++ d ++ to_string idx) ids acc = acc ++ tails d ids.
Proof.
  revert acc. induction ids as [|i r IH]; intros acc; cbn; [now rewrite sapp_nil|].
  rewrite IH. now rewrite !sapp_assoc.
Qed.

Lemma join_nonempty d ids acc : acc <> "" -> join ids acc d = acc ++ tails d ids.
Proof.
  unfold join. revert acc. induction ids as [|i r IH]; intros acc Ha; cbn; [now rewrite sapp_nil|].
  destruct acc as [|c acc]; [easy|]. rewrite IH; [|discriminate].
  now rewrite !sapp_assoc.
Qed.

Lemma join_empty d ids :
  join ids "" d = match ids with [] => "" | i :: r => to_string i ++ tails d r end.
Proof.
  destruct ids as [|i r]; [easy|]. apply (@join_nonempty d r (to_string i)).
  apply to_string_nonempty.
Qed.

Lemma join_inj d ids ids' : good_separator d -> join ids "" d = join ids' "" d -> ids = ids'.
Proof.
  intros Hd. rewrite !join_empty. destruct ids as [|i r], ids' as [|j r']; intros E.
  - easy.
  - destruct (@to_string_head j) as (c & s & Hs & _). rewrite Hs in E. easy.
  - destruct (@to_string_head i) as (c & s & Hs & _). rewrite Hs in E. easy.
  - apply digits_split in E as [E1 E2]; auto using to_string_digits, tails_head.
    apply to_string_inj in E1. apply tails_inj in E2; [|easy]. now subst.
Qed.

Lemma chunk_key_inj k ids ids' : good_separator (k_delim k) ->
  chunk_key k ids = chunk_key k ids' -> ids = ids'.
Proof.
  intros Hd. unfold chunk_key. destruct (k_zarr k).
  - destruct (_ && _).
    + rewrite !fold_default. intros E. apply sapp_inj_l in E. now apply tails_inj in E.
    + now apply join_inj.
  - intros E. apply join_inj in E; [|easy]. now rewrite <- (rev_involutive ids), E, rev_involutive.
Qed.

Lemma chunk_key_head k ids : ids <> [] ->
  exists c r, chunk_key k ids = String c r /\ (digit c = true \/ c = "c"%char).
Proof.
  intros Hn. unfold chunk_key. destruct (k_zarr k).
  - destruct (_ && _).
    + rewrite fold_default. eexists _, _. split; [reflexivity|now right].
    + rewrite join_empty. destruct ids as [|i r]; [easy|].
      destruct (@to_string_head i) as (c & s & -> & Hc). eexists _, _. split; [reflexivity|now left].
  - rewrite join_empty. destruct (rev ids) as [|i r] eqn:E.
    + destruct ids; [easy|]. cbn in E. destruct (rev ids); easy.
    + destruct (@to_string_head i) as (c & s & -> & Hc). eexists _, _. split; [reflexivity|now left].
Qed.

Lemma chunk_key_reserved k ids n : ids <> [] -> In n reserved_names -> chunk_key k ids <> n.
Proof.
  intros Hn Hin E. destruct (@chunk_key_head k ids Hn) as (c & r & Ec & Hc).
  rewrite Ec in E. cbn in Hin.
  repeat (destruct Hin as [Hin|Hin];
    [subst n; injection E as E _; subst c; destruct Hc; vm_compute in *; discriminate|]).
  easy.
Qed.

(** ** Resolved paths *)

Lemma split_noslash_app s t cur : slash_free s = true ->
  split_slash (s ++ t) cur = split_slash t (cur ++ s).
Proof.
  revert cur. induction s as [|c s IH]; intros cur H; cbn in *; [now rewrite sapp_nil|].
  apply andb_true_iff in H as [Hc H]. destruct (Ascii.eqb c "/"); [easy|].
  rewrite IH by easy. now rewrite sapp_assoc.
Qed.

Lemma split_noslash s cur : slash_free s = true -> split_slash s cur = [(cur ++ s)%string].
Proof. intros H. rewrite <- (sapp_nil s) at 1. now rewrite split_noslash_app. Qed.

Lemma slash_free_app a b : slash_free (a ++ b) = slash_free a && slash_free b.
Proof. induction a as [|c a IH]; cbn; [easy|]. rewrite IH. now rewrite andb_assoc. Qed.

Lemma digits_slash_free s : all_digits s = true -> slash_free s = true.
Proof.
  induction s as [|c s IH]; cbn; [easy|]. rewrite !andb_true_iff. intros [Hc Hs].
  split; [|now apply IH]. destruct (Ascii.eqb_spec c "/"); [|easy]. now subst.
Qed.

Lemma tails_slash_free d ids : slash_free d = true -> slash_free (tails d ids) = true.
Proof.
  intros Hd. induction ids as [|i r IH]; cbn; [easy|].
  rewrite !slash_free_app, Hd, IH, digits_slash_free by apply to_string_digits. easy.
Qed.

Lemma split_tails_slash ids cur :
  split_slash (tails "/" ids) cur = cur :: map to_string ids.
Proof.
  revert cur. induction ids as [|i r IH]; intros cur; cbn; [easy|].
  rewrite split_noslash_app by (apply digits_slash_free, to_string_digits).
  cbn. now rewrite IH.
Qed.

(** A component that is kept as is. *)
Definition plain (c : string) : Prop :=
  match c with EmptyString => False | String a _ => a <> "."%char end.

Lemma plain_eqb c : plain c ->
  (c =? "")%string = false /\ (c =? ".")%string = false /\ (c =? "..")%string = false.
Proof.
  intros H. repeat split; apply String.eqb_neq; intros ->; cbn in H; easy.
Qed.

Lemma resolve_plain_fold cs acc : Forall plain cs ->
  fold_left (fun acc c =>
    if (c =? "")%string || (c =? ".")%string then acc
    else if (c =? "..")%string then
      match acc with
      | [] => [c]
      | t :: r => if (t =? "..")%string then c :: acc else r
      end
    else c :: acc) cs acc = (rev cs ++ acc)%list.
Proof.
  intros H. revert acc. induction H as [|c cs Hc Hs IH]; intros acc; cbn; [easy|].
  destruct (plain_eqb Hc) as (-> & -> & ->). cbn. rewrite IH. now rewrite <- app_assoc.
Qed.

Lemma resolve_plain s cs : split_slash s "" = cs -> Forall plain cs -> resolve s = cs.
Proof.
  intros E H. unfold resolve. rewrite E, resolve_plain_fold, app_nil_r by easy.
  apply rev_involutive.
Qed.

Lemma digit_plain c r : digit c = true -> plain (String c r).
Proof. intros H. cbn. intros ->. easy. Qed.

Lemma to_string_plain n : plain (to_string n).
Proof. destruct (@to_string_head n) as (c & r & -> & H). now apply digit_plain. Qed.

(** The components of the resolved chunk path. *)
Definition key_components (k : key_config) (ids : shape) : list string :=
  if k_zarr k then
    if (k_format k =? 3)%N && String.eqb (k_encoding k) "default" then
      if String.eqb (k_delim k) "/" then "c" :: map to_string ids else [chunk_key k ids]
    else if String.eqb (k_delim k) "/" then map to_string ids else [chunk_key k ids]
  else map to_string (rev ids).

Definition fs_separator (d : string) : Prop := d = "/" \/ slash_free d = true.

Lemma chunk_key_slash_free k ids : k_zarr k = true -> slash_free (k_delim k) = true ->
  slash_free (chunk_key k ids) = true.
Proof.
  intros Hz Hd. unfold chunk_key. rewrite Hz. destruct (_ && _).
  - rewrite fold_default, slash_free_app, tails_slash_free; easy.
  - rewrite join_empty. destruct ids as [|i r]; [easy|].
    rewrite slash_free_app, tails_slash_free, digits_slash_free by (easy || apply to_string_digits).
    easy.
Qed.

Lemma join_slash_split ids : ids <> [] -> split_slash (join ids "" "/") "" = map to_string ids.
Proof.
  intros Hn. rewrite join_empty. destruct ids as [|i r]; [easy|].
  rewrite split_noslash_app by (apply digits_slash_free, to_string_digits).
  now rewrite split_tails_slash.
Qed.

Lemma Forall_plain_strings ids : Forall plain (map to_string ids).
Proof. apply Forall_forall. intros s Hs. apply in_map_iff in Hs as (n & <- & _). apply to_string_plain. Qed.

Lemma head_plain c r : digit c = true \/ c = "c"%char -> plain (String c r).
Proof. intros [H| ->]; [now apply digit_plain|]. cbn. discriminate. Qed.

Lemma resolve_chunk_key k ids : ids <> [] -> fs_separator (k_delim k) ->
  resolve (chunk_key k ids) = key_components k ids /\ Forall plain (key_components k ids).
Proof.
  intros Hn Hs. unfold key_components.
  assert (Hflat : k_zarr k = true -> k_delim k <> "/" ->
    resolve (chunk_key k ids) = [chunk_key k ids] /\ Forall plain [chunk_key k ids]).
  { intros Hz Hd. destruct Hs as [Hs|Hs]; [easy|].
    assert (P : Forall plain [chunk_key k ids]).
    { constructor; [|constructor]. destruct (@chunk_key_head k ids Hn) as (c & r & -> & Hc).
      now apply head_plain. }
    split; [|easy]. apply resolve_plain; [|easy].
    rewrite split_noslash; [easy|]. now apply chunk_key_slash_free. }
  destruct (k_zarr k) eqn:Hz.
  - destruct (_ && _) eqn:Hf.
    + destruct (String.eqb_spec (k_delim k) "/") as [Hd|Hd]; [|now apply Hflat].
      assert (P : Forall plain ("c" :: map to_string ids)).
      { constructor; [cbn; discriminate|apply Forall_plain_strings]. }
      split; [|easy]. apply resolve_plain; [|easy].
      unfold chunk_key. rewrite Hz, Hf, fold_default, Hd. cbn. apply split_tails_slash.
    + destruct (String.eqb_spec (k_delim k) "/") as [Hd|Hd]; [|now apply Hflat].
      split; [|apply Forall_plain_strings]. apply resolve_plain; [|apply Forall_plain_strings].
      unfold chunk_key. rewrite Hz, Hf, Hd. now apply join_slash_split.
  - split; [|apply Forall_plain_strings]. apply resolve_plain; [|apply Forall_plain_strings].
    unfold chunk_key. rewrite Hz. apply join_slash_split.
    destruct ids; [easy|]. cbn. destruct (rev ids); discriminate.
Qed.

Lemma map_to_string_inj a b : map to_string a = map to_string b -> a = b.
Proof.
  revert b. induction a as [|x a IH]; intros [|y b] E; cbn in *; try easy.
  injection E as E1 E2. apply to_string_inj in E1. apply IH in E2. now subst.
Qed.

Lemma prefix_same_length {A} (a b r : list A) : List.length a = List.length b -> b = (a ++ r)%list -> a = b.
Proof.
  intros L E. subst b. rewrite app_length in L. destruct r; [now rewrite app_nil_r|].
  cbn in L. lia.
Qed.

Lemma chunk_paths_distinct k ids ids' : ids <> [] -> List.length ids = List.length ids' ->
  good_separator (k_delim k) -> fs_separator (k_delim k) ->
  path_prefix (resolve (chunk_key k ids)) (resolve (chunk_key k ids')) -> ids = ids'.
Proof.
  intros Hn Hl Hg Hs [r Hr].
  assert (Hn' : ids' <> []) by (destruct ids, ids'; easy).
  destruct (@resolve_chunk_key k ids Hn Hs) as [E _].
  destruct (@resolve_chunk_key k ids' Hn' Hs) as [E' _].
  rewrite E, E' in Hr. unfold key_components in Hr.
  apply prefix_same_length in Hr.
  2: { destruct (k_zarr k); [destruct (_ && _); destruct (String.eqb _ _)|]; cbn;
       rewrite ?map_length, ?rev_length; congruence. }
  destruct (k_zarr k) eqn:Hz; [destruct (_ && _); destruct (String.eqb _ _)|].
  - injection Hr as Hr. now apply map_to_string_inj.
  - injection Hr as Hr. now apply chunk_key_inj in Hr.
  - now apply map_to_string_inj.
  - injection Hr as Hr. now apply chunk_key_inj in Hr.
  - apply map_to_string_inj in Hr. now rewrite <- (rev_involutive ids), Hr, rev_involutive.
Qed.

Lemma plain_not_reserved_head c : digit c = true \/ c = "c"%char ->
  forall n, In n reserved_names -> forall r, String c r <> n.
Proof.
  intros Hc n Hin r E. cbn in Hin.
  repeat (destruct Hin as [Hin|Hin];
    [subst n; injection E as E _; subst c; destruct Hc; vm_compute in *; discriminate|]).
  easy.
Qed.

Lemma chunk_path_reserved k ids n rest : ids <> [] -> fs_separator (k_delim k) ->
  In n reserved_names -> resolve (chunk_key k ids) <> n :: rest.
Proof.
  intros Hn Hs Hin E. destruct (@resolve_chunk_key k ids Hn Hs) as [E' _].
  rewrite E' in E. clear E'. unfold key_components in E.
  assert (H1 : chunk_key k ids <> n) by now apply chunk_key_reserved.
  assert (H2 : forall l, map to_string l <> n :: rest).
  { intros [|i l] El; [easy|]. injection El as El _.
    destruct (@to_string_head i) as (c & r & Ec & Hc). rewrite Ec in El.
    eapply plain_not_reserved_head; [left; exact Hc|exact Hin|exact El]. }
  destruct (k_zarr k); [destruct (_ && _); destruct (String.eqb _ _)|].
  - injection E as E _. eapply plain_not_reserved_head; [|exact Hin|exact E]. now right.
  - congruence.
  - exact (H2 _ E).
  - congruence.
  - exact (H2 _ E).
Qed.

(** ** The text of a key *)
Lemma concat_tails d i ids : String.concat d (map to_string (i :: ids)) = (to_string i ++ tails d ids)%string.
Proof.
  revert i. induction ids as [|j ids IH]; intros i; cbn [map String.concat tails]; [now rewrite sapp_nil|].
  f_equal. f_equal. exact (IH j).
Qed.
Lemma key_format k ids :
  chunk_key k ids =
    if k_zarr k then
      String.concat (k_delim k)
        ((if (k_format k =? 3)%N && String.eqb (k_encoding k) "default" then ["c"%string] else []) ++
         map (fun i => NilZero.string_of_uint (N.to_uint i)) ids)%list
    else String.concat "/" (map (fun i => NilZero.string_of_uint (N.to_uint i)) (rev ids)).
Proof.
  change (fun i => NilZero.string_of_uint (N.to_uint i)) with to_string. unfold chunk_key.
  assert (J : forall d l, join l "" d = String.concat d (map to_string l)).
  { intros d l. rewrite join_empty. destruct l as [|i l]; [reflexivity|]. now rewrite concat_tails. }
  destruct (k_zarr k); [|apply J]. destruct (_ && _); cbn [app]; [|apply J].
  rewrite fold_default. destruct ids as [|i ids]; [reflexivity|].
  change (String.concat (k_delim k) ("c"%string :: map to_string (i :: ids)))
    with ("c" ++ k_delim k ++ String.concat (k_delim k) (map to_string (i :: ids)))%string.
  now rewrite concat_tails.
Qed.
