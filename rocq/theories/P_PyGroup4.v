(** Proofs about the python containers: compression settings. *)
From Coq Require Import ZArith Ascii String.
From Verif Require Import M_Base P_Base M_Double M_Json M_Mode M_Key S_Text P_Key M_Blocking M_Metadata S_Metadata P_Metadata
  M_Fs M_Attributes S_Attributes P_Attributes M_Container S_Container P_Container P_Container2 P_Container3
  M_PyGroup S_PyGroup P_PyGroup P_PyGroup2 P_PyGroup3.
Import ListNotations.
Local Open Scope list_scope.
Local Open Scope N_scope.

(** * Compression settings *)

Definition opt_of (v : json) : option optval :=
  match v with
  | JInt z => Some (OInt (wrap_int z))
  | JUInt n => Some (OInt (wrap_int (Z.of_N n)))
  | JBool b => Some (OBool b)
  | JStr t => Some (OStr t)
  | _ => None
  end.

Lemma json_options_find l : forall o op, NoDup (map fst l) -> json_options l o = Ok op ->
  forall k, sfind k op = match sfind k l with Some v => opt_of v | None => sfind k o end /\
            (forall v, sfind k l = Some v -> opt_of v <> None).
Proof.
  induction l as [|[a v] l IH]; intros o op N E k; cbn [json_options] in E.
  - inversion E; subst. split; [reflexivity|discriminate].
  - cbn [map fst] in N. inversion N as [|? ? NI N']; subst.
    assert (X : forall x, opt_of v = Some x -> json_options l (sput a x o) = Ok op).
    { intros x Hx. destruct v; cbn in Hx, E; try discriminate Hx; inversion Hx; subst; exact E. }
    destruct (opt_of v) as [x|] eqn:Ov; [|destruct v; cbn in Ov, E; discriminate].
    specialize (X x eq_refl). destruct (IH _ _ N' X k) as [A B]. cbn [sfind].
    destruct (String.eqb_spec a k) as [->|Ne].
    + assert (S0 : sfind k l = None).
      { destruct (sfind k l) eqn:S; [|reflexivity]. exfalso. apply NI. clear - S.
        induction l as [|[b w] l IHl]; [discriminate|]. cbn in *. destruct (String.eqb_spec b k); [now left|right; now apply IHl]. }
      rewrite S0, sfind_sput, String.eqb_refl in A. rewrite A. split; [now rewrite Ov|]. intros v' Ev. inversion Ev; subst. congruence.
    + rewrite A. split; [|exact B]. destruct (sfind k l); [reflexivity|]. rewrite sfind_sput.
      destruct (String.eqb_spec a k); [congruence|reflexivity].
Qed.

Lemma sfind_in {V} k (l : list (string * V)) v : sfind k l = Some v -> In (k, v) l.
Proof.
  induction l as [|[a b] l IH]; [discriminate|]. cbn. destruct (String.eqb_spec a k) as [->|].
  - intros E. inversion E. now left.
  - intros E. right. now apply IH.
Qed.

Lemma copts_find f comp opts copts d : py_default_opts f comp = Some d -> py_copts f comp opts = Ok copts ->
  forall k, sfind k copts = match sfind k d with
                            | Some v => Some (match sfind k opts with Some v' => v' | None => v end)
                            | None => None
                            end /\ (sfind k d = None -> sfind k opts = None).
Proof.
  intros D E k. unfold py_copts in E. rewrite D in E. destruct existsb eqn:X; [discriminate|]. inversion E; subst. split.
  - clear E X D. induction d as [|[a b] d IH]; [reflexivity|]. cbn [map fst snd sfind].
    destruct (String.eqb_spec a k) as [->|]; [reflexivity|exact IH].
  - intros N. destruct (sfind k opts) as [v|] eqn:S; [|reflexivity]. exfalso.
    apply sfind_in in S. assert (Y : existsb (fun kv => negb (existsb (fun e => String.eqb (fst e) (fst kv)) d)) opts = true); [|congruence].
    apply existsb_exists. exists (k, v). split; [exact S|]. cbn [fst]. apply negb_true_iff.
    clear - N. induction d as [|[a b] d IH]; [reflexivity|]. cbn in *. destruct (String.eqb_spec a k); [discriminate|]. now apply IH.
Qed.

Lemma copts_keys f comp opts copts d : py_default_opts f comp = Some d -> py_copts f comp opts = Ok copts ->
  map fst copts = map fst d.
Proof.
  intros D E. unfold py_copts in E. rewrite D in E. destruct existsb; [discriminate|]. inversion E; subst.
  rewrite map_map. reflexivity.
Qed.

Section Copts.
  Variables (f : py_format) (comp : string) (opts copts d : list (string * json)) (op : options).
  Hypothesis D : py_default_opts f comp = Some d.
  Hypothesis ND : NoDup (map fst d).
  Hypothesis C : py_copts f comp opts = Ok copts.
  Hypothesis J : json_options copts [] = Ok op.
  Hypothesis PO : plain_options opts.

  Lemma op_find k : sfind k op =
    match sfind k d with
    | Some v => opt_of (match sfind k opts with Some v' => v' | None => v end)
    | None => None
    end /\ (sfind k d = None -> sfind k opts = None).
  Proof using D ND C J.
    assert (N : NoDup (map fst copts)) by now rewrite (copts_keys D C).
    destruct (json_options_find N J k) as [A _]. destruct (copts_find D C k) as [B E].
    split; [|exact E]. rewrite A, B. destruct (sfind k d); reflexivity.
  Qed.
  Lemma op_ok k v : sfind k d <> None -> sfind k opts = Some v -> opt_of v <> None.
  Proof using D ND C J.
    assert (N : NoDup (map fst copts)) by now rewrite (copts_keys D C).
    destruct (json_options_find N J k) as [_ A]. destruct (copts_find D C k) as [B _].
    intros X Y. apply A. rewrite B, Y. destruct (sfind k d); congruence.
  Qed.

  Lemma int_wanted k dflt v : asked_int k dflt op v -> is_int dflt ->
    (sfind k d = Some (JInt dflt) \/ sfind k d = None) -> wanted_int opts k dflt v.
  Proof using D ND C J PO.
    intros A I S. destruct (op_find k) as [F E]. destruct PO as [P1 [P2 _]]. unfold wanted_int. unfold asked_int in A.
    destruct S as [S|S].
    - rewrite S in F. destruct (sfind k opts) as [v'|] eqn:O.
      + assert (X := @op_ok k v' ltac:(congruence) O).
        destruct v'; cbn in F, X; try congruence; destruct A as [A|[A _]]; rewrite F in A; try discriminate A; inversion A; subst.
        * rewrite wrap_int_id; [reflexivity|]. now apply (P1 k).
        * rewrite wrap_int_id; [reflexivity|]. now apply (P2 k).
      + cbn in F. rewrite wrap_int_id in F by exact I. destruct A as [A|[A _]]; rewrite F in A; inversion A. reflexivity.
    - rewrite S in F. rewrite (E S). destruct A as [A|[_ A]]; [congruence|exact A].
  Qed.

  Lemma str_wanted k dflt v : (sfind k op = Some (OStr v) \/ sfind k op = None /\ v = dflt) ->
    (sfind k d = Some (JStr dflt) \/ sfind k d = None) -> wanted_str opts k dflt v.
  Proof using D ND C J.
    intros A S. destruct (op_find k) as [F E]. unfold wanted_str. destruct S as [S|S].
    - rewrite S in F. destruct (sfind k opts) as [v'|] eqn:O.
      + assert (X := @op_ok k v' ltac:(congruence) O).
        destruct v'; cbn in F, X; try congruence; destruct A as [A|[A _]]; rewrite F in A; try discriminate A. now inversion A.
      + cbn in F. destruct A as [A|[A _]]; rewrite F in A; inversion A. reflexivity.
    - rewrite S in F. rewrite (E S). destruct A as [A|[_ A]]; [congruence|exact A].
  Qed.
End Copts.

Lemma default_nodup f comp d : py_default_opts f comp = Some d -> NoDup (map fst d).
Proof.
  intros E. destruct f; unfold py_default_opts in E; apply sfind_in in E; cbn [In] in E;
    repeat match type of E with _ \/ _ => destruct E as [E|E] end; try contradiction; inversion E; subst; cbn [map fst];
    repeat constructor; cbn [In]; intuition discriminate.
Qed.

(** The settings given are those of the codec, except for the blosc level of n5 and
    zarr v2 and gzip in zarr v2. *)
Theorem codec_wanted f z comp opts copts op c :
  (z = match f with FN5 => false | _ => true end) ->
  py_copts f comp opts = Ok copts -> json_options copts [] = Ok op -> plain_options opts ->
  (comp = "blosc"%string -> f = FZarr3 \/ sfind (level_key f) opts = None) ->
  (f = FZarr2 -> comp <> "gzip"%string) ->
  asked_codec comp z op c -> In comp (py_compressors f) -> wanted_codec f comp opts c.
Proof.
  intros Hz C J PO BL GZ A AV.
  destruct (py_default_opts f comp) as [d|] eqn:D; [|unfold py_copts in C; rewrite D in C; discriminate C].
  assert (ND := default_nodup D).
  assert (IW := fun k dflt v => @int_wanted f comp opts copts d op D ND C J PO k dflt v).
  assert (SW := fun k dflt v => @str_wanted f comp opts copts d op D ND C J k dflt v).
  assert (FI := fun k => @op_find f comp opts copts d op D ND C J k).
  destruct PO as [_ [_ [UZ _]]].
  destruct c; cbn [asked_codec wanted_codec] in *; try exact A.
  - destruct A as [-> [A1 [A2 [A3 [A4 A5]]]]]. repeat split.
    + destruct (BL eq_refl) as [-> | L].
      * cbn [level_key]. apply (IW "level"%string 5%Z); [exact A1|unfold is_int; lia|]. inversion D; subst. now left.
      * destruct f; cbn [level_key] in *; unfold wanted_int; try rewrite L.
        -- destruct (FI "level"%string) as [F _]. inversion D; subst d. cbn in F. destruct A1 as [A1|[_ A1]]; congruence.
        -- destruct (FI "level"%string) as [F _]. inversion D; subst d. cbn in F. destruct A1 as [A1|[_ A1]]; congruence.
        -- assert (X : wanted_int opts "level" 5 level); [|unfold wanted_int in X; now rewrite L in X].
           apply (IW "level"%string 5%Z); [exact A1|unfold is_int; lia|]. inversion D; subst. now left.
    + apply IW; [exact A2|unfold is_int; lia|]. destruct f; inversion D; subst; now left.
    + apply SW; [exact A3|]. destruct f; inversion D; subst; now left.
    + apply IW; [exact A4|unfold is_int; lia|]. destruct f; inversion D; subst; now left.
    + apply IW; [exact A5|unfold is_int; lia|]. destruct f; inversion D; subst; [now left|now right|now right].
  - destruct A as [AC [A1 A2]]. split.
    + destruct (FI "useZlib"%string) as [F _]. rewrite UZ in F. destruct f; subst z.
      * destruct AC as [-> | ->]; [cbn in AV; intuition discriminate|]. inversion D; subst d. cbn in F. right. split; [reflexivity|].
        destruct A2 as [A2|[_ A2]]; congruence.
      * destruct AC as [-> | ->]; [|now destruct (GZ eq_refl)]. inversion D; subst d. cbn in F. left. split; [reflexivity|].
        destruct A2 as [A2|[_ A2]]; congruence.
      * destruct AC as [-> | ->]; [cbn in AV; intuition discriminate|]. inversion D; subst d. cbn in F. right. split; [reflexivity|].
        destruct A2 as [A2|[A2 _]]; congruence.
    + apply IW; [exact A1|unfold is_int; lia|]. destruct AC as [-> | ->]; destruct f; inversion D; subst; now left.
  - destruct A as [-> A1]. split; [reflexivity|]. apply IW; [exact A1|unfold is_int; lia|]. destruct f; inversion D; subst; now left.
  - destruct A as [-> A1]. split; [reflexivity|]. apply IW; [exact A1|unfold is_int; lia|]. destruct f; inversion D; subst; now left.
  - destruct A as [-> A1]. split; [reflexivity|]. apply IW; [exact A1|unfold is_int; lia|]. destruct f; inversion D; subst; now left.
  - destruct A as [-> A1]. split; [reflexivity|]. apply IW; [exact A1|unfold is_int; lia|]. destruct f; inversion D; subst; now left.
Qed.
