(** Proofs about fill values given from python. *)
From Coq Require Import ZArith String.
From Verif Require M_Shard.
From Verif Require Import M_Base M_Bytes M_Format M_Mode M_Dataset M_Sharded M_Access M_Double M_Json M_Metadata M_Fs M_Container M_Number
  S_Array S_Grid S_Bytes S_Dataset S_Access S_Metadata S_Container S_Number P_Base P_Bytes P_Metadata P_Round P_Number
  M_Python S_Python P_Python3 P_Container P_Container2 P_Container3 M_PyGroup S_PyGroup P_PyGroup P_PyGroup2 P_PyGroup5 M_PyFill S_PyFill.
Import List ListNotations.
Local Open Scope list_scope.
Local Open Scope N_scope.

Lemma create_number g name v a x : load_double v = Some x -> forall s, py_create_number g name v a s = py_create_dataset g name (with_fill a x) s.
Proof. intros E s. unfold py_create_number, py_create_dataset, py_create_in_number. now rewrite E. Qed.

Lemma format_ok x : in_format 52 11 x -> dbl_ok x.
Proof.
  destruct x as [| | |s m e]; try exact (fun H => H). intros (O & M & E & L). cbn [dbl_ok]. split; [now apply odd_xI|]. split; [exact M|].
  change (2 ^ (11 - 1))%Z with 1024%Z in *. split; [lia|]. destruct (Z.log2_spec (Zpos m) ltac:(lia)) as [_ LU]. pose proof (Z.log2_nonneg (Zpos m)).
  destruct (Z.le_gt_cases 0 e) as [Z0|Z0].
  - assert (2 ^ Z.succ (Z.log2 (Zpos m)) * 2 ^ e <= 2 ^ 1024)%Z by (rewrite <- pow_split by lia; apply pow_le; lia).
    pose proof (@pow_pos e Z0). nia.
  - rewrite (@Z.pow_neg_r 2 e Z0), Z.mul_0_r. apply Z.pow_pos_nonneg; [reflexivity|discriminate].
Qed.
(** The double of a number. *)
Lemma load_some v d : well_formed v -> load_double v = Some d -> exists x, is_real v x /\ rounded 52 11 x d /\ in_format 52 11 d.
Proof.
  intros W E.
  assert (I : forall z, match dbl_of_Z z with
      | DFin s m e => if (Zpos m * 2 ^ e <? 2 ^ 1024)%Z then Some (DFin s m e) else None
      | y => Some y end = Some d -> exists x, is_real (PInt z) x /\ rounded 52 11 x d /\ in_format 52 11 d).
  { intros z H. eexists. split; [reflexivity|].
    assert (P : forall s p, match round_pos s p with
        | DFin s m e => if (Zpos m * 2 ^ e <? 2 ^ 1024)%Z then Some (DFin s m e) else None
        | y => Some y end = Some d -> rounded 52 11 (DFin s p 0) d /\ in_format 52 11 d).
    { intros s p E'. pose proof (@round_pos_large s p) as L. pose proof (@round_pos_rounded s p) as R.
      assert (T : ~ too_large 52 11 (DFin s p 0)) by (intros T; rewrite (L T) in E'; discriminate).
      destruct (R T) as (R1 & R2 & R3). rewrite R3 in E'. injection E' as <-. auto. }
    destruct z as [|p|p]; cbn [dbl_of_Z] in H; [|now apply P|now apply P]. injection H as <-. split; [reflexivity|exact Logic.I]. }
  destruct v as [z|z|x|x|a b]; cbn [load_double] in E; [now apply I|now apply I| | |discriminate]; injection E as <-; exists x;
    (split; [reflexivity|]); (split; [now apply rounded_id|exact W]).
Qed.
Lemma exact_load v : exact_double v -> well_formed v /\ exists d, load_double v = Some d /\ forall z, whole v = Some z <-> whole (PFloat d) = Some z.
Proof.
  intros H.
  assert (I : forall z, (exists m e, (z = m * 2 ^ e /\ Z.abs m < 2 ^ 53 /\ 0 <= e <= 971)%Z) -> exists d, load_double (PInt z) = Some d /\ whole (PFloat d) = Some z).
  { intros z (m & e & E & M & He). cbn [load_double].
    assert (P : forall s p, (Zpos p = Z.abs m * 2 ^ e)%Z -> exists n f, round_pos s p = DFin s n f /\ (0 <= f)%Z /\ (Zpos n * 2 ^ f = Zpos p)%Z).
    { intros s p Ep. destruct (Z.abs m) as [|q|q] eqn:Eq; [lia| |lia].
      destruct (pstrip_ok q) as [Q1 Q2]. exists (fst (pstrip q)), (snd (pstrip q) + e)%Z. split; [|split; [lia|]].
      - apply round_pos_exact; [apply odd_xI, odd_fst| |lia|].
        + pose proof (@pow_pos (snd (pstrip q)) Q2) as PP. assert (QB : (Zpos q < 2 ^ 53)%Z) by lia.
          clear - PP QB Q1. set (b := (2 ^ snd (pstrip q))%Z) in *. set (a := Zpos (fst (pstrip q))) in *.
          assert (0 < a)%Z by (unfold a; lia). clearbody a b. assert (a * 1 <= a * b)%Z by (apply Z.mul_le_mono_nonneg_l; lia). lia.
        + rewrite pow_split by lia. rewrite Z.mul_assoc, <- Q1. exact Ep.
      - rewrite pow_split by lia. rewrite Z.mul_assoc, <- Q1. now rewrite Ep. }
    assert (B : forall p, (Zpos p = Z.abs m * 2 ^ e)%Z -> (Zpos p < 2 ^ 1024)%Z).
    { intros p ->. assert (2 ^ 53 * 2 ^ e <= 2 ^ 1024)%Z by (rewrite <- pow_split by lia; apply pow_le; lia).
      pose proof (@pow_pos e ltac:(lia)). nia. }
    destruct z as [|p|p]; cbn [dbl_of_Z].
    - exists (DZero false). split; reflexivity.
    - assert (Ep : (Zpos p = Z.abs m * 2 ^ e)%Z) by (pose proof (@pow_pos e ltac:(lia)); nia).
      destruct (@P false p Ep) as (n & f & R & F & V). rewrite R. specialize (B p Ep). rewrite V.
      destruct (Z.ltb_spec (Zpos p) (2 ^ 1024)); [|lia]. eexists; split; [reflexivity|]. cbn [whole]. destruct (Z.ltb_spec f 0); [lia|]. now rewrite V.
    - assert (Ep : (Zpos p = Z.abs m * 2 ^ e)%Z) by (pose proof (@pow_pos e ltac:(lia)); nia).
      destruct (@P true p Ep) as (n & f & R & F & V). rewrite R. specialize (B p Ep). rewrite V.
      destruct (Z.ltb_spec (Zpos p) (2 ^ 1024)); [|lia]. eexists; split; [reflexivity|]. cbn [whole]. destruct (Z.ltb_spec f 0); [lia|]. rewrite V. reflexivity. }
  destruct v as [z|z|x|x|a b]; cbn [exact_double well_formed] in *.
  - split; [exact Logic.I|]. destruct (I z H) as (d & E & V). exists d. split; [exact E|]. intros y. rewrite V. reflexivity.
  - split; [exact Logic.I|]. destruct (I z H) as (d & E & V). exists d. split; [exact E|]. intros y. rewrite V. reflexivity.
  - split; [exact H|]. exists x. split; reflexivity.
  - split; [exact H|]. exists x. split; reflexivity.
  - contradiction.
Qed.

(** The element of a fill value. *)
Lemma fill_number t v x d f : complex_type t = None -> t <> DT_complex256 -> is_real v x -> rounded 52 11 x d -> in_format 52 11 d ->
  (integer_type t = None \/ forall z, whole v = Some z <-> whole (PFloat d) = Some z) ->
  element_fill t d = Ok f -> is_number t v (fill_cell t f).
Proof.
  intros CT NC Rx R F X E. unfold element_fill in E. destruct (integer_type t) as [signed|] eqn:T.
  - destruct X as [X|X]; [discriminate|].
    destruct (range_of T) as (lo & hi & ER & ES & W & HI & _). rewrite ER in E. unfold dbl_to_int in E.
    destruct (dbl_trunc d) as [z|] eqn:TZ; [|discriminate]. destruct ((lo <=? z) && (z <=? hi))%Z eqn:B; [|discriminate].
    injection E as <-. apply andb_prop in B. destruct B as [B1 B2]. apply Z.leb_le in B1. apply Z.leb_le in B2. cbn [fill_cell]. split.
    + unfold lenN. rewrite int_cell_length. apply N2Nat.id.
    + rewrite T. rewrite integer_cell; [|exact W|apply HI; lia]. apply X. rewrite (@trunc_whole (PFloat d) d) by auto. exact TZ.
  - assert (S : exists single : bool, t = (if single then DT_float32 else DT_float64)).
    { destruct t; try discriminate T; try discriminate CT; [now exists true|now exists false|contradiction]. }
    destruct S as [single ->]. assert (f = FReal d) as -> by (destruct single; now injection E as <-).
    unfold is_number. cbn [fill_cell]. replace (match (if single then DT_float32 else DT_float64) with DT_float32 => true | _ => false end) with single by (destruct single; reflexivity).
    split; [unfold lenN; rewrite float_cell_length; destruct single; reflexivity|].
    pose proof (@cell_value single x d F R) as V. destruct single; exists x; split; try exact Rx; exact V.
Qed.

(** A new dataset has one of the types of integers and floats. *)
Lemma created_fill g key a s s' d z : key <> [] -> Forall usable key ->
  fs_ok s -> s (h_path (pg_handle g)) = Some NDir -> uniform s (h_path (pg_handle g)) z key ->
  py_create_dataset g (name_of key) a s = (s', Ok d) ->
  complex_type (op_dtype (pd_impl d)) = None /\ op_dtype (pd_impl d) <> DT_complex256 /\
  element_fill (op_dtype (pd_impl d)) (a_fill a) = Ok (op_fill (pd_impl d)).
Proof.
  intros N U F D UN R.
  destruct (create_dataset_inner N U F D UN R) as [g1 [s1 [x [R1 [Px [F1 [Z1 [FE [SE [ME NE]]]]]]]]]].
  destruct (create_in_inv (key := [x]) ltac:(discriminate) (Forall_cons _ Px (Forall_nil _)) R1)
    as [sh [ty [ch [z' [comp [copts [op [delim [enc [shard Q]]]]]]]]]].
  assert (Z2 := mi_zarr Q). rewrite Z1 in Z2. inversion Z2; subst z'. clear Z2.
  assert (A := created_as_asked F1 Z1 (mi_create Q)).
  assert (T := aa_dtype A). split; [|split; [|exact (aa_fill A)]]; destruct (op_dtype (pd_impl d)); cbn [asked_dtype] in T; try contradiction; try reflexivity; discriminate.
Qed.

Theorem create_fill g key v a s s' d z : key <> [] -> Forall usable key ->
  fs_ok s -> s (h_path (pg_handle g)) = Some NDir -> uniform s (h_path (pg_handle g)) z key ->
  well_formed v -> py_create_number g (name_of key) v a s = (s', Ok d) ->
  let t := op_dtype (pd_impl d) in let c := fill_cell t (op_fill (pd_impl d)) in
  (exists x y, is_real v x /\ rounded 52 11 x y /\ is_number t (PFloat y) c) /\
  (integer_type t = None \/ exact_double v -> is_number t v c).
Proof.
  intros N U F D UN W R t c. destruct (load_double v) as [y|] eqn:L.
  - rewrite (create_number g (name_of key) a L) in R. destruct (load_some W L) as (x & Rx & Ry & Fy).
    destruct (created_fill N U F D UN R) as (T1 & T2 & E). cbn [with_fill a_fill] in E. split.
    + exists x, y. split; [exact Rx|]. split; [exact Ry|].
      apply (@fill_number t (PFloat y) y y _ T1 T2 Logic.eq_refl (rounded_id Fy) Fy); [right; intros z0; reflexivity|exact E].
    + intros X. eapply fill_number; eauto. destruct X as [X|X]; [now left|right]. destruct (exact_load X) as (_ & y' & E' & V).
      rewrite L in E'. injection E' as <-. exact V.
  - exfalso. unfold py_create_number, py_create_in_number in R. rewrite L in R.
    destruct (py_may_create g (name_of key) s) as [s1 [[]| |]] eqn:M; unfold fbind in R; rewrite M in R; try discriminate R.
    destruct (removelast _) as [|y front]; [discriminate R|].
    destruct (py_require_groups g (y :: front) s1) as [s2 [g1| |]]; try discriminate R.
    destruct (py_may_create g1 _ s2) as [s3 [[]| |]]; discriminate R.
Qed.

(** Numbers that are no doubles. *)
Theorem refused g key v a s : load_double v = None -> fs_ok s ->
  (forall s' d, py_create_number g (name_of key) v a s <> (s', Ok d)) /\
  (forall x, key = [x] -> usable x -> exists e, py_create_number g (name_of key) v a s = (s, Throw e)).
Proof.
  intros L _. unfold py_create_number, py_create_in_number. rewrite L. split.
  - intros s' d R.
    destruct (py_may_create g (name_of key) s) as [s1 [[]| |]] eqn:M; unfold fbind in R; rewrite M in R; try discriminate R.
    destruct (removelast _) as [|y front]; [discriminate R|].
    destruct (py_require_groups g (y :: front) s1) as [s2 [g1| |]]; try discriminate R.
    destruct (py_may_create g1 _ s2) as [s3 [[]| |]]; discriminate R.
  - intros x -> U. assert (P : Forall proper [x]) by (constructor; [apply U|constructor]).
    unfold fbind. unfold py_may_create. destruct (can_write _); cbn [negb fret]; [|eauto]. destruct py_contains; cbn [fret]; [eauto|].
    rewrite lstrip_plain, split_name by (discriminate || assumption). cbn [removelast]. eexists. reflexivity.
Qed.

(** A new dataset reads as its fill value. *)
Lemma object_fill T C o p : python_object T C o p -> d_fill (pd_base p) = fill_cell (op_dtype o) (op_fill o).
Proof.
  unfold python_object. destruct (op_shard o) as [|a sh]; [now intros ->|]. intros (sd & E & ->). unfold open_sharded in E.
  destruct (M_Shard.chunks_per_shard _ _); [|discriminate|discriminate]. injection E as <-. reflexivity.
Qed.
Theorem new_reads p st : py_dataset_ok p -> can_write (d_mode (pd_base p)) = true -> new_dataset p st ->
  forall ix ps fresh, np_select (d_shape (pd_base p)) ix = Some ps -> regular_index (d_shape (pd_base p)) ix ->
    small_request (d_chunks (pd_base p)) (np_count ps) -> prod (np_count ps) < W64 -> (forall n, lenN (fresh n) = n) ->
    exists v, M_Python.py_getitem p fresh ix st = PyOk v /\ np_value (pd_base p) (fun _ => d_fill (pd_base p)) ps v.
Proof.
  intros K W N ix ps fresh H1 H2 H3 H4 H5.
  destruct (@history_theorem p [] st K W (Forall_nil _) N) as (st' & E & R). cbn [run_py_ops] in E. injection E as <-.
  exact (R ix ps fresh H1 H2 H3 H4 H5).
Qed.
