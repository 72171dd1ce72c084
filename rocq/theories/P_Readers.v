(** Lemmas for readers that run while another client changes the files. *)
From Coq Require Import String.
From Verif Require Import M_Base M_Text M_Key M_Blocking M_View M_Bytes M_Format M_Mode M_Shard M_Dataset M_Sharded
  M_Access M_Pool M_Parallel M_Lock M_Clients M_RemoveCrash
  S_Array S_Grid S_Bytes S_Dataset S_Access S_Sharded S_Pool S_Lock S_Clients
  P_Base P_Dataset P_Sharded P_Pool P_Parallel P_Lock P_Clients.
Import List ListNotations.
Local Open Scope list_scope.

(** ** Code under way *)
Inductive partway : code -> store * (N -> cell) -> code -> store * (N -> cell) -> Prop :=
| partway_refl p m : partway p m p m
| partway_act p0 m0 f m : partway p0 m0 (Act f) m -> partway p0 m0 (snd (f m)) (fst (f m)).

Lemma partway_run p0 m0 p m : partway p0 m0 p m -> run p m = run p0 m0.
Proof.
  induction 1 as [|p0 m0 f m _ IH]; [reflexivity|]. rewrite <- IH. cbn. destruct (f m); reflexivity.
Qed.
Lemma halted_snoc (p : code) m f m1 : partway p m (Act f) m1 -> forall m', halted (Act f) m1 m' -> halted p m m'.
Proof.
  intros H. remember (Act f) as q eqn:E. revert f E. induction H as [p m|p0 m0 g m H IH]; intros f E m' Hm'; [subst; exact Hm'|].
  apply (IH g Logic.eq_refl). apply halted_later. exact Hm'.
Qed.
Lemma partway_halted p0 m0 p m : partway p0 m0 p m -> halted p0 m0 m.
Proof.
  intros H. destruct H as [p m|p0 m0 f m H]; [apply halted_now|].
  apply (@halted_snoc p0 m0 f m H). apply halted_later, halted_now.
Qed.
Lemma halted_end (p : code) m : halted p m (fst (run p m)).
Proof.
  revert m. induction p as [o|f IH] using prog_ind2; intros m; [apply halted_now|].
  apply halted_later. cbn. specialize (IH m (fst (f m))). destruct (f m) as [m' p']. exact IH.
Qed.
Lemma halted_bind (p : code) k m m' : halted (pbind p k) m m' ->
  halted p m m' \/ exists m1 b, run p m = (m1, Ok b) /\ halted (k b) m1 m'.
Proof.
  revert m. induction p as [o|f IH] using prog_ind2; intros m H.
  - destruct o as [b|e|]; cbn in H.
    + right. exists m, b. split; [reflexivity|exact H].
    + left. inversion H; subst; apply halted_now.
    + left. inversion H; subst; apply halted_now.
  - cbn in H. inversion H as [|f' m0 m1 H']; subst; [left; apply halted_now|].
    specialize (IH m (fst (f m))). cbn [run] in *. destruct (f m) as [m1 p1] eqn:E. cbn [fst snd] in *.
    destruct (IH H') as [HL|HR]; [left|right; exact HR]. apply halted_later. rewrite E. exact HL.
Qed.

(** Code that changes one file at most: to its final contents, with the empty file in
    between. *)
Definition touches (key : string) (p : code) : Prop :=
  forall m m', halted p m m' ->
    (forall k, k <> key -> fst m' k = fst m k) /\
    (fst m' key = fst m key \/ fst m' key = Some [] \/ fst m' key = fst (fst (run p m)) key).

Lemma touches_ret key o : touches key (Ret o).
Proof. intros m m' H. inversion H; subst. auto. Qed.
Lemma touches_plet A key (o : outcome A) k : (forall a, o = Ok a -> touches key (k a)) -> touches key (plet o k).
Proof. destruct o; cbn; intros H; [now apply H|apply touches_ret|apply touches_ret]. Qed.
Lemma touches_pread key k0 k : (forall v, touches key (k v)) -> touches key (pread k0 k).
Proof.
  intros H m m' Hm. inversion Hm as [|f m0 m1 H']; subst; [auto|]. cbn [fst snd] in H'.
  destruct (H _ _ _ H') as [F V]. split; [exact F|]. exact V.
Qed.
Lemma touches_erase key o : touches key (pset key None (Ret o)).
Proof.
  intros m m' Hm. inversion Hm as [|f m0 m1 H']; subst; [auto|]. cbn [fst snd] in H'. inversion H'; subst. cbn [fst run pset].
  split; [intros k Hk; now apply set_key_other|]. auto.
Qed.
Lemma touches_write kc key v o : touches key (write_code kc key v (Ret o)).
Proof.
  unfold write_code. destruct (_ && _); [apply touches_ret|].
  intros m m' Hm. inversion Hm as [|f m0 m1 H']; subst; [auto|]. cbn [fst snd] in H'.
  inversion H' as [|f' m2 m3 H2]; subst; cbn [fst snd run pset] in *.
  - split; [intros k Hk; now apply set_key_other|]. right; left. apply set_key_same.
  - inversion H2; subst. cbn [fst]. split; [intros k Hk; now rewrite !set_key_other|]. auto.
Qed.

(** A loop over units with different files. *)
Lemma touches_batch A (key : A -> string) (f : A -> list cell -> code) us :
  (forall u b, In u us -> touches (key u) (f u b)) -> NoDup (map key us) ->
  forall b m m', halted (batch_prog (fun _ => f) 0 us b) m m' -> forall k,
    (~ In k (map key us) -> fst m' k = fst m k) /\
    (fst m' k = fst m k \/ fst m' k = Some [] \/ fst m' k = fst (fst (run (batch_prog (fun _ => f) 0 us b) m)) k).
Proof.
  induction us as [|u us IH]; intros Hu ND b m m' H k; cbn [batch_prog] in H.
  - inversion H; subst. auto.
  - cbn [map] in *. inversion ND as [|? ? N1 N2]; subst.
    assert (T := Hu u b (or_introl eq_refl)).
    assert (IH' := IH (fun u' b' Hi => Hu u' b' (or_intror Hi)) N2). clear IH.
    cbn [batch_prog]. rewrite run_bind. destruct (halted_bind H) as [H1|(m1 & b1 & E & H1)].
    + destruct (T _ _ H1) as [F V]. split.
      { intros Hn. apply F. intros ->. apply Hn. now left. }
      destruct (string_dec k (key u)) as [->|Hk]; [|left; now apply F].
      destruct V as [V|[V|V]]; [now left|right; now left|right; right].
      rewrite V. destruct (run (f u b) m) as [m1 [b1|e|]] eqn:E; cbn [fst]; [|reflexivity|reflexivity].
      destruct (IH' b1 m1 _ (halted_end _ m1) (key u)) as [F2 _]. symmetry. now apply F2.
    + rewrite E. destruct (T _ _ (halted_end _ m)) as [F V]. rewrite E in F, V. cbn [fst] in F, V.
      destruct (IH' b1 m1 m' H1 k) as [F2 V2]. split.
      { intros Hn. rewrite F2 by (intros Hi; apply Hn; now right). apply F. intros ->. apply Hn. now left. }
      destruct (string_dec k (key u)) as [->|Hk].
      * right; right. rewrite (F2 N1). destruct (IH' b1 m1 _ (halted_end _ m1) (key u)) as [F3 _]. symmetry. now apply F3.
      * rewrite <- (F k Hk). exact V2.
Qed.

(** ** Code that looks at each file at most once *)
Inductive reads_once : list string -> code -> Prop :=
| ro_ret ks o : reads_once ks (Ret o)
| ro_out ks f g p : (forall m, f m = ((fst m, g (snd m)), p)) -> reads_once ks p -> reads_once ks (Act f)
| ro_read k ks f p : (forall m, f m = (m, p (fst m k))) -> (forall v, reads_once ks (p v)) -> reads_once (k :: ks) (Act f)
| ro_skip k ks p : reads_once ks p -> reads_once (k :: ks) p.

Lemma reads_once_skip ks1 ks2 p : reads_once ks2 p -> reads_once (ks1 ++ ks2) p.
Proof. induction ks1; cbn; [auto|]. intros H. apply ro_skip. auto. Qed.
Lemma reads_once_bind ks1 ks2 p k : reads_once ks1 p -> (forall b, reads_once ks2 (k b)) -> reads_once (ks1 ++ ks2) (pbind p k).
Proof.
  intros H Hk. induction H as [ks o|ks f g p Hf _ IH|k0 ks f p Hf _ IH|k0 ks p _ IH].
  - destruct o; cbn; [now apply reads_once_skip|apply ro_ret|apply ro_ret].
  - cbn. eapply ro_out with (g := g); [|exact IH]. intros m. now rewrite Hf.
  - cbn. eapply ro_read with (p := fun v => pbind (p v) k); [|exact IH]. intros m. now rewrite Hf.
  - cbn. now apply ro_skip.
Qed.
Lemma reads_once_plet A ks (o : outcome A) k : (forall a, o = Ok a -> reads_once ks (k a)) -> reads_once ks (plet o k).
Proof. destruct o; cbn; intros H; [now apply H|apply ro_ret|apply ro_ret]. Qed.
Lemma reads_once_pread key ks k : (forall v, reads_once ks (k v)) -> reads_once (key :: ks) (pread key k).
Proof. intros H. apply ro_read with (p := k); [reflexivity|exact H]. Qed.
Lemma reads_once_pout ks a v k : reads_once ks k -> reads_once ks (pout a v k).
Proof. intros H. apply ro_out with (g := fun o a' => if N.eqb a' a then v else o a') (p := k); [reflexivity|exact H]. Qed.
Lemma reads_once_pcopy ks size src sv dv k : reads_once ks k -> forall idx, reads_once ks (pcopy size src sv dv idx k).
Proof.
  intros H idx. induction idx as [|i r IH]; cbn [pcopy]; [exact H|]. apply reads_once_plet. intros v _.
  destruct (_ <? _)%N; [now apply reads_once_pout|apply ro_ret].
Qed.
Lemma reads_once_pfill ks size dv v k : reads_once ks k -> forall idx, reads_once ks (pfill size dv v idx k).
Proof.
  intros H idx. induction idx as [|i r IH]; cbn [pfill]; [exact H|].
  destruct (_ <? _)%N; [now apply reads_once_pout|apply ro_ret].
Qed.
Lemma reads_once_batch A (key : A -> string) (f : A -> list cell -> code) us :
  (forall u b, In u us -> reads_once [key u] (f u b)) -> forall b, reads_once (map key us) (batch_prog (fun _ => f) 0 us b).
Proof.
  induction us as [|u us IH]; intros Hu b; cbn [batch_prog map]; [apply ro_ret|].
  apply (@reads_once_bind [key u]); [apply Hu; now left|]. intros b'. apply IH. intros; apply Hu. now right.
Qed.
Lemma reads_once_step ks p : reads_once ks p -> forall f, p = Act f -> forall m,
  fst (fst (f m)) = fst m /\ exists ks', reads_once ks' (snd (f m)).
Proof.
  induction 1 as [ks o|ks f g p Hf Hp _|k0 ks f p Hf Hp _|k0 ks p _ IH]; intros f' E m.
  - discriminate.
  - injection E as <-. rewrite Hf. cbn. split; [reflexivity|eauto].
  - injection E as <-. rewrite Hf. cbn. split; [reflexivity|eauto].
  - now apply IH.
Qed.

(** Execution in which each access finds some directory of a set. *)
Inductive seen (S : store -> Prop) : code -> (N -> cell) -> code -> (N -> cell) -> Prop :=
| seen_refl p o : seen S p o p o
| seen_act f o st p' o' : S st -> seen S (snd (f (st, o))) (snd (fst (f (st, o)))) p' o' -> seen S (Act f) o p' o'.
Lemma seen_snoc S p o f o1 st : seen S p o (Act f) o1 -> S st ->
  seen S p o (snd (f (st, o1))) (snd (fst (f (st, o1)))).
Proof.
  intros H Hs. remember (Act f) as q eqn:E. induction H as [p o|g o st0 p' o' H0 _ IH].
  - subst p. apply seen_act with (st := st); [exact Hs|apply seen_refl].
  - apply seen_act with (st := st0); [exact H0|]. now apply IH.
Qed.
Lemma seen_mono (S S' : store -> Prop) p o p' o' : (forall st, S st -> S' st) -> seen S p o p' o' -> seen S' p o p' o'.
Proof. intros HS. induction 1 as [|f o st p' o' H _ IH]; [apply seen_refl|]. apply seen_act with (st := st); auto. Qed.

(** The result is that of one directory, with each file as in some directory of the
    set. *)
Lemma seen_mixed S ks p : reads_once ks p -> NoDup ks -> forall o r o', seen S p o (Ret r) o' -> forall mu0,
  exists mu, (forall k, mu k = mu0 k \/ exists st, S st /\ mu k = st k) /\ (forall k, ~ In k ks -> mu k = mu0 k) /\
    run p (mu, o) = ((mu, o'), r).
Proof.
  induction 1 as [ks r0|ks f g p Hf Hp IH|k0 ks f p Hf Hp IH|k0 ks p _ IH]; intros ND o r o' H mu0.
  - inversion H; subst. exists mu0. split; [auto|]. split; [auto|reflexivity].
  - inversion H as [|f' o1 st p' o2 Hs H']; subst. rewrite Hf in H'. cbn [fst snd] in H'.
    destruct (IH ND _ _ _ H' mu0) as (mu & M1 & M2 & R). exists mu. split; [exact M1|]. split; [exact M2|].
    cbn. rewrite Hf. cbn [fst snd]. exact R.
  - inversion ND as [|? ? N1 N2]; subst.
    inversion H as [|f' o1 st p' o2 Hs H']; subst. rewrite Hf in H'. cbn [fst snd] in H'.
    destruct (IH (st k0) N2 _ _ _ H' (set_key mu0 k0 (st k0))) as (mu & M1 & M2 & R). exists mu.
    assert (V : mu k0 = st k0) by (rewrite M2 by exact N1; apply set_key_same). split; [|split].
    + intros k. destruct (string_dec k k0) as [->|Hk]; [right; eauto|].
      destruct (M1 k) as [E|E]; [left|right; exact E]. rewrite E. now apply set_key_other.
    + intros k Hk. rewrite M2 by (intros Hi; apply Hk; now right). apply set_key_other. intros ->. apply Hk. now left.
    + cbn. rewrite Hf. cbn [fst snd]. rewrite V. exact R.
  - inversion ND as [|? ? N1 N2]; subst. destruct (IH N2 _ _ _ H mu0) as (mu & M1 & M2 & R). exists mu.
    split; [exact M1|]. split; [|exact R]. intros k Hk. apply M2. intros Hi. apply Hk. now right.
Qed.

Lemma firstn_S A (l : list A) j c : nth_error l j = Some c -> firstn (S j) l = firstn j l ++ [c].
Proof.
  revert l. induction j as [|j IH]; intros [|x l] H; cbn in *; try discriminate; [congruence|]. now rewrite (IH l H).
Qed.
Lemma skipn_S A (l : list A) j c r : skipn j l = c :: r -> nth_error l j = Some c /\ skipn (S j) l = r.
Proof.
  revert l. induction j as [|j IH]; intros [|x l] H; cbn in *; try discriminate; [split; congruence|]. now apply IH.
Qed.

(** ** One client writes, the others read *)
Section OneWriter.
Variables (C : Type) (body_of : C -> call_body) (st0 : store) (calls : list (list C)) (w : nat) (cs : list C) (reading : C -> Prop)
  (RO : code -> Prop).
Hypothesis Hcs : nth_error calls w = Some cs.
Hypothesis others : forall t cs', t <> w -> nth_error calls t = Some cs' -> Forall reading cs'.
(** Code that leaves the files alone. *)
Hypothesis RO_step : forall f m, RO (Act f) -> fst (fst (f m)) = fst m /\ RO (snd (f m)).
Hypothesis reading_ro : forall c, reading c -> RO (cb_code (body_of c)).

(** The directory after the writer's first [j] calls, and while its next call is under
    way. *)
Definition base (j : nat) : store := fst (calls_alone body_of (firstn j cs) st0).
Definition present (j : nat) (st : store) : Prop :=
  st = base j \/
  exists c m, nth_error cs j = Some c /\ halted (cb_code (body_of c)) (base j, cb_out (body_of c)) m /\ st = fst m.
Definition count (y : @clients C) : nat := List.length (calls_by w (k_log y)).

Lemma base_S j c : nth_error cs j = Some c ->
  base (S j) = fst (fst (run (cb_code (body_of c)) (base j, cb_out (body_of c)))).
Proof using. intros H. unfold base. rewrite (firstn_S H), calls_alone_snoc. reflexivity. Qed.

Definition winv (y : @clients C) : Prop :=
  calls_by w (k_log y) = firstn (count y) cs /\
  ((nth_error (k_clients y) w = Some (KIdle, skipn (count y) cs) /\ k_files y = base (count y)) \/
   exists c out p, nth_error (k_clients y) w = Some (KRun c out p, skipn (S (count y)) cs) /\
     nth_error cs (count y) = Some c /\
     partway (cb_code (body_of c)) (base (count y), cb_out (body_of c)) p (k_files y, out)) /\
  (forall t s rest, t <> w -> nth_error (k_clients y) t = Some (s, rest) -> Forall reading rest /\
     match s with KIdle => True | KRun c out p => RO p end).

Lemma winv_present y : winv y -> present (count y) (k_files y).
Proof.
  intros (_ & [[_ ->]|(c & out & p & _ & H & P)] & _); [now left|]. right. exists c, (k_files y, out).
  split; [exact H|]. split; [exact (partway_halted P)|reflexivity].
Qed.

Lemma winv_init : winv (clients_init st0 calls).
Proof.
  unfold winv, count. cbn. split; [reflexivity|]. split.
  - left. split; [|reflexivity]. rewrite nth_error_map, Hcs. reflexivity.
  - intros t s rest Ht H. rewrite nth_error_map in H. destruct (nth_error calls t) as [cs'|] eqn:E; [|discriminate].
    injection H as <- <-. split; [exact (others Ht E)|exact Logic.I].
Qed.

Lemma winv_step y y' : winv y -> clients_step body_of y y' -> winv y'.
Proof.
  intros (HL & HW & HO) [t H]. destruct (Nat.eq_dec t w) as [->|Ht].
  - assert (K : forall x, forall t s rest, t <> w -> nth_error (set_nth w (k_clients y) x) t = Some (s, rest) -> Forall reading rest /\
     match s with KIdle => True | KRun c out p => RO p end).
    { intros x t s rest Ht E. rewrite set_nth_other in E by congruence. now apply HO with t. }
    inversion H as [c rest E|c rest out f E|c rest out o E]; subst; unfold winv, count in *; cbn [k_log k_files k_clients] in *.
    + destruct HW as [[E2 EF]|(c2 & out2 & p2 & E2 & _)]; rewrite E in E2; [|discriminate]. injection E2 as E2.
      symmetry in E2. apply skipn_S in E2 as [N1 N2].
      split; [exact HL|]. split; [|apply K]. right. exists c, (cb_out (body_of c)), (cb_code (body_of c)).
      split; [rewrite (set_nth_get _ E); now rewrite N2|]. split; [exact N1|]. rewrite EF. apply partway_refl.
    + destruct HW as [[E2 EF]|(c2 & out2 & p2 & E2 & N1 & P)]; rewrite E in E2; [discriminate|]. injection E2 as <- <- <- ->.
      split; [exact HL|]. split; [|apply K]. right. eexists _, _, _.
      split; [rewrite (set_nth_get _ E); reflexivity|]. split; [exact N1|].
      apply partway_act in P. destruct (f (k_files y, out)) as [[a b] q]. exact P.
    + destruct HW as [[E2 EF]|(c2 & out2 & p2 & E2 & N1 & P)]; rewrite E in E2; [discriminate|]. injection E2 as <- <- <- ->.
      rewrite calls_by_snoc, Nat.eqb_refl. rewrite app_length. cbn [List.length]. rewrite Nat.add_1_r.
      split; [rewrite (firstn_S N1); now rewrite <- HL|]. split; [|apply K]. left.
      split; [now rewrite (set_nth_get _ E)|]. rewrite (base_S N1). apply partway_run in P. cbn in P. rewrite <- P. reflexivity.
  - assert (X : forall x, nth_error (set_nth t (k_clients y) x) w = nth_error (k_clients y) w).
    { intros x. now apply set_nth_other. }
    assert (K : forall x, Forall reading (snd x) -> match fst x with KIdle => True | KRun c out p => RO p end ->
      forall t' s rest, t' <> w -> nth_error (set_nth t (k_clients y) x) t' = Some (s, rest) -> Forall reading rest /\
     match s with KIdle => True | KRun c out p => RO p end).
    { intros x F1 F2 t' s rest Ht' E. destruct (Nat.eq_dec t t') as [<-|Hn].
      - destruct (nth_error (k_clients y) t) as [z|] eqn:Ez.
        + rewrite (set_nth_get _ Ez) in E. injection E as ->. cbn in *. auto.
        + apply nth_error_None in Ez. assert (L : nth_error (set_nth t (k_clients y) x) t = None).
          { apply nth_error_None. now rewrite set_nth_length. } congruence.
      - rewrite set_nth_other in E by exact Hn. now apply HO with t'. }
    inversion H as [c rest E|c rest out f E|c rest out o E]; subst; unfold winv, count in *; cbn [k_log k_files k_clients] in *;
      destruct (HO t _ _ Ht E) as [F1 F2].
    + inversion F1 as [|? ? G1 G2]; subst.
      split; [exact HL|]. split; [rewrite X; exact HW|]. apply K; cbn; [exact G2|]. now apply reading_ro.
    + destruct (@RO_step _ (k_files y, out) F2) as [EF F3].
      rewrite EF. cbn [fst]. split; [exact HL|]. split; [rewrite X; exact HW|]. apply K; cbn; [exact F1|exact F3].
    + rewrite calls_by_snoc. destruct (Nat.eqb_spec t w) as [?|_]; [contradiction|].
      split; [exact HL|]. split; [rewrite X; exact HW|]. apply K; cbn; [exact F1|exact Logic.I].
Qed.
Lemma winv_reach y : reach (clients_step body_of) (clients_init st0 calls) y -> winv y.
Proof. induction 1 as [|y y' _ IH H]; [apply winv_init|]. eapply winv_step; eauto. Qed.

Lemma count_step y y' : clients_step body_of y y' -> (count y <= count y')%nat.
Proof using. clear others Hcs reading_ro RO_step RO reading cs calls st0.
  intros [t H]. inversion H; subst; unfold count; cbn [k_log]; try lia.
  rewrite calls_by_snoc. destruct (Nat.eqb t w); [rewrite app_length; lia|lia].
Qed.

(** What a reader finds. *)
Definition window (lo hi : nat) (st : store) : Prop := exists j, (lo <= j <= hi)%nat /\ present j st.

Theorem reader_sees y1 y2 t c rest a : reach (clients_step body_of) (clients_init st0 calls) y1 -> t <> w ->
  nth_error (k_clients y1) t = Some (KIdle, c :: rest) -> reach (clients_step body_of) y1 y2 ->
  nth_error (answers_to t (k_log y2)) (List.length (answers_to t (k_log y1))) = Some a ->
  reading c /\ exists r o, a = answer (cb_size (body_of c)) o r /\
    seen (window (count y1) (count y2)) (cb_code (body_of c)) (cb_out (body_of c)) (Ret r) o.
Proof.
  intros R1 Ht E1 R2 Ha. assert (W1 := winv_reach R1).
  assert (Hr : reading c).
  { destruct W1 as (_ & _ & HO). destruct (HO t _ _ Ht E1) as [F _]. now inversion F. }
  split; [exact Hr|]. set (n0 := List.length (answers_to t (k_log y1))) in *. set (lo := count y1) in *.
  assert (J : winv y2 /\ (lo <= count y2)%nat /\
    ((nth_error (k_clients y2) t = Some (KIdle, c :: rest) /\ List.length (answers_to t (k_log y2)) = n0) \/
     (exists out p, nth_error (k_clients y2) t = Some (KRun c out p, rest) /\ List.length (answers_to t (k_log y2)) = n0 /\
        seen (window lo (count y2)) (cb_code (body_of c)) (cb_out (body_of c)) p out) \/
     (exists r o, nth_error (answers_to t (k_log y2)) n0 = Some (answer (cb_size (body_of c)) o r) /\
        seen (window lo (count y2)) (cb_code (body_of c)) (cb_out (body_of c)) (Ret r) o))).
  { clear Ha. induction R2 as [|y y' R2 IH H].
    - split; [exact W1|]. split; [unfold lo; lia|]. left. split; [exact E1|reflexivity].
    - destruct IH as (W & Hlo & IH). assert (Hc := count_step H). assert (W' := winv_step W H).
      split; [exact W'|]. split; [lia|].
      assert (MONO : forall st, window lo (count y) st -> window lo (count y') st).
      { intros st (j & Hj & P). exists j. split; [lia|exact P]. }
      destruct H as [t' H]. destruct IH as [[E L]|[(out & p & E & L & S)|(r & o & E & S)]].
      + destruct (Nat.eq_dec t' t) as [->|Hn].
        * inversion H as [c' rest' E'|c' rest' out f E'|c' rest' out o E']; subst; rewrite E in E'; try discriminate.
          injection E' as <- <-. right; left. eexists _, _. cbn [k_clients k_log].
          split; [now rewrite (set_nth_get _ E)|]. split; [exact L|]. apply seen_refl.
        * left. inversion H as [c' rest' E'|c' rest' out f E'|c' rest' out o E']; subst; cbn [k_clients k_log];
            rewrite set_nth_other by exact Hn; (split; [exact E|]); [exact L|exact L|].
          rewrite answers_to_snoc. destruct (Nat.eqb_spec t' t); [contradiction|exact L].
      + destruct (Nat.eq_dec t' t) as [->|Hn].
        * inversion H as [c' rest' E'|c' rest' out' f E'|c' rest' out' o E']; subst; rewrite E in E'; try discriminate.
          -- injection E' as <- <- -> <-. right; left. eexists _, _. cbn [k_clients k_log].
             split; [now rewrite (set_nth_get _ E)|]. split; [exact L|].
             apply seen_snoc; [exact (seen_mono MONO S)|]. apply MONO. exists (count y). split; [lia|]. now apply winv_present.
          -- injection E' as <- <- -> <-. right; right. exists o, out. cbn [k_clients k_log].
             split; [|exact (seen_mono MONO S)]. rewrite answers_to_snoc, Nat.eqb_refl.
             rewrite nth_error_app2 by lia. rewrite L, Nat.sub_diag. reflexivity.
        * right; left. exists out, p. split; [|split; [|exact (seen_mono MONO S)]];
            inversion H as [c' rest' E'|c' rest' out' f E'|c' rest' out' o E']; subst; cbn [k_clients k_log];
            rewrite ?set_nth_other by exact Hn; try exact E; try exact L.
          rewrite answers_to_snoc. destruct (Nat.eqb_spec t' t); [contradiction|exact L].
      + right; right. exists r, o. split; [|exact (seen_mono MONO S)].
        inversion H as [c' rest' E'|c' rest' out' f E'|c' rest' out' o' E']; subst; cbn [k_clients k_log]; try exact E.
        rewrite answers_to_snoc. destruct (Nat.eqb_spec t' t); [|exact E].
        rewrite nth_error_app1; [exact E|]. apply nth_error_Some. congruence. }
  destruct J as (_ & _ & [[_ L]|[(out & p & _ & L & _)|(r & o & E & S)]]).
  - exfalso. assert (X : nth_error (answers_to t (k_log y2)) n0 <> None) by congruence. apply nth_error_Some in X. lia.
  - exfalso. assert (X : nth_error (answers_to t (k_log y2)) n0 <> None) by congruence. apply nth_error_Some in X. lia.
  - rewrite E in Ha. injection Ha as <-. exists r, o. split; [reflexivity|exact S].
Qed.
End OneWriter.
