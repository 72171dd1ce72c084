(** Clients that make calls on nodes. *)
From Coq Require Import ZArith String.
From Verif Require Import M_Base M_Json M_Mode M_Metadata M_Fs M_Attributes M_Container M_Pool M_AttrSteps M_NodeSteps
  S_Attributes S_AttrSteps S_NodeSteps P_Base P_Attributes P_Container P_AttrSteps P_NodeSteps.
Import List ListNotations.
Local Open Scope list_scope.

Lemma below_both p q r : below p r = true -> below q r = true -> below p q = true \/ below q p = true.
Proof.
  revert q r. induction p as [|a p IH]; intros [|b q] [|c r]; cbn; try discriminate; auto.
  rewrite !andb_true_iff, !String.eqb_eq. intros [-> A] [-> B]. destruct (IH q r A B); auto.
Qed.
Lemma below_snoc p q d : below p (q ++ [d]) = true -> below p q = true \/ p = q ++ [d].
Proof.
  revert q. induction p as [|a p IH]; intros [|b q]; cbn; auto.
  - rewrite andb_true_iff, String.eqb_eq. intros [-> H]. destruct p; [now right|discriminate].
  - rewrite !andb_true_iff, !String.eqb_eq. intros [-> H]. destruct (IH q H) as [E|E]; [auto|right; congruence].
Qed.

Lemma ncall_same c s s' : same s s' -> nequal (ncall_alone c s) (ncall_alone c s').
Proof.
  intros S. refine (nequal_trans (nequal_sym (nsteps_alone c s)) (nequal_trans _ (nsteps_alone c s'))).
  set (T := match works_on c with Some p => [p] | None => [] end).
  refine (nrun_same (T := T) _ S). apply nlocal_call.
  - intros p E. exists p. unfold T. rewrite E. split; [now left|apply below_refl].
  - intros p _. right. auto.
Qed.
Lemma ncalls_same l : forall s s', same s s' -> same (fst (ncalls_alone l s)) (fst (ncalls_alone l s')) /\ snd (ncalls_alone l s) = snd (ncalls_alone l s').
Proof.
  induction l as [|c l IH]; intros s s' S; cbn [ncalls_alone fst snd]; [auto|].
  destruct (ncall_same c S) as [A B]. destruct (IH _ _ A) as [C D]. split; [exact C|congruence].
Qed.
Lemma ncalls_app l l' s : same (fst (ncalls_alone (l ++ l') s)) (fst (ncalls_alone l' (fst (ncalls_alone l s)))) /\
  snd (ncalls_alone (l ++ l') s) = snd (ncalls_alone l s) ++ snd (ncalls_alone l' (fst (ncalls_alone l s))).
Proof.
  revert s. induction l as [|c l IH]; intros s; cbn [ncalls_alone fst snd app]; [split; [intros q|]; reflexivity|].
  destruct (IH (fst (ncall_alone c s))) as [A B]. split; [exact A|now rewrite B].
Qed.
Lemma ncalls_length l s : length (snd (ncalls_alone l s)) = length l.
Proof. revert s. induction l as [|c l IH]; intros s; cbn [ncalls_alone snd length]; [reflexivity|now rewrite IH]. Qed.

Lemma own_nlog_other t t' c o log : t <> t' -> own_nlog t (log ++ [(t', c, o)]) = own_nlog t log.
Proof.
  intros D. unfold own_nlog. rewrite filter_app, map_app. cbn. destruct (Nat.eqb_spec t' t); [congruence|]. apply app_nil_r.
Qed.
Lemma own_nlog_same t c o log : own_nlog t (log ++ [(t, c, o)]) = own_nlog t log ++ [(c, o)].
Proof. unfold own_nlog. rewrite filter_app, map_app. cbn. now rewrite Nat.eqb_refl. Qed.

Section Clients.
Variables (s0 : fsys) (own : list (list path)) (calls : list (list ncall)).
Hypothesis ap : apart s0 own calls.

(** What nobody owns and client [t] looks at. *)
Definition seen (t : nat) (q : path) : Prop :=
  exists T l c p, nth_error own t = Some T /\ nth_error calls t = Some l /\ In c l /\ In p (looks_at c) /\
    ~ inside T p /\ foot p q.

Lemma others_apart t t' T T' q : t <> t' -> nth_error own t = Some T -> nth_error own t' = Some T' ->
  inside T q -> inside T' q -> False.
Proof using ap.
  intros D N N' (p & I & B) (p' & I' & B'). destruct (below_both B B') as [H|H].
  - rewrite (ap_nodes ap D N N' I I') in H. discriminate.
  - assert (D' : t' <> t) by congruence. rewrite (ap_nodes ap D' N' N I' I) in H. discriminate.
Qed.
Lemma others_way t t' T T' q : t <> t' -> nth_error own t = Some T -> nth_error own t' = Some T' ->
  inside T q -> way T' q -> False.
Proof using ap.
  intros D N N' (p & I & B) (p' & I' & B'). pose proof (below_trans B B') as H.
  rewrite (ap_nodes ap D N N' I I') in H. discriminate.
Qed.

(** Files that no client owns. *)
Notation common := (S_NodeSteps.common own).

Definition nclient_state (T : list path) (R : path -> Prop) (files v : fsys) (l dn : list ncall)
    (cur : option (ncall * ncode)) (rest : list ncall) : Prop :=
  agreed T R v files /\
  (forall q, ~ inside T q -> v q = s0 q \/ way T q /\ s0 q = None /\ v q = Some NDir) /\
  match cur with
  | None => l = dn ++ rest /\ same v (fst (ncalls_alone dn s0))
  | Some (c, code) => l = dn ++ c :: rest /\ nlocal T R code /\
      nequal (run_nsteps code v) (ncall_alone c (fst (ncalls_alone dn s0)))
  end.
Record nclients_inv (y : nclients) (views : list fsys) : Prop := {
  ni_length : length (nc_clients y) = length calls;
  ni_views : length views = length calls;
  ni_client : forall t T l cur rest v, nth_error own t = Some T -> nth_error calls t = Some l ->
    nth_error (nc_clients y) t = Some (cur, rest) -> nth_error views t = Some v ->
    exists dn, own_nlog t (nc_log y) = combine dn (snd (ncalls_alone dn s0)) /\
      nclient_state T (seen t) (nc_files y) v l dn cur rest;
  ni_common : forall q, common q -> nc_files y q = s0 q \/
    s0 q = None /\ nc_files y q = Some NDir /\ exists t v, nth_error views t = Some v /\ v q = Some NDir
}.

Lemma nclients_inv_init : nclients_inv (nclients_init s0 calls) (repeat s0 (length calls)).
Proof using Type.
  split; cbn [nclients_init nc_clients nc_log nc_files].
  - apply map_length.
  - apply repeat_length.
  - intros t T l cur rest v No N E V. rewrite (map_nth_error _ _ _ N) in E. injection E as <- <-.
    assert (v = s0) as -> by (apply nth_error_In, repeat_spec in V; exact V).
    exists []. split; [reflexivity|]. split; [split; auto|]. split; [auto|]. split; [reflexivity|]. intros q. reflexivity.
  - auto.
Qed.

Lemma seen_common t q : seen t q -> exists p, foot p q /\ common p /\ s0 p = Some NDir /\
  (forall t' T', t' <> t -> nth_error own t' = Some T' -> ~ inside T' p) /\
  forall t' T', t' <> t -> nth_error own t' = Some T' -> forall d, In d documents -> ~ inside T' (p ++ [d]) /\ ~ way T' (p ++ [d]).
Proof using ap.
  intros (T & l & c & p & No & N & Ic & Ip & NI & F). exists p. split; [exact F|].
  destruct (ap_look ap No N Ic Ip) as [H|[D H]]; [contradiction|].
  assert (O : forall t' T', t' <> t -> nth_error own t' = Some T' -> ~ inside T' p).
  { intros t' T' Dt N' (p' & I' & B). destruct (H t' T' p' Dt N' I') as [B' _]. congruence. }
  split; [|split; [exact D|split; [exact O|]]].
  - intros T' I'. apply In_nth_error in I'. destruct I' as [t' N']. destruct (Nat.eq_dec t' t) as [->|Dt]; [|now apply (O t')].
    congruence.
  - intros t' T' Dt N' d Id. split.
    + intros (p' & I' & B). destruct (H t' T' p' Dt N' I') as [B1 B2]. destruct (@below_snoc _ _ _ B) as [E|E]; [congruence|].
      subst p'. specialize (B2 d Id). rewrite below_refl in B2. discriminate.
    + intros (p' & I' & B). destruct (H t' T' p' Dt N' I') as [_ B2]. rewrite (B2 d Id) in B. discriminate.
Qed.

(** A step of a client does not disturb what another one sees. *)
Lemma others_agreed y views t t' T T' v (s' : fsys) : nclients_inv y views -> t <> t' ->
  nth_error own t = Some T -> nth_error own t' = Some T' ->
  (forall q, inside T q \/ s' q = nc_files y q \/ way T q /\ nc_files y q = None /\ s' q = Some NDir) ->
  agreed T' (seen t') v (nc_files y) -> agreed T' (seen t') v s'.
Proof using ap.
  intros I D N N' F A. split.
  - intros q Hq. rewrite (ag_own A Hq). destruct Hq as [Hq|Hq].
    + destruct (F q) as [H|[H|(W & _)]]; [|now symmetry|].
      * destruct (others_apart D N N' H Hq).
      * exfalso. apply (@others_way t' t T' T q); auto.
    + destruct (seen_common Hq) as (p & Fp & Cp & Dp & Np & Nd).
      destruct Fp as [-> | (d & Id & ->)].
      * destruct (F p) as [H|[H|(W & E & _)]]; [|now symmetry|].
        -- destruct (Np t T D N H).
        -- exfalso. destruct (ni_common I Cp) as [X|(X & _)]; congruence.
      * destruct (Nd t T D N d Id) as [N1 N2]. destruct (F (p ++ [d])) as [H|[H|(W & _)]]; [contradiction|now symmetry|contradiction].
  - intros q Hq. destruct (F q) as [H|[H|(W & E & E')]].
    + destruct (others_way D N N' H Hq).
    + rewrite H. exact (ag_way A Hq).
    + right. split; [|exact E']. destruct (ag_way A Hq) as [X|[X _]]; congruence.
Qed.

Lemma visible_call t T l c p : nth_error own t = Some T -> nth_error calls t = Some l -> In c l -> In p (looks_at c) -> visible T (seen t) p.
Proof using Type.
  intros N N' Ic Ip. destruct (inside_dec T p) as [H|H]; [now left|]. right. split.
  - exists T, l, c, p. repeat (split; [assumption|]). now left.
  - intros d Id. exists T, l, c, p. repeat (split; [assumption|]). right. exists d. auto.
Qed.

Lemma nclients_inv_step y y' views : nclients_inv y views -> nclients_step y y' -> exists views', nclients_inv y' views'.
Proof using ap.
  intros I [t St].
  assert (P : forall cur rest, nth_error (nc_clients y) t = Some (cur, rest) -> (t < length (nc_clients y))%nat /\
    exists T l v, nth_error own t = Some T /\ nth_error calls t = Some l /\ nth_error views t = Some v).
  { intros cur rest W. assert (L : (t < length (nc_clients y))%nat) by (apply nth_error_Some; congruence). split; [exact L|].
    rewrite (ni_length I) in L.
    destruct (nth_error own t) as [T|] eqn:E1; [|apply nth_error_None in E1; rewrite (ap_length ap) in E1; lia].
    destruct (nth_error calls t) as [l|] eqn:E2; [|apply nth_error_None in E2; lia].
    destruct (nth_error views t) as [v|] eqn:E3; [|apply nth_error_None in E3; rewrite (ni_views I) in E3; lia]. exists T, l, v. auto. }
  destruct St as [c rest W|c f rest W|c o rest W]; destruct (P _ _ W) as (Lt & T & l & v & No & Nl & Nv);
    destruct (@ni_client _ _ I t _ _ _ _ _ No Nl W Nv) as (dn & Hl & Ag & Fr & Hs).
  - destruct Hs as [E S]. exists views. split; cbn [nc_clients nc_log nc_files];
      [rewrite set_nth_length; apply (ni_length I)|apply (ni_views I)| |apply (ni_common I)].
    intros t' T' l' cur' rest' v' No' N' W' V'. destruct (Nat.eq_dec t t') as [<-|D].
    + rewrite set_nth_same in W' by exact Lt. injection W' as <- <-.
      assert (T' = T) as -> by congruence. assert (l' = l) as -> by congruence. assert (v' = v) as -> by congruence.
      exists dn. split; [exact Hl|]. split; [exact Ag|]. split; [exact Fr|]. split; [exact E|].
      assert (Ic : In c l) by (rewrite E; apply in_elt). split.
      * apply nlocal_call.
        -- intros p Ep. exact (ap_work ap No Nl Ic Ep).
        -- intros p Ip. exact (@visible_call _ _ _ _ _ No Nl Ic Ip).
      * exact (nequal_trans (nsteps_alone c v) (ncall_same c S)).
    + rewrite set_nth_other in W' by exact D. exact (@ni_client _ _ I t' _ _ _ _ _ No' N' W' V').
  - destruct Hs as (E & Lc & Rn). inversion Lc as [|f' F1 F2 F3]; subst f'.
    destruct (F1 v (nc_files y) Ag) as (Ef & Af & Pf).
    exists (set_nth t views (fst (f v))). split; cbn [nc_clients nc_log nc_files].
    + rewrite set_nth_length. apply (ni_length I).
    + rewrite set_nth_length. apply (ni_views I).
    + intros t' T' l' cur' rest' v' No' N' W' V'. destruct (Nat.eq_dec t t') as [<-|D].
      * rewrite set_nth_same in W' by exact Lt. injection W' as <- <-.
        rewrite set_nth_same in V' by (apply nth_error_Some; congruence). injection V' as <-.
        assert (T' = T) as -> by congruence. assert (l' = l) as -> by congruence.
        exists dn. split; [exact Hl|]. split; [exact Af|]. split.
        { intros q Nq. destruct (F2 v q) as [H|[H|(Wq & H & H')]]; [contradiction|rewrite H; now apply Fr|].
          rewrite H'. destruct (Fr q Nq) as [X|(_ & X & _)]; right; (split; [exact Wq|split; congruence]). }
        split; [exact E|]. split; [apply F3|]. rewrite <- Ef. revert Rn. cbn [run_nsteps]. destruct (f v). auto.
      * rewrite set_nth_other in W' by exact D. rewrite set_nth_other in V' by exact D.
        destruct (@ni_client _ _ I t' _ _ _ _ _ No' N' W' V') as (dn' & Hl' & Ag' & Hs'). exists dn'. split; [exact Hl'|]. split; [|exact Hs'].
        exact (@others_agreed y views _ _ _ _ _ _ I D No No' (F2 (nc_files y)) Ag').
    + intros q Cq. pose proof (Cq T (nth_error_In _ _ No)) as Nq.
      destruct (F2 (nc_files y) q) as [H|[H|(Wq & H & H')]]; [contradiction| |].
      * rewrite H. destruct (ni_common I Cq) as [X|(X1 & X2 & t' & v' & V' & X3)]; [now left|]. right. split; [exact X1|]. split; [exact X2|].
        destruct (Nat.eq_dec t t') as [<-|D].
        -- exists t, (fst (f v)). split; [apply set_nth_same, nth_error_Some; congruence|]. assert (v' = v) as -> by congruence.
           destruct (F2 v q) as [Y|[Y|(_ & _ & Y)]]; [contradiction|congruence|exact Y].
        -- exists t', v'. split; [now rewrite set_nth_other|exact X3].
      * right. split; [destruct (ni_common I Cq) as [X|(_ & X & _)]; congruence|]. split; [exact H'|].
        exists t, (fst (f v)). split; [apply set_nth_same, nth_error_Some; congruence|]. rewrite <- H'. apply Pf.
        destruct (ag_way Ag Wq) as [X|[_ X]]; congruence.
  - destruct Hs as (E & Lc & [R1 R2]). cbn [run_nsteps fst snd] in R1, R2. exists views.
    split; cbn [nc_clients nc_log nc_files]; [rewrite set_nth_length; apply (ni_length I)|apply (ni_views I)| |apply (ni_common I)].
    intros t' T' l' cur' rest' v' No' N' W' V'. destruct (Nat.eq_dec t t') as [<-|D].
    + rewrite set_nth_same in W' by exact Lt. injection W' as <- <-.
      assert (T' = T) as -> by congruence. assert (l' = l) as -> by congruence. assert (v' = v) as -> by congruence.
      exists (dn ++ [c]). destruct (ncalls_app dn [c] s0) as [B1 B2]. cbn [ncalls_alone fst snd] in B1, B2. split.
      * rewrite own_nlog_same, B2, combine_snoc by (now rewrite ncalls_length). now rewrite Hl, R2.
      * split; [exact Ag|]. split; [exact Fr|]. split; [now rewrite <- app_assoc|]. intros q. rewrite B1. apply R1.
    + rewrite set_nth_other in W' by exact D. rewrite own_nlog_other by congruence. exact (@ni_client _ _ I t' _ _ _ _ _ No' N' W' V').
Qed.

Theorem nclients_reach y : reach nclients_step (nclients_init s0 calls) y -> exists views, nclients_inv y views.
Proof using ap.
  induction 1 as [|y y' _ [views IH] St]; [eexists; apply nclients_inv_init|exact (nclients_inv_step IH St)].
Qed.
End Clients.

Theorem nclients_alone s own calls y : apart s own calls -> reach nclients_step (nclients_init s calls) y ->
  (forall t l, nth_error calls t = Some l -> exists dn rest,
     l = dn ++ rest /\ own_nlog t (nc_log y) = combine dn (snd (ncalls_alone dn s)) /\ (nclients_done y -> rest = [])) /\
  (nclients_done y -> forall t T l q, nth_error own t = Some T -> nth_error calls t = Some l -> inside T q ->
     nc_files y q = fst (ncalls_alone l s) q) /\
  (forall q, common own q -> nc_files y q = s q \/ s q = None /\ nc_files y q = Some NDir) /\
  (nclients_done y -> forall q, common own q ->
     (nc_files y q <> s q <-> exists l, In l calls /\ fst (ncalls_alone l s) q <> s q)).
Proof.
  intros S R. destruct (nclients_reach S R) as [views I].
  assert (N : forall t l, nth_error calls t = Some l -> exists T v cur rest, nth_error own t = Some T /\ nth_error views t = Some v /\
     nth_error (nc_clients y) t = Some (cur, rest)).
  { intros t l E. assert (L : (t < length calls)%nat) by (apply nth_error_Some; congruence).
    destruct (nth_error own t) as [T|] eqn:E1; [|apply nth_error_None in E1; rewrite (ap_length S) in E1; lia].
    destruct (nth_error views t) as [v|] eqn:E2; [|apply nth_error_None in E2; rewrite (ni_views I) in E2; lia].
    destruct (nth_error (nc_clients y) t) as [[cur rest]|] eqn:E3; [|apply nth_error_None in E3; rewrite (ni_length I) in E3; lia].
    exists T, v, cur, rest. auto. }
  assert (Dn : nclients_done y -> forall t T l v, nth_error own t = Some T -> nth_error calls t = Some l -> nth_error views t = Some v ->
    same v (fst (ncalls_alone l s)) /\ agreed T (seen own calls t) v (nc_files y) /\ (forall q, ~ inside T q -> v q = s q \/ way T q /\ s q = None /\ v q = Some NDir)).
  { intros D t T l v E1 E2 E3. destruct (N t l E2) as (_ & _ & cur & rest & _ & _ & W).
    destruct (@ni_client _ _ _ _ _ I t _ _ _ _ _ E1 E2 W E3) as (dn & Hl & Ag & Fr & Hs).
    pose proof (nth_error_In _ _ W) as W'. unfold nclients_done in D. rewrite Forall_forall in D. specialize (D _ W').
    injection D as -> ->. destruct Hs as [-> Sv]. rewrite app_nil_r in *. auto. }
  split; [|split; [|split]].
  - intros t l E. destruct (N t l E) as (T & v & cur & rest & E1 & E2 & W). destruct (@ni_client _ _ _ _ _ I t _ _ _ _ _ E1 E W E2) as (dn & Hl & _ & _ & Hs).
    destruct cur as [[c code]|].
    + exists dn, (c :: rest). split; [apply Hs|]. split; [exact Hl|]. intros D.
      apply nth_error_In in W. unfold nclients_done in D. rewrite Forall_forall in D. specialize (D _ W). discriminate.
    + exists dn, rest. split; [apply Hs|]. split; [exact Hl|]. intros D.
      apply nth_error_In in W. unfold nclients_done in D. rewrite Forall_forall in D. specialize (D _ W). congruence.
  - intros D t T l q E1 E2 Hq. destruct (N t l E2) as (_ & v & _ & _ & _ & E3 & _).
    destruct (Dn D t T l v E1 E2 E3) as (Sv & Ag & _). rewrite <- (Sv q). symmetry. apply (ag_own Ag). now left.
  - intros q Cq. destruct (ni_common I Cq) as [X|(X1 & X2 & _)]; auto.
  - intros D q Cq. split.
    + intros Nq. destruct (ni_common I Cq) as [X|(X1 & X2 & t & v & V & X3)]; [contradiction|].
      assert (L : (t < length calls)%nat) by (rewrite <- (ni_views I); apply nth_error_Some; congruence).
      destruct (nth_error calls t) as [l|] eqn:E; [|apply nth_error_None in E; lia]. exists l. split; [exact (nth_error_In _ _ E)|].
      destruct (N t l E) as (T & _ & _ & _ & E1 & _ & _). destruct (Dn D t T l v E1 E V) as (Sv & _). rewrite <- (Sv q). congruence.
    + intros (l & Il & Nq). apply In_nth_error in Il. destruct Il as [t E]. destruct (N t l E) as (T & v & _ & _ & E1 & E2 & _).
      destruct (Dn D t T l v E1 E E2) as (Sv & Ag & Fr). rewrite <- (Sv q) in Nq.
      pose proof (Cq T (nth_error_In _ _ E1)) as NI. destruct (Fr q NI) as [X|(Wq & X1 & X2)]; [contradiction|].
      destruct (ag_way Ag Wq) as [X|[X _]]; congruence.
Qed.


(** What a client would find at the end. *)
Theorem nclients_final s own calls y : apart s own calls -> reach nclients_step (nclients_init s calls) y -> nclients_done y ->
  forall t l c, nth_error calls t = Some l -> In c l -> works_on c = None ->
  snd (ncall_alone c (nc_files y)) = snd (ncall_alone c (fst (ncalls_alone l s))).
Proof.
  intros S R D t l c E Ic Wc. destruct (nclients_reach S R) as [views I].
  assert (L : (t < length calls)%nat) by (apply nth_error_Some; congruence).
  destruct (nth_error own t) as [T|] eqn:E1; [|apply nth_error_None in E1; rewrite (ap_length S) in E1; lia].
  destruct (nth_error views t) as [v|] eqn:E2; [|apply nth_error_None in E2; rewrite (ni_views I) in E2; lia].
  destruct (nth_error (nc_clients y) t) as [[cur rest]|] eqn:E3; [|apply nth_error_None in E3; rewrite (ni_length I) in E3; lia].
  destruct (@ni_client _ _ _ _ _ I t _ _ _ _ _ E1 E E3 E2) as (dn & Hl & Ag & Fr & Hs).
  pose proof (nth_error_In _ _ E3) as W'. unfold nclients_done in D. rewrite Forall_forall in D. specialize (D _ W').
  injection D as -> ->. destruct Hs as [-> Sv]. rewrite app_nil_r in *.
  rewrite <- (proj2 (ncall_same c Sv)). rewrite <- (proj2 (nsteps_alone c v)), <- (proj2 (nsteps_alone c (nc_files y))).
  symmetry. refine (proj1 (nrun_agreed (T := T) (R := seen own calls t) _ Ag)). apply nlocal_call.
  - intros p Ep. congruence.
  - intros p Ip. exact (@visible_call own calls t T dn c p E1 E Ic Ip).
Qed.

(** *** Every execution ends *)
Lemma ncode_ind2 (P : ncode -> Prop) : (forall o, P (NRet o)) -> (forall f, (forall s, P (snd (f s))) -> P (NAct f)) -> forall p, P p.
Proof. intros H1 H2. fix IH 1. intros [o|f]; [apply H1|apply H2]. intros s. destruct (f s) as [s' p]. apply IH. Qed.
Notation nstate := (option (ncall * ncode) * list ncall)%type.
Inductive nsmaller : nstate -> nstate -> Prop :=
| ns_start c rest : nsmaller (Some (c, steps_of_ncall c), rest) (None, c :: rest)
| ns_act c f s rest : nsmaller (Some (c, snd (f s)), rest) (Some (c, NAct f), rest)
| ns_end c o rest : nsmaller (None, rest) (Some (c, NRet o), rest).
Lemma nsmaller_acc x : Acc nsmaller x.
Proof.
  destruct x as [cur rest]. revert cur.
  assert (S : forall rest, Acc nsmaller (None, rest) -> forall c code, Acc nsmaller (Some (c, code), rest)).
  { intros r H c code. induction code as [o|f IH] using ncode_ind2; constructor; intros y E; inversion E; subst; auto. }
  assert (N : Acc nsmaller (None, rest)).
  { induction rest as [|c rest IH]; constructor; intros y E; inversion E; subst. apply S, IH. }
  intros [[c code]|]; [now apply S|exact N].
Qed.
Inductive none : list nstate -> list nstate -> Prop :=
| none_here x y l : nsmaller x y -> none (x :: l) (y :: l)
| none_later x l l' : none l l' -> none (x :: l) (x :: l').
Lemma none_acc l : Acc none l.
Proof.
  induction l as [|x l IH]; [constructor; intros y H; inversion H|].
  revert l IH. induction (nsmaller_acc x) as [x _ IHx]. intros l IH. induction IH as [l Hl IHl].
  constructor. intros z H. inversion H; subst.
  - apply IHx; [assumption|]. now constructor.
  - apply IHl. assumption.
Qed.
Lemma none_set t l x y : nth_error l t = Some y -> nsmaller x y -> none (set_nth t l x) l.
Proof.
  revert l. induction t as [|t IH]; intros [|z l] H Hs; cbn in *; try discriminate.
  - injection H as ->. now constructor.
  - constructor. now apply IH.
Qed.
Theorem nclients_terminate y : Acc (fun a b => nclients_step b a) y.
Proof.
  remember (nc_clients y) as l eqn:E. revert y E. induction (none_acc l) as [l _ IH]. intros y ->.
  constructor. intros y' [t H]. destruct H; (eapply IH; [|reflexivity]); cbn [nc_clients]; (eapply none_set; [eassumption|constructor]).
Qed.
Theorem nclients_progress y : nclients_done y \/ exists y', nclients_step y y'.
Proof.
  assert (D : Forall (fun x => x = (None, [])) (nc_clients y) \/ exists t x, nth_error (nc_clients y) t = Some x /\ x <> (None, [])).
  { induction (nc_clients y) as [|x l IH]; [left; constructor|].
    assert (X : x = (None, []) \/ x <> (None, [])) by (destruct x as [[|] [|]]; (now left) || (right; discriminate)).
    destruct X as [->|X]; [|right; exists 0%nat, x; auto]. destruct IH as [IH|(t & x & N & X)]; [left; now constructor|].
    right. exists (S t), x. auto. }
  destruct D as [D|(t & [[[c [o|f]]|] rest] & N & X)]; [left; exact D| | |]; right.
  - eexists. exists t. eapply nc_end; eauto.
  - eexists. exists t. eapply nc_act; eauto.
  - destruct rest as [|c rest]; [congruence|]. eexists. exists t. eapply nc_start; eauto.
Qed.
Lemma nclients_return y0 y : reach nclients_step y0 y -> exists y', reach nclients_step y0 y' /\ nclients_done y'.
Proof.
  induction (nclients_terminate y) as [y _ IH]. intros R. destruct (nclients_progress y) as [D|[y' St]]; [eauto|].
  apply (IH y' St). eapply reach_step; eauto.
Qed.

(** *** Running examples *)
Definition nexec_step (y : nclients) (t : nat) : nclients :=
  match nth_error (nc_clients y) t with
  | Some (None, c :: rest) => NClients (nc_files y) (set_nth t (nc_clients y) (Some (c, steps_of_ncall c), rest)) (nc_log y)
  | Some (Some (c, NAct f), rest) =>
      NClients (fst (f (nc_files y))) (set_nth t (nc_clients y) (Some (c, snd (f (nc_files y))), rest)) (nc_log y)
  | Some (Some (c, NRet o), rest) => NClients (nc_files y) (set_nth t (nc_clients y) (None, rest)) (nc_log y ++ [(t, c, o)])
  | _ => y
  end.
Fixpoint nexec (y : nclients) (sched : list nat) : nclients :=
  match sched with [] => y | t :: r => nexec (nexec_step y t) r end.
Lemma nexec_step_ok y t : nexec_step y t = y \/ nclient_step y t (nexec_step y t).
Proof.
  unfold nexec_step. destruct (nth_error (nc_clients y) t) as [[[[c [o|f]]|] rest]|] eqn:E; try (now left).
  - right. now apply nc_end.
  - right. now apply nc_act.
  - destruct rest as [|c rest]; [now left|]. right. now apply nc_start.
Qed.
Lemma nexec_reach sched : forall y0 y, reach nclients_step y0 y -> reach nclients_step y0 (nexec y sched).
Proof.
  induction sched as [|t r IH]; intros y0 y R; cbn [nexec]; [exact R|]. apply IH.
  destruct (nexec_step_ok y t) as [->|S]; [exact R|]. eapply reach_step; [exact R|]. now exists t.
Qed.
(** The files after [n] accesses. *)
Fixpoint nstopped (n : nat) (c : ncode) (s : fsys) : fsys :=
  match n, c with
  | S m, NAct f => nstopped m (snd (f s)) (fst (f s))
  | _, _ => s
  end.
Lemma nstopped_crash n : forall c s, ncrash c s (nstopped n c s).
Proof.
  induction n as [|n IH]; intros c s; cbn [nstopped]; [constructor|]. destruct c as [o|f]; [constructor|]. apply ncrash_later, IH.
Qed.
