(** Proofs about chunk serialisation. *)
From Verif Require Import M_Base M_Bytes M_N5Header M_Format S_Array S_Bytes S_Format P_Base P_Bytes.

Definition widths (w : N) (d : list cell) : Prop := Forall (fun e => lenN e = w) d.

Lemma buffer_widths w n d : buffer_of w n d -> widths w d.
Proof. intros [_ H]. eapply Forall_impl; [|exact H]. cbn. tauto. Qed.

Lemma lenN_concat w d : widths w d -> lenN (concat d) = lenN d * w.
Proof.
  induction 1 as [|e d He H IH]; cbn [concat]; [rewrite !lenN_nil; lia|].
  rewrite lenN_app, lenN_cons, IH, He. lia.
Qed.

Lemma split_concat w d : widths w d -> split_cells (length d) w (concat d) = d.
Proof.
  induction 1 as [|e d He H IH]; cbn [concat split_cells length]; [reflexivity|].
  assert (length e = N.to_nat w) as El by (unfold lenN in He; lia).
  rewrite <- El, firstn_app, Nat.sub_diag, firstn_all, skipn_app, skipn_all, Nat.sub_diag.
  cbn [firstn skipn]. rewrite app_nil_r. cbn [app]. f_equal. exact IH.
Qed.

Lemma split_cells_length n w b : length (split_cells n w b) = n.
Proof. revert b; induction n as [|n IH]; intros b; cbn; [reflexivity|]. now rewrite IH. Qed.

Lemma skipn_concat w d n : widths w d -> skipn (n * N.to_nat w) (concat d) = concat (skipn n d).
Proof.
  intros H. revert n. induction H as [|e d He H IH]; intros n.
  - now rewrite !skipn_nil.
  - destruct n as [|n]; [reflexivity|]. cbn [concat].
    assert (length e = N.to_nat w) as El by (unfold lenN in He; lia).
    cbn [skipn]. rewrite <- IH.
    replace (S n * N.to_nat w)%nat with (length e + n * N.to_nat w)%nat by lia.
    rewrite skipn_app. rewrite (skipn_all2 e) by lia.
    replace (length e + n * N.to_nat w - length e)%nat with (n * N.to_nat w)%nat by lia.
    reflexivity.
Qed.

Lemma widths_skipn w d n : widths w d -> widths w (skipn n d).
Proof. intros H. apply Forall_forall. intros x Hx. unfold widths in H. rewrite Forall_forall in H.
  apply H. rewrite <- (firstn_skipn n d). apply in_or_app. now right. Qed.

Lemma widths_firstn w d n : widths w d -> widths w (firstn n d).
Proof. intros H. apply Forall_forall. intros x Hx. unfold widths in H. rewrite Forall_forall in H.
  apply H. rewrite <- (firstn_skipn n d). apply in_or_app. now left. Qed.

Lemma widths_app w a b : widths w a -> widths w b -> widths w (a ++ b).
Proof. unfold widths. rewrite Forall_app. auto. Qed.

Lemma widths_rev w d : widths w d -> widths w (reverse_endian d).
Proof.
  rewrite reverse_endian_spec. intros H. apply Forall_map. eapply Forall_impl; [|exact H].
  cbn. intros e <-. apply lenN_rev.
Qed.

Lemma overlay_concat w d out : widths w d -> widths w out -> lenN d <= lenN out ->
  overlay (concat d) (concat out) = concat (d ++ skipn (length d) out).
Proof.
  intros Hd Ho Hl. unfold overlay. rewrite concat_app. f_equal.
  assert (length (concat d) = (length d * N.to_nat w)%nat) as ->.
  { pose proof (lenN_concat Hd). unfold lenN in *. nia. }
  now apply skipn_concat.
Qed.

Lemma put_bytes_cells w d out : widths w d -> widths w out -> lenN d <= lenN out ->
  put_bytes w out (concat d) = Ok (d ++ skipn (length d) out).
Proof.
  intros Hd Ho Hl. unfold put_bytes. rewrite (lenN_concat Hd), (lenN_concat Ho).
  destruct (N.leb_spec (lenN d * w) (lenN out * w)); [|nia].
  rewrite (@overlay_concat w) by assumption. f_equal.
  replace (length out) with (length (d ++ skipn (length d) out)).
  - apply split_concat. auto using widths_app, widths_skipn.
  - rewrite app_length, skipn_length. unfold lenN in Hl. lia.
Qed.

(** The payload made from [d] decodes to [d]. *)
Lemma lossless_le n m cd : n <= m -> lossless m cd -> lossless n cd.
Proof. intros H [L|L]; [now left|]. right. intros b B0 B1 B2. apply L; auto. lia. Qed.

Lemma concat_bytes w n d : buffer_of w n d -> Forall is_byte (concat d).
Proof.
  intros [_ H]. apply Forall_forall. intros x Hx. apply in_concat in Hx as (e & He & Hx).
  rewrite Forall_forall in H. destruct (H e He) as [_ B]. rewrite Forall_forall in B. auto.
Qed.

Lemma decompress_compress cd w d out n : lossless (n * w) cd -> buffer_of w n d -> widths w out ->
  lenN d <= lenN out -> n * w < W64 -> 0 < n * w ->
  exists b, compress cd d n = Ok b /\
    decompress cd w b out n = Ok (d ++ skipn (length d) out).
Proof.
  intros Hc Hd' Ho Hl Hw Hp. pose proof (concat_bytes Hd') as Hb. pose proof (buffer_widths Hd') as Hd.
  destruct Hd' as [Hn _]. unfold compress, decompress.
  destruct (N.ltb_spec (lenN d) n); [lia|].
  assert (firstn (N.to_nat n) d = d) as ->.
  { apply firstn_all2. unfold lenN in Hn. lia. }
  rewrite mulw_small by assumption.
  destruct (cd_raw cd) eqn:Er.
  - eexists. split; [reflexivity|]. rewrite (lenN_concat Hd). destruct (N.ltb_spec (n * w) (lenN d * w)); [nia|].
    now apply put_bytes_cells.
  - destruct Hc as [Hc|Hc]; [congruence|].
    destruct (Hc (concat d)) as (e & Ee & De); rewrite ?(lenN_concat Hd), ?Hn; try assumption; try lia.
    exists e. split; [exact Ee|]. rewrite (lenN_concat Hd), Hn in De.
    rewrite De. cbn [bind]. now apply put_bytes_cells.
Qed.

Lemma rev_endian_involutive d : reverse_endian (reverse_endian d) = d.
Proof.
  rewrite !reverse_endian_spec, map_map. rewrite <- (map_id d) at 2. apply map_ext. apply rev_involutive.
Qed.

Lemma lenN_rev_endian d : lenN (reverse_endian d) = lenN d.
Proof. unfold lenN. rewrite reverse_endian_spec, map_length. reflexivity. Qed.

Lemma firstn_exact {A} (d : list A) n : lenN d = n -> firstn (N.to_nat n) d = d.
Proof. intros H. apply firstn_all2. unfold lenN in H. lia. Qed.

Lemma firstn_app_exact {A} (d r : list A) n : lenN d = n -> firstn (N.to_nat n) (d ++ r) = d.
Proof.
  intros H. unfold lenN in H. rewrite firstn_app, firstn_all2 by lia.
  replace (N.to_nat n - length d)%nat with 0%nat by lia. cbn. apply app_nil_r.
Qed.

Lemma skipn_app_exact {A} (d r : list A) n : lenN d = n -> skipn (N.to_nat n) (d ++ r) = r.
Proof.
  intros H. unfold lenN in H. rewrite skipn_app, skipn_all2 by lia.
  replace (N.to_nat n - length d)%nat with 0%nat by lia. reflexivity.
Qed.

(** n5 payloads: header, big endian elements, codec. *)
Lemma n5_format_roundtrip cd t sh (vl : bool) k data :
  lossless (k * t_width t) cd -> header_ok sh (if vl then k else 0) -> prod sh < W64 ->
  buffer_of (t_width t) k data -> (vl = false -> k = prod sh) -> k * t_width t < W64 -> 0 < k * t_width t ->
  exists b, data_to_n5_format cd (t_width t) data k sh vl = Ok b /\
    forall defshape out, widths (t_width t) out -> k <= lenN out ->
      buffer_to_data false t cd defshape b out = Ok (vl, data ++ skipn (length data) out).
Proof.
  intros Hc Hh Hp Hd Hk Hw H0. set (w := t_width t) in *.
  unfold data_to_n5_format.
  set (dd := if 1 <? w then reverse_endian data else data).
  assert (Hdd : buffer_of w k dd).
  { unfold dd. destruct (1 <? w); [|exact Hd]. destruct Hd as [L F]. split; [now rewrite lenN_rev_endian|].
    rewrite reverse_endian_spec. apply Forall_map. eapply Forall_impl; [|exact F]. cbn. intros e [H1 H2].
    split; [now rewrite lenN_rev|now apply Forall_rev]. }
  pose proof (proj1 Hd) as Hl. pose proof (proj1 Hdd) as Hddl.
  assert (E : (if 1 <? w
     then if lenN data <? k then UB
          else compress cd (reverse_endian (firstn (N.to_nat k) data)) k
     else compress cd data k) = compress cd dd k).
  { unfold dd. destruct (1 <? w); [|reflexivity]. destruct (N.ltb_spec (lenN data) k); [lia|].
    now rewrite firstn_exact. }
  rewrite E.
  assert (exists b, compress cd dd k = Ok b) as [b Eb].
  { destruct (@decompress_compress cd w dd dd k) as (b & Eb & _); eauto using buffer_widths; lia. }
  rewrite Eb. cbn [bind]. eexists. split; [reflexivity|].
  intros defshape out Ho Hol. unfold buffer_to_data.
  assert (read_n5_header (write_n5_header sh vl k ++ b) =
          Ok (vl, k, lenN (write_n5_header sh vl k))) as ->.
  { destruct vl; [now apply (@n5_header_roundtrip sh true k b)|].
    rewrite Hk by reflexivity. exact (@n5_header_roundtrip sh false 0 b Hh Hp). }
  cbn [bind]. rewrite skipn_app_exact by reflexivity.
  destruct (@decompress_compress cd w dd out k) as (b' & Eb' & Ed); try assumption; [lia|].
  rewrite Eb in Eb'. injection Eb' as <-. fold w. rewrite Ed. cbn [bind negb andb].
  unfold dd in *. destruct (1 <? w).
  - unfold reverse_first. rewrite lenN_app. destruct (N.ltb_spec (lenN (reverse_endian data) + lenN (skipn (length (reverse_endian data)) out)) k); [lia|].
    cbn [bind]. rewrite firstn_app_exact, skipn_app_exact by assumption.
    rewrite rev_endian_involutive. rewrite reverse_endian_spec, map_length. reflexivity.
  - reflexivity.
Qed.

Lemma all_equal_spec t fill data :
  forallb (fun v => elem_eq t v fill) data = true <-> Forall (fun v => elem_eq t v fill = true) data.
Proof. rewrite forallb_forall, Forall_forall. reflexivity. Qed.

Theorem zarr_roundtrip t cd fill defshape bshape data :
  0 < t_width t -> lossless (prod defshape * t_width t) cd -> prod defshape * t_width t < W64 -> prod defshape < W64 ->
  buffer_of (t_width t) (prod defshape) data ->
  (Forall (fun v => elem_eq t v fill = true) data ->
   data_to_buffer true t cd fill defshape bshape data false 0 = Ok None) /\
  (~ Forall (fun v => elem_eq t v fill = true) data ->
   exists b, data_to_buffer true t cd fill defshape bshape data false 0 = Ok (Some b) /\
     forall out, buffer_of (t_width t) (prod defshape) out ->
       buffer_to_data true t cd defshape b out = Ok (false, data)).
Proof.
  intros H0 Hc Hw Hp Hd'. pose proof (buffer_widths Hd') as Hdw. pose proof (proj1 Hd') as Hl.
  unfold data_to_buffer. cbn [andb negb]. rewrite prodw_small by assumption.
  destruct (N.ltb_spec (lenN data) (prod defshape)); [lia|].
  rewrite firstn_exact by assumption. rewrite <- all_equal_spec.
  destruct (forallb _ data) eqn:Ea; split; intros Hf; try congruence.
  assert (0 < prod defshape) by (destruct data; [exfalso; discriminate Ea|rewrite lenN_cons in Hl; lia]).
  assert (exists b, compress cd data (prod defshape) = Ok b) as [b Eb].
  { destruct (@decompress_compress cd (t_width t) data data (prod defshape)) as (b & Eb & _); eauto; nia. }
  rewrite Eb. cbn [bind]. exists b. split; [reflexivity|].
  intros out Ho. pose proof (buffer_widths Ho) as How. destruct Ho as [Hol _].
  unfold buffer_to_data. rewrite prodw_small by assumption. cbn [bind].
  destruct (@decompress_compress cd (t_width t) data out (prod defshape)) as (b' & Eb' & Ed); try assumption; [lia|nia|].
  rewrite Eb in Eb'. injection Eb' as <-.
  change (skipn (N.to_nat 0) b) with b. rewrite Ed. cbn [bind negb andb].
  rewrite skipn_all2 by (unfold lenN in *; lia). now rewrite app_nil_r.
Qed.

Theorem n5_roundtrip t cd fill defshape bshape data :
  0 < t_width t -> lossless (prod bshape * t_width t) cd -> header_ok bshape 0 ->
  prod bshape * t_width t < W64 -> prod bshape < W64 ->
  buffer_of (t_width t) (prod bshape) data ->
  (Forall (fun v => elem_eq t v fill = true) data ->
   data_to_buffer false t cd fill defshape bshape data false 0 = Ok None) /\
  (~ Forall (fun v => elem_eq t v fill = true) data ->
   exists b, data_to_buffer false t cd fill defshape bshape data false 0 = Ok (Some b) /\
     forall out, buffer_of (t_width t) (prod bshape) out ->
       buffer_to_data false t cd defshape b out = Ok (false, data)).
Proof.
  intros H0 Hc Hh Hw Hp Hd'. pose proof (buffer_widths Hd') as Hdw. pose proof (proj1 Hd') as Hl.
  unfold data_to_buffer. cbn [andb negb]. rewrite prodw_small by assumption.
  destruct (N.ltb_spec (lenN data) (prod bshape)); [lia|].
  rewrite firstn_exact by assumption. rewrite <- all_equal_spec.
  destruct (forallb _ data) eqn:Ea; split; intros Hf; try congruence.
  assert (0 < prod bshape) by (destruct data; [exfalso; discriminate Ea|rewrite lenN_cons in Hl; lia]).
  destruct (@n5_format_roundtrip cd t bshape false (prod bshape) data) as (b & Eb & Hb); auto; [nia|].
  rewrite Eb. cbn [bind]. exists b. split; [reflexivity|].
  intros out Ho. pose proof (buffer_widths Ho) as How. destruct Ho as [Hol _].
  rewrite Hb by (auto; lia).
  rewrite skipn_all2 by (unfold lenN in *; lia). now rewrite app_nil_r.
Qed.

Theorem n5_varlen_roundtrip t cd fill defshape bshape data k :
  0 < t_width t -> lossless (k * t_width t) cd -> header_ok bshape k -> prod bshape < W64 ->
  k * t_width t < W64 -> buffer_of (t_width t) k data -> 0 < k ->
  exists b, data_to_buffer false t cd fill defshape bshape data true k = Ok (Some b) /\
    forall m out, buffer_of (t_width t) m out -> k <= m ->
      exists rest, buffer_to_data false t cd defshape b out = Ok (true, data ++ rest) /\
        out = firstn (N.to_nat k) out ++ rest.
Proof.
  intros H0 Hc Hh Hp Hw Hd' Hk. pose proof (buffer_widths Hd') as Hdw. pose proof (proj1 Hd') as Hl.
  unfold data_to_buffer. cbn [andb negb].
  destruct (N.ltb_spec (lenN data) k); [lia|]. destruct (N.eqb_spec k 0); [lia|].
  destruct (@n5_format_roundtrip cd t bshape true k data) as (b & Eb & Hb); auto; [discriminate|nia|].
  rewrite Eb. cbn [bind]. exists b. split; [reflexivity|].
  intros m out Ho Hm. pose proof (buffer_widths Ho) as How. destruct Ho as [Hol _].
  exists (skipn (length data) out). rewrite Hb by (auto; lia). split; [reflexivity|].
  replace (length data) with (N.to_nat k) by (unfold lenN in *; lia).
  symmetry. apply firstn_skipn.
Qed.

Theorem n5_varlen_empty t cd fill defshape bshape data :
  data_to_buffer false t cd fill defshape bshape data true 0 = Ok None.
Proof.
  unfold data_to_buffer. cbn [andb negb]. destruct (N.ltb_spec (lenN data) 0); [lia|]. reflexivity.
Qed.

Theorem zarr_varlen_rejected t cd fill defshape bshape data k :
  data_to_buffer true t cd fill defshape bshape data true k = Throw ERuntime.
Proof. reflexivity. Qed.

(** ** Safety of decoding arbitrary bytes *)

Lemma put_bytes_safe w m out b : buffer_of w m out -> Forall is_byte b -> lenN b <= m * w ->
  exists out', put_bytes w out b = Ok out' /\ buffer_of w m out'.
Proof.
  intros Ho Hb Hl. pose proof (buffer_widths Ho) as How. destruct Ho as [Hm Hbytes].
  unfold put_bytes. rewrite (lenN_concat How). destruct (N.leb_spec (lenN b) (lenN out * w)); [|nia].
  eexists. split; [reflexivity|]. split.
  - unfold lenN. rewrite split_cells_length. exact Hm.
  - assert (L : lenN (overlay b (concat out)) = lenN out * w).
    { unfold overlay, lenN. rewrite app_length, skipn_length.
      pose proof (lenN_concat How) as E. unfold lenN in *. lia. }
    assert (B : Forall is_byte (overlay b (concat out))).
    { unfold overlay. apply Forall_app. split; [exact Hb|].
      apply Forall_forall. intros x Hx.
      assert (In x (concat out)) as Hin.
      { rewrite <- (firstn_skipn (length b) (concat out)). apply in_or_app. now right. }
      apply in_concat in Hin as (e & He & Hx'). rewrite Forall_forall in Hbytes.
      destruct (Hbytes e He) as [_ Hbe]. rewrite Forall_forall in Hbe. auto. }
    clear -L B. revert L B. generalize (overlay b (concat out)) as x. clear b.
    induction out as [|e out IH]; intros x L B; cbn [split_cells length]; [constructor|].
    rewrite lenN_cons in L. constructor.
    + split.
      * unfold lenN in *. rewrite firstn_length. nia.
      * apply Forall_forall. intros y Hy. rewrite Forall_forall in B. apply B.
        rewrite <- (firstn_skipn (N.to_nat w) x). apply in_or_app. now left.
    + apply IH.
      * unfold lenN in *. rewrite skipn_length. nia.
      * apply Forall_forall. intros y Hy. rewrite Forall_forall in B. apply B.
        rewrite <- (firstn_skipn (N.to_nat w) x). apply in_or_app. now right.
Qed.

Lemma decompress_safe cd w m out payload n : safe_codec w cd ->
  buffer_of w m out -> Forall is_byte payload -> mulw n w <= m * w ->
  (exists out', decompress cd w payload out n = Ok out' /\ buffer_of w m out') \/
  exists e, decompress cd w payload out n = Throw e.
Proof.
  intros Hc Ho Hp Hn. unfold decompress.
  destruct (cd_raw cd) eqn:Er.
  - destruct (N.ltb_spec (mulw n w) (lenN payload)); [right; eexists; reflexivity|].
    left. apply put_bytes_safe; auto. lia.
  - destruct Hc as [Hc|Hc]; [congruence|]. specialize (Hc payload n Hp).
    destruct (cd_dec cd payload (mulw n w)) as [r|e|] eqn:Ed; [|right; eexists; reflexivity|easy].
    destruct Hc as [Hc Hb]. left. cbn [bind]. apply put_bytes_safe; eauto. lia.
Qed.

Lemma Forall_skipn {A} (P : A -> Prop) n l : Forall P l -> Forall P (skipn n l).
Proof. intros H. apply Forall_forall. intros x Hx. rewrite Forall_forall in H. apply H.
  rewrite <- (firstn_skipn n l). apply in_or_app. now right. Qed.

Lemma Forall_firstn {A} (P : A -> Prop) n l : Forall P l -> Forall P (firstn n l).
Proof. intros H. apply Forall_forall. intros x Hx. rewrite Forall_forall in H. apply H.
  rewrite <- (firstn_skipn n l). apply in_or_app. now left. Qed.

Lemma mulw_le a b : mulw a b <= a * b.
Proof. unfold mulw. apply N.mod_le. discriminate. Qed.

Lemma reverse_first_safe w m n out : buffer_of w m out -> n <= m ->
  exists out', reverse_first n out = Ok out' /\ buffer_of w m out'.
Proof.
  intros [Hm Hb] Hn. unfold reverse_first. destruct (N.ltb_spec (lenN out) n); [lia|].
  eexists. split; [reflexivity|]. split.
  - rewrite lenN_app, lenN_rev_endian. unfold lenN in *. rewrite firstn_length, skipn_length. lia.
  - apply Forall_app. split; [|now apply Forall_skipn].
    rewrite reverse_endian_spec. apply Forall_map. apply Forall_firstn with (n := N.to_nat n) in Hb.
    eapply Forall_impl; [|exact Hb]. cbn. intros e [H1 H2]. split; [now rewrite lenN_rev|].
    now apply Forall_rev.
Qed.

Theorem zarr_decode_safe t cd defshape b out : safe_codec (t_width t) cd -> Forall is_byte b ->
  prod defshape < W64 -> buffer_of (t_width t) (prod defshape) out ->
  (exists out', buffer_to_data true t cd defshape b out = Ok (false, out') /\
     buffer_of (t_width t) (prod defshape) out') \/
  exists e, buffer_to_data true t cd defshape b out = Throw e.
Proof.
  intros Hc Hb Hp Ho. unfold buffer_to_data. cbn [bind]. rewrite prodw_small by assumption.
  change (skipn (N.to_nat 0) b) with b.
  destruct (@decompress_safe cd (t_width t) (prod defshape) out b (prod defshape)) as [(o & E & H)|(e & E)]; auto.
  { apply mulw_le. }
  - left. rewrite E. cbn [bind negb andb]. eauto.
  - right. rewrite E. eexists; reflexivity.
Qed.

Theorem n5_decode_safe t cd defshape b m out : safe_codec (t_width t) cd -> Forall is_byte b ->
  buffer_of (t_width t) m out ->
  (forall vl n h, read_n5_header b = Ok (vl, n, h) -> n <= m) ->
  (exists vl out', buffer_to_data false t cd defshape b out = Ok (vl, out') /\
     buffer_of (t_width t) m out') \/
  exists e, buffer_to_data false t cd defshape b out = Throw e.
Proof.
  intros Hc Hb Ho Hn. unfold buffer_to_data.
  destruct (n5_header_safe b) as [(vl & n & h & E & Hh)|E]; rewrite E; [|right; eexists; reflexivity].
  specialize (Hn _ _ _ E). cbn [bind].
  destruct (@decompress_safe cd (t_width t) m out (skipn (N.to_nat h) b) n) as [(o & Ed & H)|(e & Ed)]; auto.
  { now apply Forall_skipn. }
  { eapply N.le_trans; [apply mulw_le|]. nia. }
  - rewrite Ed. cbn [bind negb andb]. destruct (1 <? t_width t).
    + destruct (@reverse_first_safe (t_width t) m n o) as (o' & -> & Ho'); auto. cbn [bind]. left; eauto.
    + cbn [bind]. left; eauto.
  - right. rewrite Ed. eexists; reflexivity.
Qed.

(** ** Elision *)

Lemma value_inj w a b : lenN a = w -> lenN b = w -> Forall is_byte a -> Forall is_byte b ->
  of_le_bytes a = of_le_bytes b -> a = b.
Proof.
  intros Ha Hb Ba Bb E. rewrite <- (@le_of_le a Ba), <- (@le_of_le b Bb), E.
  f_equal. unfold lenN in *. lia.
Qed.

Lemma int_eq_exact t a b : t_float t = false -> lenN a = t_width t -> lenN b = t_width t ->
  Forall is_byte a -> Forall is_byte b -> (elem_eq t a b = true <-> a = b).
Proof.
  intros Hf Ha Hb Ba Bb. unfold elem_eq. rewrite Hf. rewrite N.eqb_eq. split; [|congruence].
  intros E. now apply (@value_inj (t_width t)).
Qed.

Theorem elided_exact t (zarr : bool) cd fill defshape bshape data n :
  t_float t = false -> lenN fill = t_width t -> Forall is_byte fill ->
  n = prod (if zarr then defshape else bshape) -> n < W64 ->
  buffer_of (t_width t) n data ->
  data_to_buffer zarr t cd fill defshape bshape data false 0 = Ok None ->
  data = repeat fill (N.to_nat n).
Proof.
  intros Hf Hfl Hfb Hn Hw [Hl Hd]. unfold data_to_buffer. cbn [andb negb].
  replace (if zarr then prodw defshape else prodw bshape) with n.
  2: { destruct zarr; subst n; now rewrite prodw_small. }
  destruct (N.ltb_spec (lenN data) n); [lia|]. rewrite firstn_exact by assumption.
  destruct (forallb _ data) eqn:E.
  - intros _. apply all_equal_spec in E.
    assert (H1 : Forall (fun v => v = fill) data).
    { rewrite Forall_forall in Hd, E |- *. intros v Hv. specialize (E v Hv). destruct (Hd v Hv).
      now apply int_eq_exact in E. }
    clear -H1 Hl. subst n. unfold lenN. rewrite Nat2N.id.
    induction H1 as [|v d -> H IH]; cbn; [reflexivity|]. f_equal. exact IH.
  - intros Hx. exfalso. destruct zarr.
    + destruct (compress _ _ _); cbn in Hx; discriminate.
    + destruct (data_to_n5_format _ _ _ _ _ _); cbn in Hx; discriminate.
Qed.
