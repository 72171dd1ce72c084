(** Libraries that keep the promises of S_Codec.v: each stores its input behind a
    tag.  They show that the hypotheses of the theorems about compressors can be met,
    and serve as counterexamples. *)
From Coq Require Import String.
From Verif Require Import M_Base M_Bytes M_Format M_Metadata M_Codec S_Array S_Bytes S_Format S_Metadata S_Codec P_Base P_Bytes
  P_Format P_Codec.
Import List ListNotations.
Local Open Scope list_scope.
Local Open Scope N_scope.

Definition tag (f : bool) : N := if f then 1 else 2.
Definition tagged (t : N) (e b : bytes) : Prop := e = t :: b.

(** zlib *)
Definition toy_zlib : zlib_lib := ZlibLib
  (fun _ lv => (-1 <=? lv)%Z && (lv <=? 9)%Z)
  (fun _ _ n => n + 1)
  (fun f _ _ b room => if lenN b + 1 <=? room then (AnsEnd, tag f :: b) else (AnsOther, []))
  (Some tt)
  (fun _ _ inp room =>
     match inp with
     | t :: b => if ((t =? 1) || (t =? 2)) && (lenN b <=? room) then (tt, lenN inp, b, AnsEnd) else (tt, 0, [], AnsOther)
     | [] => (tt, 0, [], AnsOther)
     end)
  (fun _ _ => 0%nat).
Lemma toy_zlib_ok : zlib_contract toy_zlib (fun f => tagged (tag f)).
Proof.
  split.
  - intros f lv H. cbn. lia.
  - intros f lv b room B ret out. cbn. destruct (N.leb_spec (lenN b + 1) room); intros E; injection E as <- <-.
    + rewrite lenN_cons. repeat split; auto; try lia. constructor; [destruct f; unfold is_byte; cbn; lia|assumption].
    + rewrite lenN_nil. repeat split; auto; try lia; try discriminate.
  - exists tt. split; [reflexivity|]. intros f e b room -> B L. exists tt. cbn.
    assert ((tag f =? 1) || (tag f =? 2) = true) as -> by now destruct f.
    destruct (N.leb_spec (lenN b) room); [reflexivity|lia].
  - intros s act inp room s' used out ret B E. cbn in E. destruct inp as [|t b].
    + injection E as <- <- <- <-. rewrite !lenN_nil. repeat split; auto; try lia; discriminate.
    + destruct (_ && _) eqn:X; injection E as <- <- <- <-.
      * apply andb_prop in X as [_ X]. inversion B; subst. repeat split; auto; try lia; discriminate.
      * rewrite lenN_nil. repeat split; auto; try lia; discriminate.
Qed.

(** libdeflate *)
Definition toy_deflate : deflate_lib := DeflateLib
  (fun lv => (1 <=? lv)%Z && (lv <=? 12)%Z) true (fun _ _ n => n + 1)
  (fun f _ b room => if lenN b + 1 <=? room then tag f :: b else [])
  (fun f e room => match e with
                   | t :: b => if (t =? tag f) && (lenN b <=? room) then (true, b) else (false, [])
                   | [] => (false, [])
                   end).
Lemma toy_deflate_ok : deflate_contract toy_deflate (fun f => tagged (tag f)).
Proof.
  split.
  - intros lv H. cbn. lia.
  - reflexivity.
  - intros f lv b room B. cbn. destruct (N.leb_spec (lenN b + 1) room).
    + rewrite lenN_cons. repeat split; auto; try lia; try discriminate.
      constructor; [destruct f; unfold is_byte; cbn; lia|assumption].
    + rewrite lenN_nil. repeat split; auto; try lia; try congruence.
  - intros f e b room -> B L. cbn. rewrite N.eqb_refl. destruct (N.leb_spec (lenN b) room); [|lia].
    split; [reflexivity|]. now destruct f.
  - intros f e room B. cbn. destruct e as [|t b]; [cbn [snd]; rewrite lenN_nil; split; [lia|constructor]|].
    destruct (_ && _) eqn:X; cbn [snd]; [|rewrite lenN_nil; split; [lia|constructor]]. apply andb_prop in X as [_ X]. inversion B. split; [lia|assumption].
Qed.

(** bzip2 that insists on [need] bytes of room *)
Definition toy_bzip2 (need : N -> N) : bzip2_lib := Bzip2Lib
  (fun lv => (1 <=? lv)%Z && (lv <=? 9)%Z)
  (fun _ b room => if (need (lenN b) <=? room) && (lenN b + 1 <=? room) then (AnsEnd, 3 :: b) else (AnsOther, []))
  true
  (fun e room => match e with
                 | t :: b => if (t =? 3) && (lenN b <=? room) then (AnsEnd, b) else (AnsOther, [])
                 | [] => (AnsOther, [])
                 end).
Lemma toy_bzip2_ok need : (forall n, n + 1 <= need n) -> bzip2_contract (toy_bzip2 need) (tagged 3) need.
Proof.
  intros Hn. split.
  - intros lv H. cbn. lia.
  - intros lv b room B ret out. cbn. specialize (Hn (lenN b)).
    destruct (N.leb_spec (need (lenN b)) room), (N.leb_spec (lenN b + 1) room); cbn; intros E; injection E as <- <-;
      rewrite ?lenN_cons, ?lenN_nil; repeat split; auto; try lia; try discriminate.
    constructor; [unfold is_byte; lia|assumption].
  - reflexivity.
  - intros e b room -> B L. cbn. destruct (N.leb_spec (lenN b) room); [reflexivity|lia].
  - intros e room B. cbn. destruct e as [|t b]; [cbn [snd]; rewrite lenN_nil; split; [lia|constructor]|].
    destruct (_ && _) eqn:X; cbn [snd]; [|rewrite lenN_nil; split; [lia|constructor]]. apply andb_prop in X as [_ X]. inversion B. split; [lia|assumption].
Qed.

(** liblzma: the encoder keeps what does not fit into the room; the decoder needs one
    more call after it has written everything. *)
Definition toy_xz : xz_lib := XzLib
  (fun lv => if (0 <=? lv)%Z && (lv <=? 9)%Z then Some [5] else None)
  (fun s act inp room =>
     let pending := s ++ inp in
     let out := map (fun x => x mod 256) (firstn (N.to_nat room) pending) in
     let s' := skipn (N.to_nat room) pending in
     match act, inp with
     | Run, _ :: _ => (s', lenN inp, out, AnsOk)
     | Finish, [] => if room =? 0 then (s, 0, [], AnsOther)
                     else (s', 0, out, match s' with [] => AnsEnd | _ => AnsOk end)
     | _, _ => (s, 0, [], AnsOther)
     end)
  (fun s inp => (length s + 2 * length inp)%nat)
  (Some false)
  (fun s act inp room =>
     match s, inp with
     | false, t :: b => if (t =? 5) && (lenN b <=? room) then (true, lenN inp, b, AnsOk) else (s, 0, [], AnsOther)
     | true, [] => (s, 0, [], AnsEnd)
     | _, _ => (s, 0, [], AnsOther)
     end)
  (fun s inp => if s then 0%nat else 1%nat).
Definition toy_enc (s fed out : bytes) : Prop := Forall is_byte s /\ out ++ s = 5 :: fed.
Definition toy_dec (s : bool) (e b : bytes) : Prop :=
  match s with true => e = [] /\ b = [] | false => e = 5 :: b end.
Lemma mod_bytes l : Forall is_byte l -> map (fun x => x mod 256) l = l.
Proof. induction 1 as [|x l H _ IH]; [reflexivity|]. cbn. rewrite N.mod_small by assumption. congruence. Qed.
Lemma mod_is_bytes l : Forall is_byte (map (fun x => x mod 256) l).
Proof. apply Forall_map. apply Forall_forall. intros x _. unfold is_byte. lia. Qed.

Lemma toy_xz_ok : @xz_contract toy_xz (tagged 5) toy_enc toy_dec.
Proof.
  split.
  - intros lv H. cbn. destruct (Z.leb_spec 0 lv), (Z.leb_spec lv 9); cbn; try lia; discriminate.
  - intros lv s. cbn. destruct (_ && _); [|discriminate]. intros E. injection E as <-. split; [|reflexivity].
    repeat constructor.
  - intros s fed out act inp room s' used new ret [BS D] B P U E. unfold toy_enc in *. cbn in E.
    rewrite mod_bytes in E by (apply Forall_firstn, Forall_app; now split).
    destruct act, inp as [|x inp]; cbn in U; try congruence; try discriminate.
    + injection E as <- <- <- <-. split; [discriminate|]. split; [|discriminate]. intros _.
      split; [apply Forall_skipn, Forall_app; now split|].
      rewrite (firstn_all2 (n := N.to_nat (lenN (x :: inp)))) by (unfold lenN; lia).
      rewrite <- app_assoc, firstn_skipn, app_assoc, D. reflexivity.
    + destruct (N.eqb_spec room 0); [lia|]. rewrite app_nil_r in E.
      injection E as <- <- <- <-. split; [destruct (skipn _ _); discriminate|]. split.
      * intros _. split; [now apply Forall_skipn|]. rewrite <- app_assoc, firstn_skipn, D. rewrite firstn_nil, app_nil_r. reflexivity.
      * intros X. unfold tagged. rewrite app_nil_r. destruct (skipn (N.to_nat room) s) eqn:Es; [|discriminate].
        rewrite <- D. f_equal. rewrite <- (firstn_skipn (N.to_nat room) s) at 2. rewrite Es. now rewrite app_nil_r.
  - intros s act inp room s' used out ret B E. cbn in E.
    assert (L : forall p : bytes, lenN (map (fun x => x mod 256) (firstn (N.to_nat room) p)) <= room).
    { intros p. unfold lenN. rewrite map_length, firstn_length. lia. }
    destruct act, inp as [|x inp].
    + injection E as <- <- <- <-. rewrite !lenN_nil. repeat split; auto; try lia; discriminate.
    + injection E as <- <- <- <-. split; [lia|]. split; [apply L|]. split; [apply mod_is_bytes|]. intros _. cbn [xz_eleft toy_xz].
      rewrite skipn_length, app_length. rewrite (skipn_all2 (n := N.to_nat (lenN (x :: inp)))) by (unfold lenN; lia). cbn. lia.
    + destruct (N.eqb_spec room 0) as [->|]; injection E as <- <- <- <-.
      * rewrite !lenN_nil. repeat split; auto; try lia; discriminate.
      * split; [lia|]. split; [apply L|]. split; [apply mod_is_bytes|]. rewrite app_nil_r. cbn [xz_eleft toy_xz].
        intros X. rewrite skipn_nil, skipn_length. destruct s as [|y s]; [now rewrite skipn_nil in X|]. cbn [length]. lia.
    + injection E as <- <- <- <-. rewrite !lenN_nil. repeat split; auto; try lia; discriminate.
  - exists false. split; [reflexivity|]. intros e b -> _. reflexivity.
  - intros s e b act room s' used new ret D B L U E. cbn in E. destruct s; cbn in D.
    + destruct D as [-> ->]. injection E as <- <- <- <-. repeat split; auto; discriminate.
    + subst e. cbn in E. destruct (N.leb_spec (lenN b) room); [|lia]. injection E as <- <- <- <-.
      split; [reflexivity|]. split; [discriminate|]. intros _. cbn.
      rewrite skipn_all2; [now split|]. unfold lenN. cbn. lia.
  - intros s act inp room s' used out ret B E. cbn in E. destruct s, inp as [|t b].
    + injection E as <- <- <- <-. rewrite !lenN_nil. repeat split; auto; try lia; discriminate.
    + injection E as <- <- <- <-. rewrite !lenN_nil. repeat split; auto; try lia; discriminate.
    + injection E as <- <- <- <-. rewrite !lenN_nil. repeat split; auto; try lia; discriminate.
    + destruct (_ && _) eqn:X; injection E as <- <- <- <-.
      * apply andb_prop in X as [_ X]. inversion B; subst. repeat split; auto; try lia.
      * rewrite !lenN_nil. repeat split; auto; try lia; discriminate.
  - intros e b -> . discriminate.
Qed.

(** lz4 *)
Definition toy_lz4 : lz4_lib := Lz4Lib
  (fun n => n + 1)
  (fun b room => if (lenN b + 1 <=? room) && (0 <? lenN b) then 6 :: b else [])
  (fun e n room => match e with
                   | t :: b => if (t =? 6) && (n =? Z.of_N (lenN e))%Z && (Z.of_N (lenN b) <=? room)%Z then b else []
                   | [] => []
                   end).
Lemma toy_lz4_ok : lz4_contract toy_lz4 (tagged 6).
Proof.
  split.
  - intros b room B. cbn. destruct (N.leb_spec (lenN b + 1) room), (N.ltb_spec 0 (lenN b)); cbn;
      rewrite ?lenN_cons, ?lenN_nil; repeat split; auto; try lia; try congruence.
    constructor; [unfold is_byte; lia|assumption].
  - intros n H. cbn. unfold lz4_max_input in H. lia.
  - intros e b room -> B L1 L2. cbn. rewrite Z.eqb_refl. destruct (Z.leb_spec (Z.of_N (lenN b)) room); [reflexivity|lia].
  - intros e n room B L. cbn. destruct e as [|t b]; [rewrite lenN_nil; split; [lia|constructor]|].
    destruct (_ && _) eqn:X; [|rewrite lenN_nil; split; [lia|constructor]].
    apply andb_prop in X as [_ X]. inversion B. split; [lia|assumption].
Qed.

(** zstd *)
Definition toy_zstd : zstd_lib := ZstdLib
  (fun n => n + 1)
  (fun _ b room => if lenN b + 1 <=? room then Some (7 :: b) else None)
  (fun e room => match e with t :: b => if (t =? 7) && (lenN b <=? room) then Some b else None | [] => None end).
Lemma toy_zstd_ok : zstd_contract toy_zstd (tagged 7) (2 ^ 64).
Proof.
  split.
  - intros lv b room e B. cbn. destruct (N.leb_spec (lenN b + 1) room); [|discriminate]. intros E. injection E as <-.
    rewrite lenN_cons. repeat split; try lia. constructor; [unfold is_byte; lia|assumption].
  - intros lv b room B L R. cbn in *. destruct (N.leb_spec (lenN b + 1) room); [discriminate|lia].
  - intros e b room -> B L. cbn. destruct (N.leb_spec (lenN b) room); [reflexivity|lia].
  - intros e room out B. cbn. destruct e as [|t b]; [discriminate|]. destruct (_ && _) eqn:X; [|discriminate].
    intros E. injection E as <-. apply andb_prop in X as [_ X]. inversion B. split; [lia|assumption].
Qed.

(** blosc: a header of 16 bytes, the first eight of which are the size. *)
Definition toy_header (n : N) : bytes := le_bytes 8 n ++ repeat 0 8.
Definition read_mem (mem : N -> N) (off n : N) : bytes :=
  map (fun i => mem (off + N.of_nat i)) (seq 0 (N.to_nat n)).
Definition toy_blosc : blosc_lib := BloscLib
  (fun lv _ _ b room _ _ _ =>
     if (lenN b + 16 <=? room) && (0 <? lenN b) && (lenN b <=? 2 ^ 31 - 17) then toy_header (lenN b) ++ b else [])
  (fun mem room _ =>
     let n := of_le_bytes (read_mem mem 0 8) in
     if n <=? room then (16 + n, read_mem mem 16 n) else (16, [])).
Definition toy_blosc_format (e b : bytes) : Prop := e = toy_header (lenN b) ++ b /\ lenN b < 2 ^ 64.
Lemma toy_header_len n : lenN (toy_header n) = 16.
Proof. unfold toy_header. rewrite lenN_app, lenN_le_bytes, lenN_rep. reflexivity. Qed.
Lemma map_nth_seq (q : bytes) : map (fun i => nth i q 0) (seq 0 (length q)) = q.
Proof.
  induction q as [|x q IH]; [reflexivity|]. cbn. f_equal. rewrite <- seq_shift, map_map. exact IH.
Qed.
Lemma read_mem_spec p q r rest off : lenN p = off -> read_mem (memory (p ++ q ++ r) rest) off (lenN q) = q.
Proof.
  intros <-. unfold read_mem. rewrite <- (map_nth_seq q) at 2.
  replace (N.to_nat (lenN q)) with (length q) by (unfold lenN; lia).
  apply map_ext_in. intros i Hi. apply in_seq in Hi. unfold memory.
  rewrite nth_error_app2 by (unfold lenN; lia).
  replace (N.to_nat (lenN p + N.of_nat i) - length p)%nat with i by (unfold lenN; lia).
  rewrite nth_error_app1 by lia. rewrite (nth_error_nth' q 0) by lia. reflexivity.
Qed.
Lemma toy_blosc_ok : blosc_contract toy_blosc toy_blosc_format (2 ^ 31 - 17).
Proof.
  assert (BY : forall mem off n, (forall i, is_byte (mem i)) -> Forall is_byte (read_mem mem off n)).
  { intros. apply Forall_map. apply Forall_forall. auto. }
  assert (LN : forall mem off n, lenN (read_mem mem off n) = n).
  { intros. unfold read_mem, lenN. rewrite map_length, seq_length. lia. }
  split.
  - intros lv sh w b room cn bs nt B. cbn [bl_compress toy_blosc]. cbv zeta.
    destruct (N.leb_spec (lenN b + 16) room), (N.ltb_spec 0 (lenN b)), (N.leb_spec (lenN b) (2 ^ 31 - 17)); cbn [andb];
      rewrite ?lenN_app, ?toy_header_len, ?lenN_nil; repeat split; auto; try lia; try congruence;
      try (unfold blosc_max_overhead; lia).
    + unfold toy_header. repeat (apply Forall_app; split); auto; [apply le_bytes_all|].
      repeat constructor; unfold is_byte; lia.
    + intros _ _ _ _ X. apply (f_equal (@lenN N)) in X. rewrite lenN_app, toy_header_len, lenN_nil in X. lia.
  - intros e b rest room nt [-> L] B R. cbn [bl_decompress toy_blosc].
    assert (of_le_bytes (read_mem (memory (toy_header (lenN b) ++ b) rest) 0 8) = lenN b) as ->.
    { unfold toy_header. rewrite <- app_assoc.
      pose proof (@read_mem_spec [] (le_bytes 8 (lenN b)) (repeat 0 8 ++ b) rest 0 eq_refl) as X.
      rewrite lenN_le_bytes in X. cbn [app] in X. change (N.of_nat 8) with 8 in X. rewrite X. now apply of_le_le_small. }
    destruct (N.leb_spec (lenN b) room); [|lia]. cbn [fst snd]. rewrite lenN_app, toy_header_len. split; [|lia].
    pose proof (@read_mem_spec (toy_header (lenN b)) b [] rest 16 (toy_header_len _)) as X. now rewrite app_nil_r in X.
  - intros mem room nt. cbn [bl_decompress toy_blosc]. destruct (_ <=? _); cbn [fst]; lia.
  - intros mem room nt H. cbn [bl_decompress toy_blosc]. destruct (N.leb_spec (of_le_bytes (read_mem mem 0 8)) room); cbn [snd].
    + rewrite LN. split; [assumption|auto].
    + rewrite lenN_nil. split; [lia|constructor].
Qed.

(** All of them, with zlib or with libdeflate. *)
Definition toy_libraries (need : N -> N) (deflate : bool) : libraries :=
  Libraries (if deflate then inr toy_deflate else inl toy_zlib) (toy_bzip2 need) toy_xz toy_lz4 toy_zstd toy_blosc.
Definition toy_formats : formats :=
  Formats (fun f => tagged (tag f)) (tagged 3) (tagged 5) (tagged 6) (tagged 7) toy_blosc_format.
Definition toy_limits (need : N -> N) : limits := Limits (2 ^ 64) (2 ^ 31 - 17) need.
Lemma toy_libraries_ok need deflate : (forall n, n + 1 <= need n) ->
  libraries_ok (toy_libraries need deflate) toy_formats (toy_limits need).
Proof.
  intros H. split; cbn.
  - destruct deflate; [apply toy_deflate_ok|apply toy_zlib_ok].
  - now apply toy_bzip2_ok.
  - exists toy_enc, toy_dec. apply toy_xz_ok.
  - apply toy_lz4_ok.
  - apply toy_zstd_ok.
  - apply toy_blosc_ok.
Qed.
