(** Property C26: which chunks are not stored, for every element type. *)
From Coq Require Import ZArith Lia.
From Verif Require Import M_Base M_Bytes M_Format M_Double M_Metadata S_Array S_Bytes S_Format S_Number S_Elide P_Base P_Bytes P_Format P_Number P_Elide.
Import List ListNotations.

(** C26: a chunk of floating point numbers is not stored if and only if all its elements
    are equal to the fill value as numbers, so that reading the fill value afterwards
    changes no number (but the sign of zeros, see C26_elided_float_refuted). *)
Theorem C26_float_partial t mb eb (zarr : bool) cd fill defshape bshape data n : real_type t = Some (mb, eb) ->
  lenN fill = dtype_size t -> Forall is_byte fill ->
  n = prod (if zarr then defshape else bshape) -> n < W64 -> buffer_of (dtype_size t) n data ->
  (data_to_buffer zarr (ElemType (dtype_size t) true) cd fill defshape bshape data false 0 = Ok None <->
   Forall (fun v => equal_number (real_value mb eb v) (real_value mb eb fill)) data).
Proof.
  intros T Lf Bf Hn Hw [Hl Hd]. rewrite (@elided_iff _ zarr cd fill defshape bshape data n Hn Hw Hl). rewrite !Forall_forall.
  rewrite Forall_forall in Hd. split; intros H v Hv; destruct (Hd v Hv) as [Lv Bv]; [rewrite <- (float_eq T Lv Lf Bv Bf)|rewrite (float_eq T Lv Lf Bv Bf)]; auto.
Qed.
Print Assumptions C26_float_partial.

(** Not even one element changes unless the fill value is a zero; a chunk is always stored
    if the fill value is NaN. *)
Theorem C26_exact t mb eb (zarr : bool) cd fill defshape bshape data n : real_type t = Some (mb, eb) ->
  lenN fill = dtype_size t -> Forall is_byte fill ->
  n = prod (if zarr then defshape else bshape) -> 0 < n -> n < W64 -> buffer_of (dtype_size t) n data ->
  (forall s, real_value mb eb fill <> DZero s) ->
  data_to_buffer zarr (ElemType (dtype_size t) true) cd fill defshape bshape data false 0 = Ok None ->
  real_value mb eb fill <> DNan /\ Forall (fun v => real_value mb eb v = real_value mb eb fill) data.
Proof.
  intros T Lf Bf Hn H0 Hw Hd NZ E. apply (@C26_float_partial t mb eb zarr cd fill defshape bshape data n T Lf Bf Hn Hw Hd) in E.
  assert (K : forall v, equal_number (real_value mb eb v) (real_value mb eb fill) -> real_value mb eb fill <> DNan /\ real_value mb eb v = real_value mb eb fill).
  { intros v Q. destruct (real_value mb eb v), (real_value mb eb fill); cbn in Q; try contradiction; split; try discriminate; try exact Q. exfalso. now eapply NZ. }
  split; [|eapply Forall_impl; [|exact E]; intros v Q; apply (K v Q)].
  destruct Hd as [Hl _]. destruct data as [|v data]; [rewrite lenN_nil in Hl; lia|]. inversion E as [|? ? Q]; subst. apply (K v Q).
Qed.
Print Assumptions C26_exact.

(** For integers: exactly the chunks of fill values. *)
Theorem C26_integers t (zarr : bool) cd fill defshape bshape data n : t_float t = false ->
  lenN fill = t_width t -> Forall is_byte fill ->
  n = prod (if zarr then defshape else bshape) -> n < W64 -> buffer_of (t_width t) n data ->
  (data_to_buffer zarr t cd fill defshape bshape data false 0 = Ok None <-> Forall (fun v => v = fill) data).
Proof.
  intros T Lf Bf Hn Hw [Hl Hd]. rewrite (@elided_iff _ zarr cd fill defshape bshape data n Hn Hw Hl). rewrite !Forall_forall.
  rewrite Forall_forall in Hd. split; intros H v Hv; destruct (Hd v Hv) as [Lv Bv]; [rewrite <- (int_eq_exact T Lv Lf Bv Bf)|rewrite (int_eq_exact T Lv Lf Bv Bf)]; auto.
Qed.
Print Assumptions C26_integers.

Example C26_float_case :
  let half := [0; 0; 0; 63] in
  buffer_of 4 2 [half; half] /\ real_value 23 8 half = DFin false 1 (-1) /\
  data_to_buffer true (ElemType 4 true) raw_codec half [2] [2] [half; half] false 0 = Ok None /\
  data_to_buffer true (ElemType 4 true) raw_codec [0; 0; 192; 127] [1] [1] [[0; 0; 192; 127]] false 0 <> Ok None /\
  real_value 23 8 [0; 0; 192; 127] = DNan.
Proof. repeat split; try (repeat constructor); discriminate. Qed.
