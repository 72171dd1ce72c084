(** Properties C07 - C09: strided views. *)
From Verif Require Import M_Base S_Array S_Grid M_Blocking M_View P_Base P_Blocking P_View.

(** C07: copyView copies exactly the elements of the view, for every rank, shape
    and strides, and stays in bounds (no [UB]).  [lin strides c] is the position
    of index [c]; the destination must not alias itself. *)
Theorem C07_strided_copy (V : Type) (src dst : list V) sv dv :
  length (v_strides sv) = length (v_shape dv) -> length (v_strides dv) = length (v_shape dv) ->
  (forall c, in_shape (v_shape dv) c -> v_off sv + lin (v_strides sv) c < lenN src) ->
  (forall c, in_shape (v_shape dv) c -> v_off dv + lin (v_strides dv) c < lenN dst) ->
  (forall c d, in_shape (v_shape dv) c -> in_shape (v_shape dv) d ->
     lin (v_strides dv) c = lin (v_strides dv) d -> c = d) ->
  exists dst', copy_view src sv dst dv = Ok dst' /\ lenN dst' = lenN dst /\
    (forall c, in_shape (v_shape dv) c ->
       getN dst' (v_off dv + lin (v_strides dv) c) = getN src (v_off sv + lin (v_strides sv) c)) /\
    (forall a, (forall c, in_shape (v_shape dv) c -> a <> v_off dv + lin (v_strides dv) c) ->
       getN dst' a = getN dst a).
Proof. exact (@copy_view_spec V src dst sv dv). Qed.
Print Assumptions C07_strided_copy.

(** A transposing, non contiguous copy. *)
Example C07_case :
  let src := [10; 11; 12; 13; 14; 15] in
  let sv := View 0 [3; 2] [1; 3] in let dv := View 1 [3; 2] [4; 2] in
  (forall c, in_shape (v_shape dv) c -> v_off sv + lin (v_strides sv) c < lenN src) /\
  (forall c, in_shape (v_shape dv) c -> v_off dv + lin (v_strides dv) c < lenN (repeat 0 12)) /\
  (forall c d, in_shape (v_shape dv) c -> in_shape (v_shape dv) d ->
     lin (v_strides dv) c = lin (v_strides dv) d -> c = d) /\
  copy_view src sv (repeat 0 12) dv = Ok [0; 10; 0; 13; 0; 11; 0; 14; 0; 12; 0; 15].
Proof.
  cbn [v_shape v_off v_strides]. repeat split.
  - intros c H. apply coords_In in H. vm_compute in H.
    repeat (destruct H as [<-|H]; [vm_compute; reflexivity|]). contradiction.
  - intros c H. apply coords_In in H. vm_compute in H.
    repeat (destruct H as [<-|H]; [vm_compute; reflexivity|]). contradiction.
  - intros c d H H' E. apply coords_In in H, H'. vm_compute in H, H'.
    repeat (destruct H as [<-|H];
      [repeat (destruct H' as [<-|H']; [first [reflexivity|vm_compute in E; discriminate]|]); contradiction|]).
    contradiction.
Qed.

(** C08: fillView sets exactly the elements of the view (which may alias). *)
Theorem C08_strided_fill (V : Type) (v : V) dst dv :
  length (v_strides dv) = length (v_shape dv) ->
  (forall c, in_shape (v_shape dv) c -> v_off dv + lin (v_strides dv) c < lenN dst) ->
  exists dst', fill_view dst dv v = Ok dst' /\ lenN dst' = lenN dst /\
    (forall c, in_shape (v_shape dv) c -> getN dst' (v_off dv + lin (v_strides dv) c) = Ok v) /\
    (forall a, (forall c, in_shape (v_shape dv) c -> a <> v_off dv + lin (v_strides dv) c) ->
       getN dst' a = getN dst a).
Proof. exact (@fill_view_spec V v dst dv). Qed.
Print Assumptions C08_strided_fill.

Example C08_case :
  let dv := View 1 [2; 2] [3; 2] in
  (forall c, in_shape (v_shape dv) c -> v_off dv + lin (v_strides dv) c < lenN (repeat 0 7)) /\
  fill_view (repeat 0 7) dv 9 = Ok [0; 9; 0; 9; 9; 0; 9].
Proof.
  cbn [v_shape v_off v_strides]. split; [|reflexivity].
  intros c H. apply coords_In in H. vm_compute in H.
  repeat (destruct H as [<-|H]; [vm_compute; reflexivity|]). contradiction.
Qed.

(** C09: sub-views of a C-contiguous buffer of shape [s]. *)
Theorem C09_subview_address s o n c : 0 < prod s -> prod s < W64 -> sub_of s o n -> in_shape n c ->
  let v := subview (make_view s) o n in
  v_shape v = n /\ length (v_strides v) = length n /\
  v_off v + lin (v_strides v) c = rowmajor s (vadd o c) /\
  v_off v + lin (v_strides v) c < prod s.
Proof. exact (@subview_full s o n c). Qed.
Print Assumptions C09_subview_address.

Theorem C09_subview_injective s o n c d : 0 < prod s -> prod s < W64 -> sub_of s o n ->
  in_shape n c -> in_shape n d ->
  let v := subview (make_view s) o n in
  v_off v + lin (v_strides v) c = v_off v + lin (v_strides v) d -> c = d.
Proof. exact (@subview_inj' s o n c d). Qed.
Print Assumptions C09_subview_injective.

Example C09_case :
  0 < prod [4; 5; 6] /\ prod [4; 5; 6] < W64 /\ sub_of [4; 5; 6] [1; 2; 3] [3; 2; 2] /\
  in_shape [3; 2; 2] [2; 1; 0] /\
  let v := subview (make_view [4; 5; 6]) [1; 2; 3] [3; 2; 2] in
  v_off v + lin (v_strides v) [2; 1; 0] = 111.
Proof.
  repeat split; try (vm_compute; congruence).
  repeat constructor; lia.
Qed.
