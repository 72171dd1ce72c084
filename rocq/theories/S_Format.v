(** Specification vocabulary for stored chunks, independent of the model. *)
From Verif Require Import M_Base M_Format.

(** A buffer of [n] elements of [w] bytes each. *)
Definition buffer_of (w n : N) (d : list cell) : Prop :=
  lenN d = n /\ Forall (fun e => lenN e = w /\ Forall is_byte e) d.

(** [e] is what the codec stores for [b]. *)
Definition stored_as (cd : codec) (b e : bytes) : Prop :=
  if cd_raw cd then e = b else cd_enc cd b = Ok e.

(** A codec that loses nothing of a non-empty input of at most [limit] bytes: raw, or
    a compressor that accepts it and decompresses its own output to it. *)
Definition lossless (limit : N) (cd : codec) : Prop :=
  cd_raw cd = true \/ forall b, Forall is_byte b -> 0 < lenN b -> lenN b <= limit ->
    exists e, cd_enc cd b = Ok e /\ cd_dec cd e (lenN b) = Ok b.

(** A codec that, asked for [n] elements of [w] bytes, never writes more than their
    bytes and always returns or throws. *)
Definition bounded_codec (w : N) (cd : codec) : Prop :=
  forall b n, Forall is_byte b -> match cd_dec cd b (mulw n w) with
    Ok r => lenN r <= mulw n w /\ Forall is_byte r | Throw _ => True | UB => False end.

(** Codecs for which the memory safety of decoding is a question about z5. *)
Definition safe_codec (w : N) (cd : codec) : Prop := cd_raw cd = true \/ bounded_codec w cd.

(** The types z5 supports. *)
Definition supported (t : elem_type) : Prop :=
  (t_float t = false /\ In (t_width t) [1; 2; 4; 8]) \/
  (t_float t = true /\ In (t_width t) [4; 8]).
