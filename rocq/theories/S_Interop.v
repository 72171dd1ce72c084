(** What a reader of the published formats (S_Layout) is told about the datasets of the
    model. *)
From Coq Require Import String.
From Verif Require Import M_Base M_Text M_Key M_View M_Format M_Mode M_Dataset M_Sharded M_Access
  S_Array S_Grid S_Bytes S_Text S_Format S_Dataset S_Access S_Layout.
Import ListNotations.
Local Open Scope list_scope.
Local Open Scope N_scope.

(** The layout of a dataset, and of one with shards of the given shape. *)
Definition layout_of (k : key_config) : layout :=
  if k_zarr k
  then if k_format k =? 3 then Zarr3 (String.eqb (k_encoding k) "default") (k_delim k) else Zarr2 (k_delim k)
  else N5.
Definition sharded_layout (k : key_config) (shard : shape) : layout :=
  Zarr3Sharded ((k_format k =? 3) && String.eqb (k_encoding k) "default") (k_delim k) shard.

Definition view_of (d : dataset) (decode : bytes -> N -> option bytes) : described :=
  Described (layout_of (d_key d)) (d_shape d) (d_chunks d) (t_width (d_type d)) (d_fill d) decode.
Definition sharded_view (sd : sharded) (decode : bytes -> N -> option bytes) : described :=
  let d := sd_base sd in
  Described (sharded_layout (d_key d) (sd_shard sd)) (d_shape d) (d_chunks d) (t_width (d_type d)) (d_fill d) decode.

(** The reader's decompression undoes what the codec stores, up to a size. *)
Definition undoes (limit : N) (decode : bytes -> N -> option bytes) (cd : codec) : Prop :=
  forall b e, Forall is_byte b -> 0 < lenN b -> lenN b <= limit -> stored_as cd b e -> decode e (lenN b) = Some b.

(** What the reader's decompression gives, the codec gives. *)
Definition accepts (decode : bytes -> N -> option bytes) (cd : codec) : Prop :=
  forall e n b, decode e n = Some b -> lenN b = n ->
    Forall is_byte b /\ if cd_raw cd then e = b else cd_dec cd e n = Ok b.
