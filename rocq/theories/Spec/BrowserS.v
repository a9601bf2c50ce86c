(** The demo in a browser: what is used to state C85. *)
From Verif Require Import Model.Base Model.Decoder Model.Context Spec.Bits Spec.DecodeS Spec.WordS.

(** A submessage of the octets [d] whose values 32 bits can count. *)
Definition browser_fits (c : codecs) (d : list byte) (v : view) : Prop :=
  grid_points d v <= 2 ^ 32 - 8 /\ (forall b, png_buffer c (packed_data d v) = Some b -> zlen b < 2 ^ 28) /\
  (packing_template d v = 200 -> digits_fit (MkDecoder (grid_points d v) (packed_points d v) 200 (packing d v) [] (packed_data d v))).
