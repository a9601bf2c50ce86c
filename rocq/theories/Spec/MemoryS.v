(** Memory: what is used to state C81. *)
From Verif Require Import Model.Base Model.Sections Model.Parser Model.Context Spec.Bits Spec.FieldsS Spec.DecodeS.

(** The octets of memory that the decoder of the submessage [v] takes for the contents of sections:
    those of sections 5 and 7 and those of section 6 together with a copy of its bitmap - or, if there
    is no bitmap, one bit for each point of the grid. *)
Definition decoder_memory (d : list byte) (v : view) : Z :=
  (if bitmap_indicator d v =? 0 then (s_size (snd (u_6 v)) - 5) + (s_size (snd (u_6 v)) - 6) else (grid_points d v + 7) / 8) +
  (s_size (snd (u_5 v)) - 5) + (s_size (snd (u_7 v)) - 5).

(** A file of 21 octets: section 0 of a message of 100 octets and the header of a section 1 that
    claims [n] octets after its header. *)
Definition tiny (n : Z) : list byte :=
  [x47; x52; x49; x42; x00; x00; x00; x02] ++ be_bytes 8 100 ++ be_bytes 4 (n + 5) ++ [x01].
