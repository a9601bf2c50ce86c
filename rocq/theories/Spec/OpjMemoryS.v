(** The samples of a component of a JPEG 2000 image (ISO/IEC 15444-1, annex B; what OpenJPEG allocates). *)
From Verif Require Import Model.Base Model.Decoder Spec.DecodeS.

(** The SIZ marker of a code stream with one component: the corners of the image on the reference
    grid, and the component's distances between samples (XRsiz, YRsiz). *)
Record siz := MkSiz { z_x0 : Z; z_y0 : Z; z_x1 : Z; z_y1 : Z; z_dx : Z; z_dy : Z }.
Definition siz_ok (z : siz) : Prop :=
  0 <= z_x0 z <= z_x1 z /\ z_x1 z < 2 ^ 32 /\ 0 <= z_y0 z <= z_y1 z /\ z_y1 z < 2 ^ 32 /\ 1 <= z_dx z < 256 /\ 1 <= z_dy z < 256.
(** a / b, rounded up. *)
Definition up (a b : Z) : Z := (a + b - 1) / b.
(** Samples in a row and in a column, with [f] levels of resolution discarded. *)
Definition columns (z : siz) (f : Z) : Z := cdiv (up (z_x1 z) (z_dx z)) f - cdiv (up (z_x0 z) (z_dx z)) f.
Definition rows (z : siz) (f : Z) : Z := cdiv (up (z_y1 z) (z_dy z)) f - cdiv (up (z_y0 z) (z_dy z)) f.
(** What the library makes of it. *)
Definition decoded (z : siz) (f : Z) (i : j2k_image) (gray : list Z) : Prop :=
  i = MkJ2kImage (z_x0 z) (z_y0 z) (z_x1 z) (z_y1 z) f [gray] /\ zlen gray = columns z f * rows z f.
Definition width (z : siz) : Z := z_x1 z - z_x0 z.
Definition height (z : siz) : Z := z_y1 z - z_y0 z.
