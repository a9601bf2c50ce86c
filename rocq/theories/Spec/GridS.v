(** The order of grid points: WMO Flag Table 3.4.  Flag [n] is the [n]-th bit of the
    octet, counted from the most significant one. *)
From Verif Require Import Model.Base Model.Grid Spec.FieldsS.

Definition flag (n mode : Z) : bool := Z.testbit mode (8 - n).

(** Flag 3 off: adjacent points in i direction are consecutive; flag 4 on: adjacent rows
    scan in the opposite direction.  [(i, j)] of the [k]-th point of the data, counted
    from the first grid point; [ni], [nj] > 0. *)
Definition scan_ij (ni nj mode k : Z) : Z * Z :=
  let along (len row p : Z) := if flag 4 mode && Z.odd row then len - 1 - p else p in
  if flag 3 mode then (k / nj, along nj (k / nj) (k mod nj))
  else (along ni (k / ni) (k mod ni), k / ni).

(** The flags 5 to 8 are reserved or unsupported. *)
Definition low_flag (mode : Z) : Prop := flag 5 mode = true \/ flag 6 mode = true \/ flag 7 mode = true \/ flag 8 mode = true.

(** Points per row (or column) and number of rows (columns). *)
Definition row_len (ni nj mode : Z) : Z := if flag 3 mode then nj else ni.
Definition rows (ni nj mode : Z) : Z := if flag 3 mode then ni else nj.

(** Points beyond a grid whose rows are empty. *)
Definition bogus (mode k : Z) : Z * Z := if flag 3 mode then (0, k) else (k, 0).

(** ** Grid definition templates, field by field, from the payload of section 3 *)
Definition latlon_fields (p : list byte) : latlon :=
  MkLatlon (field p 31 34) (field p 35 38) (sfield p 47 50) (sfield p 51 54) (sfield p 56 59) (sfield p 60 63) (field p 72 72).
Definition gaussian_fields (p : list byte) : gaussian :=
  MkGaussian (field p 31 34) (field p 35 38) (sfield p 47 50) (sfield p 51 54) (sfield p 56 59) (sfield p 60 63)
    (field p 64 67) (field p 68 71) (field p 72 72).
Definition earth_fields (p : list byte) : earth :=
  MkEarth (field p 15 15) (field p 16 16) (field p 17 20) (field p 21 21) (field p 22 25) (field p 26 26) (field p 27 30).
Definition polar_fields (p : list byte) : polar :=
  MkPolar (earth_fields p) (field p 31 34) (field p 35 38) (sfield p 39 42) (sfield p 43 46) (sfield p 48 51) (sfield p 52 55)
    (field p 56 59) (field p 60 63) (field p 64 64) (field p 65 65).
Definition lambert_fields (p : list byte) : lambert :=
  MkLambert (earth_fields p) (field p 31 34) (field p 35 38) (sfield p 39 42) (sfield p 43 46) (sfield p 48 51) (sfield p 52 55)
    (field p 56 59) (field p 60 63) (field p 65 65) (sfield p 66 69) (sfield p 70 73).

Definition grid_template (p : list byte) : Z := field p 13 14.
(** The last octet of the fixed part of a template. *)
Definition grid_end (t : Z) : Z := match t with 0 | 40 => 72 | 20 => 65 | _ => 73 end.
(** The octet of the scanning mode. *)
Definition mode_octet (t : Z) : Z := match t with 0 | 40 => 72 | _ => 65 end.
(** A section 3 that holds a whole template that is supported, without a list of points. *)
Definition grid_complete (p : list byte) : Prop :=
  let t := grid_template p in
  In t [0; 20; 30; 40] /\ reaches p (grid_end t) /\ (In t [0; 40] -> zlen p + 5 = 72).
