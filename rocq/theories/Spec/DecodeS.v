(** Decoding the data of a submessage, in terms of the octets of the file [d]: octet 1 is
    the first octet of a section's header. *)
From Verif Require Import Model.Base Model.Errors Model.F32 Model.Diff Model.Sections Model.Parser Model.Context Model.Decoder.
From Verif Require Import Spec.Bits Spec.BitmapS Spec.ReaderS Spec.FieldsS Spec.ComplexS Spec.SimpleS.

(** A section of a submessage, from octet [first] to its end. *)
Definition from_octet (d : list byte) (x : Z * section) (first : Z) : list byte :=
  octets d (s_offset (snd x) + first - 1) (s_size (snd x) - first + 1).
Definition field_of (d : list byte) (x : Z * section) (first last : Z) : Z :=
  file_field d (s_offset (snd x)) first last.

Definition grid_points (d : list byte) (v : view) : Z := field_of d (u_3 v) 7 10.
Definition packed_points (d : list byte) (v : view) : Z := field_of d (u_5 v) 6 9.
Definition packing_template (d : list byte) (v : view) : Z := field_of d (u_5 v) 10 11.
Definition packing (d : list byte) (v : view) : list byte := from_octet d (u_5 v) 6.
Definition bitmap_indicator (d : list byte) (v : view) : Z := field_of d (u_6 v) 6 6.
Definition bitmap_octets (d : list byte) (v : view) : list byte := from_octet d (u_6 v) 7.
Definition packed_data (d : list byte) (v : view) : list byte := from_octet d (u_7 v) 6.

(** Which grid points have data: all of them, or those marked by a bit. *)
Definition mask (d : list byte) (v : view) : list bool :=
  if bitmap_indicator d v =? 255 then repeat true (Z.to_nat (grid_points d v))
  else firstn (Z.to_nat (grid_points d v)) (bits_of_bytes (bitmap_octets d v)).
Definition mask_ok (d : list byte) (v : view) : Prop :=
  bitmap_indicator d v = 255 \/
  (bitmap_indicator d v = 0 /\ grid_points d v <= 8 * zlen (bitmap_octets d v)).

(** The grid: at each point of the mask the next one of the packed points, [None]
    elsewhere. *)
Definition grid_of {A} (d : list byte) (v : view) (points : list A) : list (option A) :=
  place None (mask d v) (map Some points).

(** What the decoder has to return for a point of the grid. *)
Definition item (refbits e dec : Z) (o : option dv) (x : f32) : Prop :=
  match o with
  | None => x = f32_nan
  | Some pt => point_value refbits e dec pt x
  end.

(** The decoder returns, for the grid points, in grid order, values related to [grid] by
    [R]; after them, fewer than eight other items or one for each further bit of the
    bitmap; no other item when the bits of the bitmap are exactly the grid points. *)
Definition decodes_to {A} (d : list byte) (v : view) (R : option A -> f32 -> Prop) (points : list A) (out : list f32) : Prop :=
  let n := Z.to_nat (grid_points d v) in
  length (firstn n out) = n /\ Forall2 R (grid_of d v points) (firstn n out) /\
  (grid_points d v < 8 -> out = firstn n out) /\
  (bitmap_indicator d v = 255 -> grid_points d v mod 8 = 0 -> out = firstn n out) /\
  (bitmap_indicator d v = 0 -> grid_points d v = 8 * zlen (bitmap_octets d v) -> out = firstn n out).

(** Section 5, from octet 6, of a template that starts like 5.0: number of packed points,
    template number, reference value, binary and decimal scale factors, bit width, type of
    original values (0 = floating point); [tail]: whatever follows. *)
Definition sect5_packing (np template refbits e dec nbit : Z) (tail : list byte) : list byte :=
  be_bytes 4 np ++ be_bytes 2 template
  ++ (be_bytes 4 refbits ++ sm_bytes 2 e ++ sm_bytes 2 dec ++ be_bytes 1 nbit ++ be_bytes 1 0) ++ tail.

(** [cdiv u k]: u / 2^k rounded up. *)
Definition cdiv (u k : Z) : Z := (u + 2 ^ k - 1) / 2 ^ k.

(** The sizes of an image, as OpenJPEG leaves them, are [u32]; the factor is below 32. *)
Definition image_size_ok (i : j2k_image) : Prop :=
  0 <= j_factor i < 32 /\ 0 <= j_x1 i - j_x0 i < 2 ^ 32 /\ 0 <= j_y1 i - j_y0 i < 2 ^ 32.

(** The samples of an image with one component: its size at the resolution of the
    component is the number of samples. *)
Definition gray_image (i : j2k_image) (xs : list Z) : Prop :=
  j_comps i = [xs] /\ 0 <= j_factor i < 32 /\
  0 <= j_x1 i - j_x0 i < 2 ^ 32 /\ 0 <= j_y1 i - j_y0 i < 2 ^ 32 /\
  cdiv (j_x1 i - j_x0 i) (j_factor i) * cdiv (j_y1 i - j_y0 i) (j_factor i) = zlen xs /\ zlen xs < 2 ^ 32.

(** [encodes c refbits e dec sect5 sect7 points]: the sections 5 and 7 (from octet 6) are an
    encoding of the points (integers or missing), for the reference value and scale factors. *)
Inductive encodes (c : codecs) (refbits e dec : Z) : list byte -> list byte -> list dv -> Prop :=
| enc_simple : forall np (n : nat) xs tail,
    (1 <= n <= 32)%nat -> Forall (fun x => 0 <= x < 2 ^ Z.of_nat n) xs ->
    encodes c refbits e dec (sect5_packing np 0 refbits e dec (Z.of_nat n) tail) (pack n xs) (map Normal xs)
| enc_constant : forall np t data tail,
    (* simple packing, JPEG 2000, PNG with bit width 0 *)
    0 <= np < 2 ^ 32 -> t = 0 \/ t = 40 \/ (t = 41 /\ png_buffer c data <> None) ->
    encodes c refbits e dec (sect5_packing np t refbits e dec 0 tail) data (repeat (Normal 0) (Z.to_nat np))
| enc_jpeg2000 : forall np nbit data i xs tail,
    1 <= nbit < 256 -> opj_image c data = Ok i -> gray_image i xs -> Forall is_i32 xs ->
    encodes c refbits e dec (sect5_packing np 40 refbits e dec nbit tail) data (map Normal xs)
| enc_png : forall np (n : nat) data xs tail,
    (1 <= n <= 32)%nat -> Forall (fun x => 0 <= x < 2 ^ Z.of_nat n) xs -> png_buffer c data = Some (pack n xs) ->
    encodes c refbits e dec (sect5_packing np 41 refbits e dec (Z.of_nat n) tail) data (map Normal xs)
| enc_complex : forall np nbit mvm miss1 miss2 wref wnbit lnbit lref linc llast slens gs trailing,
    encodable mvm 0 nbit wref wnbit lnbit lref linc llast slens gs ->
    encodes c refbits e dec
      (sect5_complex np 2 refbits e dec (Z.of_nat nbit) mvm miss1 miss2 (zlen gs) (Z.of_nat wref) (Z.of_nat wnbit)
         lref linc llast (Z.of_nat lnbit) [])
      (layout nbit wref wnbit lnbit slens gs ++ trailing)
      (flat_map (group_points mvm (Z.of_nat nbit) 0) gs)
| enc_first_order : forall np nbit mvm miss1 miss2 wref wnbit lnbit lref linc llast slens gs trailing (k : nat) zmin fld dummy d0,
    (1 <= k <= 4)%nat ->
    Forall (fun v => Z.abs v < 2 ^ (8 * Z.of_nat k - 1)) [zmin; hd d0 (normals fld)] ->
    encodable mvm zmin nbit wref wnbit lnbit lref linc llast slens gs ->
    Forall is_i32 (normals fld) ->
    flat_map (group_points mvm (Z.of_nat nbit) zmin) gs = differences1 dummy None fld ->
    encodes c refbits e dec
      (sect5_complex np 3 refbits e dec (Z.of_nat nbit) mvm miss1 miss2 (zlen gs) (Z.of_nat wref) (Z.of_nat wnbit)
         lref linc llast (Z.of_nat lnbit) (be_bytes 1 1 ++ be_bytes 1 (Z.of_nat k)))
      (sm_bytes k (hd d0 (normals fld)) ++ sm_bytes k zmin ++ layout nbit wref wnbit lnbit slens gs ++ trailing)
      fld
| enc_second_order : forall np nbit mvm miss1 miss2 wref wnbit lnbit lref linc llast slens gs trailing (k : nat) zmin fld dummy1 dummy2 d0 d1,
    (1 <= k <= 4)%nat ->
    Forall (fun v => Z.abs v < 2 ^ (8 * Z.of_nat k - 1)) [zmin; nth 0 (normals fld) d0; nth 1 (normals fld) d1] ->
    encodable mvm zmin nbit wref wnbit lnbit lref linc llast slens gs ->
    Forall is_i32 (normals fld) -> sums_fit (normals fld) ->
    flat_map (group_points mvm (Z.of_nat nbit) zmin) gs = differences2 dummy1 dummy2 None None fld ->
    encodes c refbits e dec
      (sect5_complex np 3 refbits e dec (Z.of_nat nbit) mvm miss1 miss2 (zlen gs) (Z.of_nat wref) (Z.of_nat wnbit)
         lref linc llast (Z.of_nat lnbit) (be_bytes 1 2 ++ be_bytes 1 (Z.of_nat k)))
      (sm_bytes k (nth 0 (normals fld) d0) ++ sm_bytes k (nth 1 (normals fld) d1) ++ sm_bytes k zmin
       ++ layout nbit wref wnbit lnbit slens gs ++ trailing)
      fld.
