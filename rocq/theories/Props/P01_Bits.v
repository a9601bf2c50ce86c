(** Property theorems C01-C07: integers, bit unpacking, bitmaps. *)
From Verif Require Import Model.Base Model.Helpers Model.Stream Model.Bitmap Spec.Bits Spec.BitmapS.
From Verif Require Proofs.BitmapX Proofs.Bits2 Proofs.HelpersP.

(** C01: every signed field is read as sign-and-magnitude, in both build profiles. *)
Theorem C01_as_grib_int : forall m x,
  (0 <= x < 2 ^ 8 -> as_grib_int m U8 I8 x = Ret (sign_magnitude 1 x)) /\
  (0 <= x < 2 ^ 16 -> as_grib_int m U16 I16 x = Ret (sign_magnitude 2 x)) /\
  (0 <= x < 2 ^ 32 -> as_grib_int m U32 I32 x = Ret (sign_magnitude 4 x)) /\
  (0 <= x < 2 ^ 64 -> as_grib_int m U64 I64 x = Ret (sign_magnitude 8 x)).
Proof. exact Bits2.as_grib_int_all. Qed.
Print Assumptions C01_as_grib_int.
Example C01_as_grib_int_ex : 0 <= 0x8001 < 2 ^ 16 /\ sign_magnitude 2 0x8001 = -1 /\ sign_magnitude 2 0x8000 = 0.
Proof. repeat split; vm_compute; congruence. Qed.

(** C01: a signed field written as sign-and-magnitude anywhere in a buffer is read back. *)
Theorem C01_read_signed : forall m l1 l3 v,
  (Z.abs v < 2 ^ 7 -> read_i8 m (l1 ++ sm_bytes 1 v ++ l3) (zlen l1) = Ret v) /\
  (Z.abs v < 2 ^ 15 -> read_i16 m (l1 ++ sm_bytes 2 v ++ l3) (zlen l1) = Ret v) /\
  (Z.abs v < 2 ^ 31 -> read_i32 m (l1 ++ sm_bytes 4 v ++ l3) (zlen l1) = Ret v).
Proof. exact Bits2.read_signed. Qed.
Print Assumptions C01_read_signed.
Example C01_read_signed_ex : Z.abs (-26) < 2 ^ 15 /\ sm_bytes 2 (-26) = [x80; x1a].
Proof. split; vm_compute; reflexivity. Qed.

(** C01: the variable-length reader. *)
Theorem C01_from_bytes : forall m bytes, 1 <= zlen bytes <= 4 ->
  grib_int_from_bytes m bytes = Ret (sign_magnitude (zlen bytes) (be bytes)).
Proof. exact HelpersP.grib_int_from_bytes_spec. Qed.
Print Assumptions C01_from_bytes.
Example C01_from_bytes_ex :
  1 <= zlen [xd5; xaa; xaa] <= 4 /\ sign_magnitude 3 (be [xd5; xaa; xaa]) = - 0x55aaaa.
Proof. repeat split; vm_compute; congruence. Qed.

Theorem C01_from_bytes_roundtrip : forall m n v, (1 <= n <= 4)%nat ->
  Z.abs v < 2 ^ (8 * Z.of_nat n - 1) -> grib_int_from_bytes m (sm_bytes n v) = Ret v.
Proof. exact Bits2.grib_int_from_bytes_roundtrip. Qed.
Print Assumptions C01_from_bytes_roundtrip.
Example C01_from_bytes_roundtrip_ex : Z.abs (-5614250) < 2 ^ (8 * Z.of_nat 3 - 1).
Proof. vm_compute; reflexivity. Qed.

Theorem C01_from_bytes_other_lengths_panic : forall m bytes, ~ 1 <= zlen bytes <= 4 ->
  grib_int_from_bytes m bytes = Panic.
Proof. exact HelpersP.grib_int_from_bytes_panics. Qed.
Print Assumptions C01_from_bytes_other_lengths_panic.
Example C01_from_bytes_other_lengths_panic_ex : ~ 1 <= zlen (repeat x00 5) <= 4.
Proof. intros [_ H]; vm_compute in H; congruence. Qed.

(** C02: n-bit unpacking yields exactly the n-bit fields of the bit string. *)
Theorem C02_unpack_exact : forall m data n off, 0 <= off < 8 -> 1 <= n <= 32 ->
  Run (nbit_iter m (nbit_with_offset (nbit_new data n) off))
      (fields (bits_of_bytes data) (Z.to_nat off) (Z.to_nat n)
              (Z.to_nat ((8 * zlen data - off) / n))) End.
Proof. exact Bits2.nbit_exact. Qed.
Print Assumptions C02_unpack_exact.
Example C02_unpack_exact_ex :
  fields (bits_of_bytes [x00; xff; xff; x00; x00]) 0 5 8 = [0; 3; 31; 31; 30; 0; 0; 0].
Proof. vm_compute; reflexivity. Qed.

(** C02: wider fields (33..255 bits) keep only their low 32 bits. *)
Theorem C02_unpack_wide : forall m data n off, 0 <= off < 8 -> 1 <= n ->
  Run (nbit_iter m (nbit_with_offset (nbit_new data n) off))
      (map (fun v => v mod 2 ^ 32)
         (fields (bits_of_bytes data) (Z.to_nat off) (Z.to_nat n)
              (Z.to_nat ((8 * zlen data - off) / n)))) End.
Proof. exact Bits2.nbit_wide. Qed.
Print Assumptions C02_unpack_wide.
Example C02_unpack_wide_ex :
  collect 5 (nbit_iter Checked (nbit_new [x01; x02; x03; x04; x05] 40)) = Ret [0x02030405].
Proof. vm_compute; reflexivity. Qed.

Theorem C02_stays_exhausted : forall m data n off l s s', 0 <= off < 8 -> 1 <= n ->
  SSteps (nbit_next m) (nbit_with_offset (nbit_new data n) off) l s ->
  nbit_next m s = Ret (None, s') -> nbit_next m s' = Ret (None, s').
Proof. exact Bits2.nbit_stays_exhausted. Qed.
Print Assumptions C02_stays_exhausted.
Example C02_stays_exhausted_ex :
  SSteps (nbit_next Checked) (nbit_new [xab] 5) [21] (NBit [xab] 5 0 5)
  /\ nbit_next Checked (NBit [xab] 5 0 5) = Ret (None, NBit [xab] 5 0 5).
Proof. split; [econstructor; [vm_compute; reflexivity|constructor] | vm_compute; reflexivity]. Qed.

(** C03: round trip through any packing width. *)
Theorem C03_pack_unpack : forall m n vs, (1 <= n <= 32)%nat ->
  Forall (fun v => 0 <= v < 2 ^ Z.of_nat n) vs ->
  exists extra, (extra * n < 8)%nat /\
    Run (bit_stream m (pack n vs) (Z.of_nat n) (zlen vs)) (vs ++ repeat 0 extra) End.
Proof. exact StreamP.pack_unpack. Qed.
Print Assumptions C03_pack_unpack.
Example C03_pack_unpack_ex :
  Forall (fun v => 0 <= v < 2 ^ Z.of_nat 3) [5; 0; 7; 2] /\ pack 3 [5; 0; 7; 2] = [xa3; xa0].
Proof. split; [repeat constructor; vm_compute; congruence | vm_compute; reflexivity]. Qed.

Theorem C03_zero_width : forall m data n, 0 <= n ->
  Run (bit_stream m data 0 n) (repeat 0 (Z.to_nat n)) End.
Proof. exact Bits2.bit_stream_zero. Qed.
Print Assumptions C03_zero_width.
Example C03_zero_width_ex : collect 5 (bit_stream Checked [xff] 0 3) = Ret [0; 0; 0].
Proof. vm_compute; reflexivity. Qed.

(** C04: the first [len] decoded items are the placement of the packed values
    under the first [len] bits of the bitmap. *)
Theorem C04_bitmap_positions : forall A (nan : A) bitmap vals len,
  0 <= len <= 8 * zlen bitmap ->
  let bits := firstn (Z.to_nat len) (bits_of_bytes bitmap) in
  length vals = ones bits ->
  exists it out, bitmap_iter nan bitmap (iter_of_list vals) len = Some it /\ Run it out End
    /\ firstn (Z.to_nat len) out = place nan bits vals
    /\ length (firstn (Z.to_nat len) out) = Z.to_nat len.
Proof. exact Bits2.bitmap_positions. Qed.
Print Assumptions C04_bitmap_positions.
Example C04_bitmap_positions_ex :
  let bits := firstn 11 (bits_of_bytes [x4c; x70]) in
  length [10; 20; 30; 40; 50] = ones bits
  /\ place 0 bits [10; 20; 30; 40; 50] = [0; 10; 0; 0; 20; 30; 0; 0; 0; 40; 50].
Proof. split; vm_compute; reflexivity. Qed.

(** C04: complete behaviour of the bitmap iterator over any value iterator,
    including one that ends early or panics. *)
Theorem C04_bitmap_complete : forall A (nan : A) bitmap values vals e len,
  0 <= len <= 8 * zlen bitmap -> Run values vals e ->
  let bits := if len <? 8 then firstn (Z.to_nat len) (bits_of_bytes bitmap) else bits_of_bytes bitmap in
  exists it, bitmap_iter nan bitmap values len = Some it
    /\ Run it (place nan bits vals) (if (ones bits <=? length vals)%nat then End else e).
Proof. exact BitmapP.bitmap_iter_run. Qed.
Print Assumptions C04_bitmap_complete.
Example C04_bitmap_complete_ex : 0 <= 9 <= 8 * zlen [xf0; x80] /\ Run (iter_of_list [1; 2; 3]) [1; 2; 3] End.
Proof. split; [split; vm_compute; congruence | apply BaseLemmas.Run_iter_of_list]. Qed.

(** C04: a bitmap too short for the grid is refused, exactly then. *)
Theorem C04_bitmap_too_short : forall A (nan : A) bitmap values len,
  bitmap_iter nan bitmap values len = None <-> 8 * zlen bitmap < len.
Proof. exact BitmapP.bitmap_iter_none. Qed.
Print Assumptions C04_bitmap_too_short.
Example C04_bitmap_too_short_ex : 8 * zlen [xff] < 9.
Proof. vm_compute; reflexivity. Qed.

(** C05: the items that come out: one for each grid point; from 8 points on, also one for
    each padding bit of the bitmap (as long as there are values for padding bits that are 1). *)
Theorem C05_count : forall A (nan : A) bitmap values vals len, 0 <= len <= 8 * zlen bitmap -> Run values vals End ->
  let points := firstn (Z.to_nat len) (bits_of_bytes bitmap) in
  let padding := skipn (Z.to_nat len) (bits_of_bytes bitmap) in
  (ones points <= length vals)%nat ->
  exists it, bitmap_iter nan bitmap values len = Some it /\
    Run it (place nan points vals ++ if len <? 8 then [] else place nan padding (skipn (ones points) vals)) End /\
    zlen (place nan points vals) = len.
Proof. exact BitmapX.count. Qed.
Print Assumptions C05_count.
(** C05: so, with padding bits 0 as the format requires, the count is the number of grid
    points exactly if there are fewer than 8 of them or no padding bits. *)
Theorem C05_count_right : forall A (nan : A) bitmap values vals len, 0 <= len <= 8 * zlen bitmap -> Run values vals End ->
  let points := firstn (Z.to_nat len) (bits_of_bytes bitmap) in
  Forall (fun b => b = false) (skipn (Z.to_nat len) (bits_of_bytes bitmap)) ->
  (ones points <= length vals)%nat ->
  exists it out, bitmap_iter nan bitmap values len = Some it /\ Run it out End /\
    (zlen out = len <-> len < 8 \/ len = 8 * zlen bitmap).
Proof. exact BitmapX.count_right. Qed.
Print Assumptions C05_count_right.
(** Nine points, seven padding bits: 16 items. *)
Example C05_count_ex :
  0 <= 9 <= 8 * zlen [xff; x80] /\ Forall (fun b => b = false) (skipn (Z.to_nat 9) (bits_of_bytes [xff; x80])) /\
  ones (firstn (Z.to_nat 9) (bits_of_bytes [xff; x80])) = 9%nat /\
  match bitmap_iter (-1) [xff; x80] (iter_of_list [1; 2; 3; 4; 5; 6; 7; 8; 9]) 9 with
  | Some it => collect 20 it = Ret ([1; 2; 3; 4; 5; 6; 7; 8; 9] ++ repeat (-1) 7)
  | None => False
  end.
Proof. repeat split; try (vm_compute; congruence). vm_compute. repeat constructor. Qed.

(** C06: after [k] items the hint is [len - k mod 8], for all point counts and bitmaps. *)
Theorem C06_hint : forall A (nan : A) I step m bitmap v len s l s',
  0 <= len < 2 ^ 64 -> bitmap_new I bitmap v len = Some s -> SSteps (bitmap_next nan I step) s l s' ->
  bitmap_size_hint I m s' = Ret (len - zlen l mod 8, Some (len - zlen l mod 8)).
Proof. exact BitmapX.hint. Qed.
Print Assumptions C06_hint.
(** C06: when there are as many items as points, the hint is the number of items still to
    come exactly while fewer than 8 have been taken. *)
Theorem C06_hint_exact : forall A (nan : A) I step m bitmap v len s l s' rest,
  0 <= len < 2 ^ 64 -> bitmap_new I bitmap v len = Some s -> SSteps (bitmap_next nan I step) s l s' ->
  Run (MkIter _ s' (bitmap_next nan I step)) rest End -> zlen l + zlen rest = len ->
  (bitmap_size_hint I m s' = Ret (zlen rest, Some (zlen rest)) <-> zlen l < 8).
Proof. exact BitmapX.hint_exact. Qed.
Print Assumptions C06_hint_exact.
Example C06_hint_ex : exists bitmap vals l s s',
  bitmap_new (list Z) bitmap vals 16 = Some s
  /\ SSteps (bitmap_next 0 (list Z) (istep (iter_of_list vals))) s l s' /\ zlen l = 8
  /\ Run (MkIter _ s' (bitmap_next 0 (list Z) (istep (iter_of_list vals)))) [9; 10; 11; 12; 13; 14; 15; 16] End
  /\ bitmap_size_hint (list Z) Checked s' = Ret (16, Some 16).
Proof. exact Bits2.hint_refuted. Qed.

(** C07: without a bitmap the unpacked values pass through unchanged. *)
Theorem C07_no_bitmap_passthrough : forall A (nan : A) vals,
  exists it, bitmap_iter nan (create_bitmap_for_nonnullable_data (zlen vals)) (iter_of_list vals) (zlen vals) = Some it
    /\ Run it vals End.
Proof. exact Bits2.no_bitmap_passthrough. Qed.
Print Assumptions C07_no_bitmap_passthrough.
Example C07_no_bitmap_passthrough_ex :
  create_bitmap_for_nonnullable_data (zlen (repeat 1 11)) = [xff; xff].
Proof. vm_compute; reflexivity. Qed.

(** C07/C05: when the unpacker delivers more values than grid points (padding
    bits of section 7), up to 8*ceil(n/8) of them come out. *)
Theorem C07_no_bitmap_excess : forall A (nan : A) vals n, 0 <= n ->
  exists it, bitmap_iter nan (create_bitmap_for_nonnullable_data n) (iter_of_list vals) n = Some it
    /\ Run it (firstn (Z.to_nat (if n <? 8 then n else 8 * ((n + 7) / 8))) vals) End.
Proof. exact Bits2.no_bitmap_general. Qed.
Print Assumptions C07_no_bitmap_excess.
Example C07_no_bitmap_excess_ex :
  firstn (Z.to_nat (if 9 <? 8 then 9 else 8 * ((9 + 7) / 8))) (repeat 5 16) = repeat 5 16.
Proof. vm_compute; reflexivity. Qed.
