(** Property theorems C46, C47, C48: decoding. *)
From Coq Require Import Lia Reals Lra.
From Flocq Require Import Core.Core.
From Verif Require Import Model.Base Model.Errors Model.F32 Model.Bitmap Model.Sections Model.Reader Model.Parser Model.Context Model.Diff Model.Decoder.
From Verif Require Import Spec.Bits Spec.BitmapS Spec.ReaderS Spec.ParserS Spec.ContextS Spec.FieldsS Spec.ComplexS Spec.FloatS Spec.SimpleS Spec.RunLengthS Spec.Layout Spec.DecodeS Spec.RefuseS Spec.GroupsS.
From Verif Require Proofs.LayoutP Proofs.DecodeP Proofs.DecodeX Proofs.WholeX Proofs.ComplexP Proofs.RefuseX Proofs.PanicX Proofs.RefuseF Proofs.GroupsX Proofs.CodecX.

(** C46: a file made of one message with one field, with other octets around it: the table
    has the sections of the message and the decoder returns, at each grid point, the packed
    value or, where the bitmap has a zero or the point is missing, NaN. *)
Theorem C46_file : forall m fuel junk res disc s1 s3 s4 s5 s6 s7 tail,
  let msg := one_field res disc s1 s3 s4 s5 s6 s7 in
  let d := file_bytes [(junk, msg)] tail in
  no_magic junk -> no_magic tail -> message_ok msg -> zlen d < 2 ^ 63 -> zlen d < Z.of_nat fuel ->
  forall c refbits e dec pts, 0 <= refbits < 2 ^ 32 -> ieee_finite refbits -> -127 <= e <= 127 -> -38 <= dec <= 37 ->
  encodes c refbits e dec s5 s7 pts ->
  let n := Z.to_nat (be (firstn 4 (skipn 1 s3))) in
  forall mask, (s6 = [xff] /\ mask = repeat true n) \/
    (exists bm, s6 = x00 :: bm /\ (n <= length (bits_of_bytes bm))%nat /\ mask = firstn n (bits_of_bytes bm)) ->
  ones mask = length pts ->
  exists g w v decoder s' it out, from_slice m fuel d = Ret (Ok g) /\ g_sections g = file_table 0 [(junk, msg)] /\
    g_subs g = [w] /\ make_view g w = Some v /\
    decoder_from m (g_src g) v = Ret (Ok decoder, s') /\ dispatch c m decoder = Ret (Ok it) /\ Run it out End /\
    Forall2 (item refbits e dec) (place None mask (map Some pts)) (firstn n out).
Proof. exact WholeX.one_decoded. Qed.
Print Assumptions C46_file.

(** C46: any submessage of any file that has been read, at any position of the reader. *)
Theorem C46_decode : forall m fuel s g, grib2_read m fuel s = Ret (Ok g) -> zlen (data s) < 2 ^ 63 -> 0 <= pos s <= zlen (data s) ->
  forall w v, In w (g_subs g) -> make_view g w = Some v -> 5 <= s_size (snd (u_7 v)) ->
  let d := data s in
  forall c refbits e dec pts, 0 <= refbits < 2 ^ 32 -> ieee_finite refbits -> -127 <= e <= 127 -> -38 <= dec <= 37 ->
  encodes c refbits e dec (packing d v) (packed_data d v) pts ->
  mask_ok d v -> ones (mask d v) = length pts ->
  forall m' m'' p sc, exists decoder s' it out,
    decoder_from m' (MkSrc d p sc) v = Ret (Ok decoder, s') /\ data s' = d /\
    dispatch c m'' decoder = Ret (Ok it) /\ Run it out End /\ decodes_to d v (item refbits e dec) pts out /\
    (bitmap_indicator d v = 255 -> packing_template d v <> 0 -> packing_template d v <> 41 -> zlen out = grid_points d v).
Proof. exact DecodeX.decode_file. Qed.
Print Assumptions C46_decode.

(** C46: the same for run-length packing, whose values are the levels of a table. *)
Theorem C46_decode_run_length : forall m fuel s g, grib2_read m fuel s = Ret (Ok g) -> zlen (data s) < 2 ^ 63 -> 0 <= pos s <= zlen (data s) ->
  forall w v, In w (g_subs g) -> make_view g w = Some v -> 5 <= s_size (snd (u_7 v)) ->
  let d := data s in
  forall c np (n : nat) maxv scale levels tail runs, 0 <= np < 2 ^ 32 -> (1 <= n <= 15)%nat -> 0 <= maxv -> maxv + 1 < 2 ^ Z.of_nat n -> 0 <= scale < 256 ->
  zlen levels < 2 ^ 16 -> Forall (fun l => 0 <= l < 2 ^ 16) levels ->
  packing d v = sect5_rle np (Z.of_nat n) maxv scale levels tail ->
  Forall (run_ok (Z.of_nat n) maxv) runs ->
  let codes := flat_map (run_codes maxv) runs in
  let pts := flat_map (expand (base (Z.of_nat n) maxv)) runs in
  packed_data d v = pack n codes -> (- (Z.of_nat n * zlen codes)) mod 8 < Z.of_nat n ->
  np = zlen pts -> Forall (fun l => l <= zlen levels) pts ->
  mask_ok d v -> ones (mask d v) = length pts ->
  forall m' m'' p sc, exists decoder s' it out,
    decoder_from m' (MkSrc d p sc) v = Ret (Ok decoder, s') /\ data s' = d /\
    dispatch c m'' decoder = Ret (Ok it) /\ Run it out End /\
    decodes_to d v (fun o x => x = match o with None => f32_nan | Some l => level_value scale levels l end) pts out /\
    (bitmap_indicator d v = 255 -> zlen out = grid_points d v).
Proof. exact DecodeX.decode_rle_file. Qed.
Print Assumptions C46_decode_run_length.

(** A file with a field of 10 points, 3 of them with data: R = 1, E = 1, D = 0, 4 bits. *)
Definition no_codecs : codecs := MkCodecs (fun _ => Err J2kNotSupported) (fun _ => None).
Definition ex_s3 : list byte := x00 :: be_bytes 4 10 ++ [x00; x00] ++ be_bytes 2 0.
Definition ex_s5 : list byte := sect5_packing 3 0 1065353216 1 0 4 [].
Definition ex_s6 : list byte := x00 :: [x90; x40].
Definition ex_one : raw_message := one_field [x00; x00] 0 (repeat x00 16) ex_s3 (repeat x00 4) ex_s5 ex_s6 (pack 4 [7; 0; 15]).
Definition ex_d : list byte := file_bytes [([x47], ex_one)] [x01].
Example C46_ex_hypotheses :
  encodes no_codecs 1065353216 1 0 ex_s5 (pack 4 [7; 0; 15]) (map Normal [7; 0; 15]) /\
  (exists bm, ex_s6 = x00 :: bm /\ (10 <= length (bits_of_bytes bm))%nat /\ ones (firstn 10 (bits_of_bytes bm)) = 3%nat) /\
  message_ok ex_one /\ ieee_finite 1065353216 /\ be (firstn 4 (skipn 1 ex_s3)) = 10.
Proof.
  split. { apply (enc_simple _ _ _ _ 3 4 [7; 0; 15] []); [lia|]. repeat constructor; cbn; lia. }
  split. { exists [x90; x40]. vm_compute. repeat split; repeat constructor. }
  split. { split; [reflexivity|]. split; [vm_compute; split; congruence|]. repeat constructor; vm_compute; congruence. }
  split; [vm_compute; congruence|reflexivity].
Qed.
Definition decode_all (c : codecs) (m : mode) (d : list byte) : option (list f32) :=
  match from_slice m 200 d with
  | Ret (Ok g) =>
      match g_subs g with
      | [w] => match make_view g w with
               | Some v => match decoder_from m (g_src g) v with
                           | Ret (Ok dec, _) => match dispatch c m dec with
                                                | Ret (Ok it) => match collect 100 it with Ret l => Some l | _ => None end
                                                | _ => None
                                                end
                           | _ => None
                           end
               | None => None
               end
      | _ => None
      end
  | _ => None
  end.
(** Ten points, and six more items for the other bits of the bitmap. *)
Example C46_ex : decode_all no_codecs Checked ex_d
  = Some ([f32_of_Z 15] ++ repeat f32_nan 2 ++ [f32_of_Z 1] ++ repeat f32_nan 5 ++ [f32_of_Z 31] ++ repeat f32_nan 6).
Proof. vm_compute. reflexivity. Qed.

(** C47: the decoder of a submessage: refused exactly for a bitmap indicator other than 0 and
    255; its parts otherwise. *)
Theorem C47_bitmap_indicator : forall m fuel s g w v, grib2_read m fuel s = Ret (Ok g) -> zlen (data s) < 2 ^ 63 -> 0 <= pos s <= zlen (data s) ->
  In w (g_subs g) -> make_view g w = Some v -> 5 <= s_size (snd (u_7 v)) ->
  let d := data s in
  forall m' p sc, exists r s', decoder_from m' (MkSrc d p sc) v = Ret (r, s') /\ data s' = d /\
    (~ In (bitmap_indicator d v) [0; 255] -> r = Err (EDecode BitMapIndicatorUnsupported)) /\
    (In (bitmap_indicator d v) [0; 255] -> exists dec, r = Ok dec /\
      d_total dec = grid_points d v /\ d_encoded dec = packed_points d v /\ d_template dec = packing_template d v /\
      d_sect5 dec = packing d v /\ d_sect7 dec = packed_data d v /\
      (bitmap_indicator d v = 0 -> d_bitmap dec = bitmap_octets d v) /\
      (bitmap_indicator d v = 255 -> bits_of_bytes (d_bitmap dec) = repeat true (Z.to_nat (8 * ((grid_points d v + 7) / 8))))).
Proof. exact RefuseF.decoder_made. Qed.
Print Assumptions C47_bitmap_indicator.

(** C47: what is refused is refused, with this error. *)
Theorem C47_refused : forall m fuel s g w v, grib2_read m fuel s = Ret (Ok g) -> zlen (data s) < 2 ^ 63 -> 0 <= pos s <= zlen (data s) ->
  In w (g_subs g) -> make_view g w = Some v -> 5 <= s_size (snd (u_7 v)) ->
  let d := data s in
  forall c m' m'' p sc e, In (bitmap_indicator d v) [0; 255] ->
  reaches (packing d v) (sect5_end (packing d v) (packing_template d v)) -> refused (packing d v) (packing_template d v) e ->
  exists dec s', decoder_from m' (MkSrc d p sc) v = Ret (Ok dec, s') /\ dispatch c m'' dec = Ret (Err e).
Proof. exact RefuseF.view_refused. Qed.
Print Assumptions C47_refused.

(** C47: nothing else is refused, except for errors in the packed data and a bitmap that is
    too short. *)
Theorem C47_only_refused : forall m fuel s g w v, grib2_read m fuel s = Ret (Ok g) -> zlen (data s) < 2 ^ 63 -> 0 <= pos s <= zlen (data s) ->
  In w (g_subs g) -> make_view g w = Some v -> 5 <= s_size (snd (u_7 v)) ->
  let d := data s in
  forall c m' m'' p sc dec s' e, decoder_from m' (MkSrc d p sc) v = Ret (Ok dec, s') -> dispatch c m'' dec = Ret (Err e) ->
  refused (packing d v) (packing_template d v) e \/ data_error (packing_template d v) e \/
  (e = EDecode LengthMismatch /\ bitmap_indicator d v = 0 /\ 8 * zlen (bitmap_octets d v) < grid_points d v).
Proof. exact RefuseF.view_errors. Qed.
Print Assumptions C47_only_refused.

(** The same on the parts of a decoder. *)
Theorem C47_dispatch_refused : forall c m d e, reaches (d_sect5 d) (sect5_end (d_sect5 d) (d_template d)) ->
  refused (d_sect5 d) (d_template d) e -> dispatch c m d = Ret (Err e).
Proof. exact RefuseX.dispatch_refused. Qed.
Print Assumptions C47_dispatch_refused.

(** C47: what the image libraries refuse is refused, and so is an image with other than one
    component. *)
Theorem C47_codec_refused : forall c m d, let p := d_sect5 d in reaches p 21 -> field p 21 21 = 0 ->
  (d_template d = 40 -> field p 20 20 <> 0 -> forall x, opj_image c (d_sect7 d) = Err x ->
     dispatch c m d = Ret (Err (EDecode (Jpeg2000Error x)))) /\
  (d_template d = 40 -> field p 20 20 <> 0 -> forall i, opj_image c (d_sect7 d) = Ok i -> image_size_ok i -> 2 <= zlen (j_comps i) ->
     dispatch c m d = Ret (Err (EDecode (Jpeg2000Error J2kNotSupported)))) /\
  (d_template d = 40 -> field p 20 20 <> 0 -> forall it, dispatch c m d = Ret (Ok it) ->
     exists i gray, opj_image c (d_sect7 d) = Ok i /\ j_comps i = [gray]) /\
  (d_template d = 41 -> png_buffer c (d_sect7 d) = None -> dispatch c m d = Ret (Err (EDecode PngError))).
Proof. exact CodecX.codec_refused. Qed.
Print Assumptions C47_codec_refused.
Example C47_codec_ex :
  let p := sect5_packing 3 40 0 0 0 8 [] in
  let i := MkJ2kImage 0 0 3 1 0 [[1; 2; 3]; [1; 2; 3]] in
  reaches p 21 /\ field p 21 21 = 0 /\ field p 20 20 = 8 /\ image_size_ok i /\ 2 <= zlen (j_comps i).
Proof. unfold reaches, image_size_ok. vm_compute. repeat split; congruence. Qed.

(** Sections 5 that are refused. *)
Definition sect5_ex (t order k : Z) : list byte :=
  sect5_complex 3 t 0 0 0 4 0 0 0 1 0 0 3 1 3 0 (be_bytes 1 order ++ be_bytes 1 k).
Example C47_ex :
  refused (sect5_packing 3 4 0 0 0 4 []) 4 (EDecode TemplateNumberUnsupported) /\
  refused (be_bytes 4 3 ++ be_bytes 2 0 ++ repeat x00 9 ++ [x01]) 0 (EDecode (SimplePackingError OriginalFieldValueTypeNotSupported)) /\
  refused (sect5_ex 3 3 2) 3 NotSupported /\ refused (sect5_ex 3 255 2) 3 (EDecode (ComplexPackingError ComplexNotSupported)) /\
  refused (sect5_ex 3 1 5) 3 (EDecode (ComplexPackingError ComplexNotSupported)) /\
  reaches (sect5_ex 3 1 5) (sect5_end (sect5_ex 3 1 5) 3).
Proof.
  split; [apply refused_template; unfold supported_templates; cbn [In]; lia|].
  split; [apply refused_original; [cbn; auto|vm_compute; congruence]|].
  split; [apply refused_order_unknown; [reflexivity|vm_compute; reflexivity|]; replace (field _ 48 48) with 3 by (vm_compute; reflexivity); cbn [In]; lia|].
  split; [apply refused_order; [reflexivity|vm_compute; reflexivity|vm_compute; reflexivity]|].
  split; [apply refused_descriptors; [reflexivity|vm_compute; reflexivity| |right; vm_compute; reflexivity]; replace (field _ 48 48) with 1 by (vm_compute; reflexivity); cbn; auto|].
  vm_compute. congruence.
Qed.

(** C48: simple packing, for whatever octets the file has: a panic exactly where section 5
    ends before octet 21, an error or a complete sequence of values otherwise. *)
Theorem C48_simple : forall m fuel s g w v, grib2_read m fuel s = Ret (Ok g) -> zlen (data s) < 2 ^ 63 -> 0 <= pos s <= zlen (data s) ->
  In w (g_subs g) -> make_view g w = Some v -> 5 <= s_size (snd (u_7 v)) ->
  let d := data s in
  forall c m' m'' p sc, In (bitmap_indicator d v) [0; 255] -> packing_template d v = 0 ->
  exists dec s', decoder_from m' (MkSrc d p sc) v = Ret (Ok dec, s') /\
    (21 <= s_size (snd (u_5 v)) ->
       (exists e, dispatch c m'' dec = Ret (Err e)) \/ (exists it out, dispatch c m'' dec = Ret (Ok it) /\ Run it out End)) /\
    (s_size (snd (u_5 v)) < 21 -> dispatch c m'' dec = Panic).
Proof. exact RefuseF.view_simple. Qed.
Print Assumptions C48_simple.

(** C48: simple packing, JPEG 2000, PNG and run-length packing: no panic once there is an
    iterator. *)
Theorem C48_no_lazy_panic : forall m fuel s g w v, grib2_read m fuel s = Ret (Ok g) -> zlen (data s) < 2 ^ 63 -> 0 <= pos s <= zlen (data s) ->
  In w (g_subs g) -> make_view g w = Some v -> 5 <= s_size (snd (u_7 v)) ->
  let d := data s in
  forall c m' m'' p sc dec s' it, decoder_from m' (MkSrc d p sc) v = Ret (Ok dec, s') ->
  In (packing_template d v) [0; 40; 41; 200] -> dispatch c m'' dec = Ret (Ok it) -> exists out, Run it out End.
Proof. exact RefuseF.view_no_lazy_panic. Qed.
Print Assumptions C48_no_lazy_panic.

(** C48: complex packing, for whatever octets: [q] is section 7 without the extra
    descriptors.  With overflow that wraps (or, for template 5.2, where nothing overflows): a
    panic at once exactly where the group parameters are not all there; later, exactly where
    the packed values of the groups are not all there and the iterator has to reach them. *)
Theorem C48_complex : forall c m d, let p := d_sect5 d in let t := d_template d in let q := skipn (Z.to_nat (descriptors p t)) (d_sect7 d) in
  t = 2 \/ t = 3 -> reaches p (sect5_end p t) -> (forall e, ~ refused p t e) -> counts_fit p -> refs_bits p <= 31 ->
  m = Wrapping \/ (t = 2 /\ moderate p q) -> 0 <= d_total d <= 8 * zlen (d_bitmap d) ->
  if descriptors p t + values_start p <=? zlen (d_sect7 d)
  then exists it out, dispatch c m d = Ret (Ok it) /\
    (values_bits p q <= 8 * (zlen q - values_start p) -> Run it out End) /\
    (8 * (zlen q - values_start p) < values_bits p q ->
     values_count p q <= Z.of_nat (ones (firstn (Z.to_nat (d_total d)) (bits_of_bytes (d_bitmap d)))) -> Run it out Crash)
  else dispatch c m d = Panic.
Proof. exact GroupsX.complex_dispatch. Qed.
Print Assumptions C48_complex.
(** A group of 3 values of 4 bits, first order differences; with and without the values. *)
Definition ex_s7 : list byte := [x01; x00; x30].
Definition ex_dec (s7 : list byte) : decoder := MkDecoder 3 3 3
  (sect5_complex 3 3 0 0 0 4 0 0 0 1 4 0 3 1 3 0 (be_bytes 1 1 ++ be_bytes 1 1)) [xff] s7.
Example C48_complex_ex :
  let p := d_sect5 (ex_dec ex_s7) in
  reaches p (sect5_end p 3) /\ (forall e, ~ refused p 3 e) /\ counts_fit p /\ refs_bits p = 4 /\
  descriptors p 3 = 2 /\ values_start p = 1 /\ values_bits p [x30] = 12 /\ values_count p [x30] = 3 /\
  ones (firstn 3 (bits_of_bytes [xff])) = 3%nat.
Proof.
  cbv zeta. split; [vm_compute; congruence|]. split.
  { intros e H. set (p := d_sect5 (ex_dec ex_s7)) in *.
    assert (F : field p 21 21 = 0 /\ field p 22 22 = 1 /\ field p 23 23 = 0 /\ field p 48 48 = 1 /\ field p 49 49 = 1) by (vm_compute; auto).
    destruct F as (F1 & F2 & F3 & F4 & F5). unfold supported_templates in H.
    destruct H as [H|_ H|_ _ H|_ _ H|_ _ H|_ _ _ H]; rewrite ?F1, ?F2, ?F3, ?F4, ?F5 in H; cbn [In] in H; try lia. apply H. unfold supported_templates. cbn [In]. auto. }
  split; [unfold counts_fit; vm_compute; repeat split; congruence|]. repeat split; vm_compute; reflexivity.
Qed.
(** Group parameters missing; values missing; all there. *)
Definition run_of (d : decoder) : option (outcome (list f32)) :=
  match dispatch no_codecs Wrapping d with Ret (Ok it) => Some (collect 20 it) | _ => None end.
Example C48_complex_ex_runs :
  dispatch no_codecs Wrapping (ex_dec [x01; x00]) = Panic /\
  run_of (ex_dec [x01; x00; x30]) = Some Panic /\
  match run_of (ex_dec [x01; x00; x30; x12; x30]) with Some (Ret l) => length l = 3%nat | _ => False end.
Proof. vm_compute. auto. Qed.

(** C48: sections 5 that end before the fields of their template make the decoder panic. *)
Theorem C48_truncated : forall c m d,
  (In (d_template d) [0; 2; 3; 40; 41] -> ~ reaches (d_sect5 d) 21 -> dispatch c m d = Panic) /\
  (In (d_template d) [2; 3] -> field (d_sect5 d) 21 21 = 0 -> ~ reaches (d_sect5 d) 47 -> dispatch c m d = Panic) /\
  (d_template d = 3 -> field (d_sect5 d) 21 21 = 0 -> ~ reaches (d_sect5 d) 48 -> dispatch c m d = Panic) /\
  (d_template d = 3 -> field (d_sect5 d) 21 21 = 0 -> In (field (d_sect5 d) 48 48) [1; 2; 255] -> ~ reaches (d_sect5 d) 49 -> dispatch c m d = Panic) /\
  (d_template d = 200 -> ~ reaches (d_sect5 d) (sect5_end (d_sect5 d) 200) -> dispatch c m d = Panic).
Proof. exact PanicX.truncated_panics. Qed.
Print Assumptions C48_truncated.
Example C48_truncated_ex : ~ reaches (be_bytes 4 3 ++ be_bytes 2 0) 21 /\ reaches (be_bytes 4 3 ++ be_bytes 2 0) 11.
Proof. split; vm_compute; congruence. Qed.

(** C48: no groups: a panic where overflow is checked. *)
Theorem C48_zero_groups : forall p sect7 off nbit zmin, Complex.cp_ngroup p = 0 ->
  Complex.decode_complex_packing Checked p sect7 off nbit zmin = Panic.
Proof. exact ComplexP.zero_groups_panic. Qed.
Print Assumptions C48_zero_groups.
Example C48_zero_groups_ex : dispatch no_codecs Checked
  (MkDecoder 3 3 2 (sect5_complex 3 2 0 0 0 4 0 0 0 0 4 0 3 1 3 0 []) [xff] [x00]) = Panic.
Proof. vm_compute. reflexivity. Qed.
