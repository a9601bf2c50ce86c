(** Model of /repo/src/decoder.rs, /repo/src/decoder/jpeg2000.rs, the arithmetic and the
    stream callback of /repo/src/decoder/jpeg2000/ext.rs, and /repo/src/decoder/png.rs. *)
From Verif Require Import Model.Base Model.Helpers Model.Errors Model.F32 Model.Stream Model.Bitmap Model.Diff Model.Complex Model.Simple Model.RunLength.
From Verif Require Import Model.Sections Model.Reader Model.Parser Model.Context Model.Product.

(** ** JPEG 2000 *)

(** What OpenJPEG leaves in an [opj_image_t] (the fields that are used): the image area,
    for each component its samples, and the resolution factor of the first component. *)
Record j2k_image := MkJ2kImage {
  j_x0 : Z; j_y0 : Z; j_x1 : Z; j_y1 : Z; j_factor : Z; j_comps : list (list Z)
}.

(** The two libraries that are not modelled: OpenJPEG ([opj_setup_decoder],
    [opj_read_header], [opj_decode] as called in src/decoder/jpeg2000.rs:50-67) and the png
    crate (src/decoder/png.rs:53-60 [read_image_buffer]), as functions of the octets. *)
Record codecs := MkCodecs {
  opj_image : list byte -> result j2k_image j2k_error;
  png_buffer : list byte -> option (list byte)
}.

(** src/decoder/jpeg2000/ext.rs:155-164 [value_for_discard_level]; [div] is a [u32] by
    unification with [u], and [quot + 1] cannot overflow when [rem > 0]. *)
Definition value_for_discard_level (m : mode) (u discard_level : Z) : outcome Z :=
  let! div := shl m U32 1 discard_level in
  let quot := u / div in
  let rem := u mod div in
  if 0 <? rem then arith m U32 (quot + 1) else Ret quot.

(** src/decoder/jpeg2000/ext.rs:130-136 [width], [height]. *)
Definition j2k_width (m : mode) (i : j2k_image) : outcome Z := arith m U32 (j_x1 i - j_x0 i).
Definition j2k_height (m : mode) (i : j2k_image) : outcome Z := arith m U32 (j_y1 i - j_y0 i).

(** src/decoder/jpeg2000.rs:72-88: the samples of an image.  [factor] reads the first
    component (ext.rs:147-149) and [from_raw_parts] reads [width * height] samples without
    a check: where that is outside the memory of the component, the behaviour of the
    program is undefined.  [Panic] also stands for this here. *)
Definition j2k_samples (m : mode) (i : j2k_image) : outcome (result (list Z) j2k_error) :=
  let! width := j2k_width m i in
  let! height := j2k_height m i in
  if zlen (j_comps i) =? 0 then Panic
  else
    let! width := value_for_discard_level m width (j_factor i) in
    let! height := value_for_discard_level m height (j_factor i) in
    match j_comps i with
    | [gray] =>
        let! n := arith m U32 (width * height) in
        if zlen gray <? n then Panic else Ret (Ok (firstn (Z.to_nat n) gray))
    | _ => Ret (Err J2kNotSupported)
    end.

(** src/decoder/jpeg2000.rs:49-89 [decode_jp2]. *)
Definition decode_jp2 (c : codecs) (m : mode) (bytes : list byte) : outcome (result (list Z) j2k_error) :=
  match opj_image c bytes with
  | Err e => Ret (Err e)
  | Ok i => j2k_samples m i
  end.

(** src/decoder/jpeg2000.rs:23-47 [decode]. *)
Definition jpeg2000_decode (c : codecs) (m : mode) (sect5 sect7 : list byte) (num_points_encoded : Z)
  : outcome (result (iter f32) grib_error) :=
  let! b := slice sect5 6 16 in
  try! p := simple_param_from_buf m b in
  if sp_nbit p =? 0
  then Ret (Ok (fixed_iter (zero_bit_reference_value p) num_points_encoded))
  else
    let! r := decode_jp2 c m sect7 in
    match r with
    | Err e => Ret (Err (EDecode (Jpeg2000Error e)))
    | Ok l => Ret (Ok (simple_iter f32_of_Z p (iter_of_list l)))
    end.

(** src/decoder/jpeg2000/ext.rs:37-40 [SliceWithOffset] and 48-74 [opj_stream_read_fn]:
    one call of the read callback with a buffer of [nb] octets ([null]: no buffer); the
    octets written to the buffer, the return value is their number. *)
Definition opj_stream_read (m : mode) (buf : list byte) (offset : Z) (null : bool) (nb : Z)
  : outcome (list byte * Z) :=
  if null then Ret ([], offset)
  else
    let! bytes_left := arith m Usize (zlen buf - offset) in
    let bytes_read := Z.min bytes_left nb in
    let! e := arith m Usize (offset + bytes_read) in
    let! out := slice buf offset e in
    Ret (out, e).

(** ** PNG *)

(** src/decoder/png.rs:16-54 [decode]. *)
Definition png_decode (c : codecs) (m : mode) (sect5 sect7 : list byte) (num_points_encoded : Z)
  : outcome (result (iter f32) grib_error) :=
  let! b := slice sect5 6 16 in
  try! p := simple_param_from_buf m b in
  match png_buffer c sect7 with
  | None => Ret (Err (EDecode PngError))
  | Some buf =>
      if sp_nbit p =? 0
      then Ret (Ok (fixed_iter (zero_bit_reference_value p) num_points_encoded))
      else Ret (Ok (simple_iter f32_of_Z p (nbit_iter m (nbit_new buf (sp_nbit p)))))
  end.

(** ** The decoder of a submessage *)

(** src/decoder.rs:48-55 [Grib2SubmessageDecoder]. *)
Record decoder := MkDecoder {
  d_total : Z; d_encoded : Z; d_template : Z;
  d_sect5 : list byte; d_bitmap : list byte; d_sect7 : list byte
}.

(** [reader.read_sect_payload_as_slice(sect)?], src/error.rs:26-30. *)
Definition reread_grib (m : mode) (s : src) (sect : section) : outcome (result (list byte) grib_error * src) :=
  let! (r, s') := reread m s sect in
  Ret (match r with Ok l => Ok l | Err e => Err (EParse e) end, s').

(** [let x = e?; k] where [e] also returns the reader. *)
Definition try_src {A B E} (e : outcome (result A E * src)) (k : A -> src -> outcome (result B E * src))
  : outcome (result B E * src) :=
  let! (r, s) := e in
  match r with Ok a => k a s | Err x => Ret (Err x, s) end.

(** src/decoder.rs:96-113: the bitmap.  [s] is the reader. *)
Definition decoder_bitmap (m : mode) (s : src) (sect6 : section) (indicator num_points : Z)
  : outcome (result (list byte) grib_error * src) :=
  if indicator =? 0 then
    try_src (reread_grib m s sect6) (fun l s' => let! b := slice_from l 1 in Ret (Ok b, s'))
  else if indicator =? 255 then Ret (Ok (create_bitmap_for_nonnullable_data num_points), s)
  else Ret (Err (EDecode BitMapIndicatorUnsupported), s).

(** src/decoder.rs:77-123 [from], on the submessage [v] and the reader [s] it borrows. *)
Definition decoder_from (m : mode) (s : src) (v : view) : outcome (result decoder grib_error * src) :=
  match s_body (snd (u_3 v)), s_body (snd (u_5 v)), s_body (snd (u_6 v)) with
  | Some (B3 p3), Some (B5 p5), Some (B6 indicator) =>
      let! total := grid_num_points p3 in
      try_src (decoder_bitmap m s (snd (u_6 v)) indicator total) (fun bitmap s1 =>
      let! encoded := repr_num_points p5 in
      let! template := repr_tmpl_num p5 in
      try_src (reread_grib m s1 (snd (u_5 v))) (fun sect5 s2 =>
      try_src (reread_grib m s2 (snd (u_7 v))) (fun sect7 s3 =>
      Ret (Ok (MkDecoder total encoded template sect5 bitmap sect7), s3))))
  | _, _, _ => Ret (Err InternalDataError, s)
  end.

(** src/decoder.rs:129-142: the value iterator of the template (built for targets other
    than wasm32, where template 40 is not supported). *)
Definition template_values (c : codecs) (m : mode) (d : decoder) : outcome (result (iter f32) grib_error) :=
  match d_template d with
  | 0 => simple_decode m (d_sect5 d) (d_sect7 d) (d_encoded d)
  | 2 => decode_7_2 m (d_sect5 d) (d_sect7 d)
  | 3 => decode_7_3 m (d_sect5 d) (d_sect7 d)
  | 40 => jpeg2000_decode c m (d_sect5 d) (d_sect7 d) (d_encoded d)
  | 41 => png_decode c m (d_sect5 d) (d_sect7 d) (d_encoded d)
  | 200 => try! l := rle_decode m (d_sect5 d) (d_sect7 d) (d_encoded d) in Ret (Ok (iter_of_list l))
  | _ => Ret (Err (EDecode TemplateNumberUnsupported))
  end.

(** src/decoder.rs:126-146 [dispatch]. *)
Definition dispatch (c : codecs) (m : mode) (d : decoder) : outcome (result (iter f32) grib_error) :=
  try! values := template_values c m d in
  match bitmap_iter f32_nan (d_bitmap d) values (d_total d) with
  | Some it => Ret (Ok it)
  | None => Ret (Err (EDecode LengthMismatch))
  end.
