(** Model of the decoders of /repo/src/decoder on a target whose [usize] has another number of bits
    than 64 (Model/Word.v follows reading up to the payloads they start from).  Every function is
    that of Model/Stream.v, Complex.v, Simple.v, RunLength.v, Bitmap.v or Decoder.v with the type [u]
    of the target in the place of [usize]: sums and products that cannot overflow where it has 64
    bits are checked (or wrapped) here.  Memory is not limited here: a vector of more than
    [isize::MAX] octets, which such a target cannot allocate, does not end the program. *)
From Verif Require Import Model.Base Model.Helpers Model.Errors Model.F32 Model.Stream Model.Diff Model.Complex Model.Simple Model.RunLength Model.Bitmap Model.Decoder.

(** src/decoder/stream.rs:95-127 [NBitwiseIterator::next]. *)
Definition wnbit_next (u : ity) (m : mode) (s : nbit_state) : outcome (option Z * nbit_state) :=
  let '(NBit data size pos offset) := s in
  let! new_offset := arith m u (offset + size) in
  let! new_pos := arith m u (pos + new_offset / 8) in
  let new_offset := new_offset mod 8 in
  if (zlen data <=? pos) || (zlen data <? new_pos)
     || ((new_pos =? zlen data) && (0 <? new_offset))
  then Ret (None, s)
  else
    let! b := index data pos in
    let! v := shl m U8 (bz b) offset in
    let! v := shr m U8 v offset in
    let! val :=
      (if new_pos =? pos then
         let! k := arith m u (8 - new_offset) in
         shr m U32 v k
       else
         let! pos1 := arith m u (pos + 1) in
         let! v := nbit_accumulate (Z.to_nat (new_pos - pos1)) m data pos1 v in
         if 0 <? new_offset then
           let! lb := index data new_pos in
           let! k := arith m u (8 - new_offset) in
           let! last_val := shr m U32 (bz lb) k in
           let! v := shl m U32 v new_offset in
           Ret (Z.lor v last_val)
         else Ret v) in
    Ret (Some val, NBit data size new_pos new_offset).
Definition wnbit_iter (u : ity) (m : mode) (s : nbit_state) : iter Z := MkIter nbit_state s (wnbit_next u m).

(** src/decoder/stream.rs:1-30 [BitStream::new] and its [next]. *)
Definition wbit_stream (u : ity) (m : mode) (data : list byte) (unit_size length : Z) : iter Z :=
  if unit_size =? 0 then fixed_iter 0 length
  else wnbit_iter u m (nbit_new data unit_size).

(** src/decoder/complex.rs:239-267: a group with incremental data. *)
Definition wgroup_packed (u : ity) (m : mode) (mvm z_min : Z) (data : list byte) (pos off ref width length : Z)
  : outcome (list dv * Z * Z) :=
  if max_of I32 <? ref then Panic
  else
    let! product := arith m u (width * length) in
    let! bits := arith m u (off + product) in
    let! pos_end := arith m u (pos + bits / 8) in
    let offset_bits := bits mod 8 in
    let offset_byte := if 0 <? offset_bits then 1 else 0 in
    let! one := shl m U32 1 width in
    let! missing1 := arith m U32 (one - 1) in
    let! missing2 := arith m U32 (missing1 - 1) in
    let! stop := arith m u (pos_end + offset_byte) in
    let! d := slice data pos stop in
    let it := itake length (wnbit_iter u m (nbit_with_offset (nbit_new d width) off)) in
    let! vals := collect (S (Z.to_nat length)) (imap (group_value m mvm z_min ref missing1 missing2) it) in
    Ret (vals, pos_end, offset_bits).

Section Groups.
  Variables R W L : Type.
  Variable ref_next : R -> outcome (option Z * R).
  Variable width_next : W -> outcome (option Z * W).
  Variable len_next : L -> outcome (option Z * L).
  Variable u : ity.
  Variable m : mode.
  Variables mvm nbit z_min : Z.
  Variable data : list byte.

  (** src/decoder/complex.rs:217-270 [next]. *)
  Definition wgroups_next (s : groups_state R W L) : outcome (option (list dv) * groups_state R W L) :=
    let '(GS r w l pos off) := s in
    let! (oref, r') := ref_next r in
    let! (owidth, w') := width_next w in
    let! (olen, l') := len_next l in
    match oref, owidth, olen with
    | Some ref, Some width, Some length =>
        if width =? 0 then
          let! vs := group_constant m mvm nbit z_min ref length in
          Ret (Some vs, GS r' w' l' pos off)
        else
          let! (vs, pos', off') := wgroup_packed u m mvm z_min data pos off ref width length in
          Ret (Some vs, GS r' w' l' pos' off')
    | _, _, _ => Ret (None, GS r' w' l' pos off)
    end.

  (** [Iterator::flatten] over the groups, as in Model/Complex.v. *)
  Fixpoint wflat_next (fuel : nat) (s : flat_state R W L) : outcome (option dv * flat_state R W L) :=
    match s with
    | (v :: front, outer) => Ret (Some v, (front, outer))
    | ([], None) => Ret (None, ([], None))
    | ([], Some g) =>
        match fuel with
        | O => Diverge
        | S fuel' =>
            let! (o, g') := wgroups_next g in
            match o with
            | None => Ret (None, ([], None))
            | Some vs => wflat_next fuel' (vs, Some g')
            end
        end
    end.
End Groups.

(** src/decoder/complex.rs:111-167 [decode_complex_packing]. *)
Definition wdecode_complex_packing (u : ity) (m : mode) (p : complex_param) (sect7 : list byte)
    (sect7_offset nbit z_min : Z) : outcome (iter dv) :=
  let params_end := sect7_offset in
  let! l := get_octet_length m nbit (cp_ngroup p) in
  let! refs_end := arith m u (params_end + l) in
  let! l := get_octet_length m (cp_width_nbit p) (cp_ngroup p) in
  let! widths_end := arith m u (refs_end + l) in
  let! l := get_octet_length m (cp_len_nbit p) (cp_ngroup p) in
  let! lens_end := arith m u (widths_end + l) in
  let! d := slice sect7 params_end refs_end in
  let refs := itake (cp_ngroup p) (wbit_stream u m d nbit (cp_ngroup p)) in
  let! d := slice sect7 refs_end widths_end in
  let widths :=
    imap (fun v => arith m U32 (cp_width_ref p + v))
      (itake (cp_ngroup p) (wbit_stream u m d (cp_width_nbit p) (cp_ngroup p))) in
  let! d := slice sect7 widths_end lens_end in
  let! n1 := arith m U32 (cp_ngroup p - 1) in
  let lens :=
    ichain_once
      (imap (fun v => let! t := arith m U32 (cp_len_inc p * v) in arith m U32 (cp_len_ref p + t))
        (itake n1 (wbit_stream u m d (cp_len_nbit p) n1)))
      (cp_len_last p) in
  let! data := slice_from sect7 lens_end in
  Ret (MkIter (flat_state (ist refs) (ist widths) (ist lens))
         ([], Some (GS (icur refs) (icur widths) (icur lens) 0 0))
         (wflat_next _ _ _ (istep refs) (istep widths) (istep lens) u m (cp_missing p) nbit z_min data
            (S (S (Z.to_nat (cp_ngroup p)))))).

(** src/decoder/complex.rs:30-54 [decode_7_2]. *)
Definition wdecode_7_2 (u : ity) (m : mode) (sect5 sect7 : list byte) : outcome (result (iter f32) grib_error) :=
  let! b := slice sect5 6 16 in
  try! sp := simple_param_from_buf m b in
  let! b := slice sect5 16 42 in
  let! cp := complex_param_from_buf b in
  if complex_unsupported cp
  then Ret (Err (EDecode (ComplexPackingError ComplexNotSupported)))
  else
    let! it := wdecode_complex_packing u m cp sect7 0 (sp_nbit sp) 0 in
    Ret (Ok (simple_iter dv_to_f32 sp it)).

(** src/decoder/complex.rs:56-109 [decode_7_3]; the numbers of octets in
    src/decoder/complex/diff.rs:7-80 are at most 12. *)
Definition wdecode_7_3 (u : ity) (m : mode) (sect5 sect7 : list byte) : outcome (result (iter f32) grib_error) :=
  let! b := slice sect5 6 16 in
  try! sp := simple_param_from_buf m b in
  let! b := slice sect5 16 42 in
  let! cp := complex_param_from_buf b in
  let! order := read_u8 sect5 42 in
  match table5_6_of order with
  | None => Ret (Err NotSupported)
  | Some order =>
      let! octets := read_u8 sect5 43 in
      if complex_unsupported cp || match order with Missing56 => true | _ => false end
      then Ret (Err (EDecode (ComplexPackingError ComplexNotSupported)))
      else
        try! d := spdiff_new m sect7 (table5_6_code order) octets in
        let! z_min := spdiff_minimum m d in
        let! it := wdecode_complex_packing u m cp sect7 (spdiff_len d) (sp_nbit sp) z_min in
        let! first := collect_first_values m d in
        match order with
        | FirstOrder => Ret (Ok (simple_iter dv_to_f32 sp (diff1_iter m it first)))
        | SecondOrder => Ret (Ok (simple_iter dv_to_f32 sp (diff2_iter m it first)))
        | Missing56 => Panic
        end
  end.

(** src/decoder/simple.rs:48-65 [decode]. *)
Definition wsimple_decode (u : ity) (m : mode) (sect5 sect7 : list byte) (num_points_encoded : Z)
  : outcome (result (iter f32) grib_error) :=
  let! b := slice sect5 6 16 in
  try! p := simple_param_from_buf m b in
  if sp_nbit p =? 0
  then Ret (Ok (fixed_iter (zero_bit_reference_value p) num_points_encoded))
  else Ret (Ok (simple_iter f32_of_Z p (wnbit_iter u m (nbit_new sect7 (sp_nbit p))))).

(** src/decoder/png.rs:16-54 [decode]. *)
Definition wpng_decode (u : ity) (c : codecs) (m : mode) (sect5 sect7 : list byte) (num_points_encoded : Z)
  : outcome (result (iter f32) grib_error) :=
  let! b := slice sect5 6 16 in
  try! p := simple_param_from_buf m b in
  match png_buffer c sect7 with
  | None => Ret (Err (EDecode PngError))
  | Some buf =>
      if sp_nbit p =? 0
      then Ret (Ok (fixed_iter (zero_bit_reference_value p) num_points_encoded))
      else Ret (Ok (simple_iter f32_of_Z p (wnbit_iter u m (nbit_new buf (sp_nbit p)))))
  end.

(** src/decoder/run_length.rs:78-88. *)
Definition wrle_body (u : ity) (m : mode) (rlbase lngu value : Z) (s : rle_state)
  : outcome (result rle_state rle_error) :=
  let value := wrap U16 value in
  if value <? rlbase then
    Ret (Ok (RLE (rle_out s ++ [value]) (Some value) 1))
  else
    match rle_cached s with
    | None => Ret (Err InvalidFirstValue)
    | Some prev =>
        let! length := arith m u ((value - rlbase) * rle_exp s) in
        let out := rle_out s ++ repeat prev (Z.to_nat length) in
        let! exp := arith m u (rle_exp s * lngu) in
        Ret (Ok (RLE out (Some prev) exp))
    end.
(** src/decoder/run_length.rs:77-89. *)
Fixpoint wrle_loop (fuel : nat) (u : ity) (m : mode) (rlbase lngu : Z) (it : nbit_state) (s : rle_state)
  : outcome (result rle_state rle_error) :=
  match fuel with
  | O => Diverge
  | S fuel' =>
      let! (o, it') := wnbit_next u m it in
      match o with
      | None => Ret (Ok s)
      | Some value =>
          try! s' := wrle_body u m rlbase lngu value s in
          wrle_loop fuel' u m rlbase lngu it' s'
      end
  end.
(** src/decoder/run_length.rs:60-98 [rleunpack]. *)
Definition wrleunpack (u : ity) (m : mode) (input : list byte) (nbit maxv : Z) (expected_len : option Z)
  : outcome (result (list Z) rle_error) :=
  let! rlbase := arith m U16 (maxv + 1) in
  let! one := shl m U16 1 nbit in
  let! lngu := arith m U16 (one - rlbase) in
  try! s := wrle_loop (rle_fuel input) u m rlbase lngu (nbit_new input nbit) (RLE [] None 1) in
  match expected_len with
  | Some len => if len =? zlen (rle_out s) then Ret (Ok (rle_out s)) else Ret (Err RleLengthMismatch)
  | None => Ret (Ok (rle_out s))
  end.
(** src/decoder/run_length.rs:15-57 [decode]. *)
Definition wrle_decode (u : ity) (m : mode) (sect5 sect7 : list byte) (num_points_encoded : Z)
  : outcome (result (list f32) grib_error) :=
  let! nbit := read_u8 sect5 6 in
  let! maxv := read_u16 sect5 7 in
  let! max_level := read_u16 sect5 9 in
  let! num_digits := read_u8 sect5 11 in
  let! levels := level_values (Z.to_nat max_level) sect5 12 num_digits in
  let level_map := f32_nan :: levels in
  let! r := wrleunpack u m sect7 nbit maxv (Some num_points_encoded) in
  match r with
  | Err e => Ret (Err (EDecode (RunLengthError e)))
  | Ok decoded => Ret (map_levels level_map decoded)
  end.

(** src/decoder.rs:129-142: the value iterator of the template; on wasm32 ([wasm]) template 40 is
    not supported. *)
Definition wtemplate_values (u : ity) (wasm : bool) (c : codecs) (m : mode) (d : decoder) : outcome (result (iter f32) grib_error) :=
  match d_template d with
  | 0 => wsimple_decode u m (d_sect5 d) (d_sect7 d) (d_encoded d)
  | 2 => wdecode_7_2 u m (d_sect5 d) (d_sect7 d)
  | 3 => wdecode_7_3 u m (d_sect5 d) (d_sect7 d)
  | 40 => if wasm then Ret (Err (EDecode TemplateNumberUnsupported)) else jpeg2000_decode c m (d_sect5 d) (d_sect7 d) (d_encoded d)
  | 41 => wpng_decode u c m (d_sect5 d) (d_sect7 d) (d_encoded d)
  | 200 => try! l := wrle_decode u m (d_sect5 d) (d_sect7 d) (d_encoded d) in Ret (Ok (iter_of_list l))
  | _ => Ret (Err (EDecode TemplateNumberUnsupported))
  end.

(** src/decoder.rs:126-146 [dispatch] and src/decoder/bitmap.rs:16-27 [new]: [bitmap_len * 8]. *)
Definition wdispatch (u : ity) (wasm : bool) (c : codecs) (m : mode) (d : decoder) : outcome (result (iter f32) grib_error) :=
  try! values := wtemplate_values u wasm c m d in
  let! bits := arith m u (zlen (d_bitmap d) * 8) in
  if bits <? d_total d then Ret (Err (EDecode LengthMismatch))
  else Ret (Ok (MkIter (bitmap_state (ist values)) (BM (d_bitmap d) (icur values) (d_total d) 0) (bitmap_next f32_nan (ist values) (istep values)))).
