(** Property theorems C83: decoding on targets whose [usize] has 32 bits. *)
From Coq Require Import Lia.
From Verif Require Import Model.Base Model.Errors Model.F32 Model.Sections Model.Reader Model.Parser Model.Context Model.Decoder Model.Word Model.WordDecode.
From Verif Require Import Spec.Bits Spec.ReaderS Spec.RunLengthS Spec.DecodeS Spec.WordS.
From Verif Require Proofs.WordDecodeX Proofs.WordDecodeF Proofs.WordShort Model.Complex Props.P10_Decode.

(** C83: a file of less than 256 MiB whose submessage is decoded to the values [l] where [usize] has
    64 bits is read and decoded to the same values where it has 32 bits (not on wasm32: see
    C83_wasm), if the grid has at most 2^32 - 8 points, a PNG image in it has less than 256 MiB, and
    no run of template 5.200 has more digits than 32 bits can weigh. *)
Theorem C83_file : forall m fuel d p g c, zlen d < 2 ^ 28 -> 0 <= p <= zlen d -> grib2_read m fuel (MkSrc d p []) = Ret (Ok g) -> (m = Wrapping -> Forall seven_ok (g_sections g)) ->
  forall w v, In w (g_subs g) -> make_view g w = Some v -> grid_points d v <= 2 ^ 32 - 8 -> (forall b, png_buffer c (packed_data d v) = Some b -> zlen b < 2 ^ 28) ->
  forall m' q sc dec s' it l, decoder_from m' (MkSrc d q sc) v = Ret (Ok dec, s') -> (d_template dec = 200 -> digits_fit dec) -> dispatch c m' dec = Ret (Ok it) -> Run it l End ->
  exists it', word_read U32 m fuel (MkSrc d p []) = Ret (Ok g) /\ word_decoder U32 m' (MkSrc d q sc) v = Ret (Ok dec, s') /\ wdispatch U32 false c m' dec = Ret (Ok it') /\ Run it' l End.
Proof. exact WordDecodeF.file_values. Qed.
Print Assumptions C83_file.
(** C83: the same of a decoder, and in a build with overflow checks also of values followed by a panic. *)
Theorem C83_same : forall c m d it, small_data c d -> (d_template d = 200 -> digits_fit d) -> dispatch c m d = Ret (Ok it) ->
  exists it', wdispatch U32 false c m d = Ret (Ok it') /\ forall l e, Run it l e -> m = Checked \/ e = End -> Run it' l e.
Proof. exact WordDecodeX.dispatch_ok. Qed.
Print Assumptions C83_same.
(** C83: what is refused, or panics before the first value, does the same. *)
Theorem C83_refused : forall c m d, small_data c d -> (d_template d = 200 -> digits_fit d) -> (forall it, dispatch c m d <> Ret (Ok it)) -> wdispatch U32 false c m d = dispatch c m d.
Proof. exact WordDecodeX.dispatch_not_ok. Qed.
Print Assumptions C83_refused.
(** C83: wasm32 differs in template 5.40 alone, which it does not support. *)
Theorem C83_wasm : forall u c m d,
  (d_template d <> 40 -> wdispatch u true c m d = wdispatch u false c m d) /\
  (d_template d = 40 -> wdispatch u true c m d = Ret (Err (EDecode TemplateNumberUnsupported))).
Proof. intros u c m d. split; [apply WordDecodeX.wasm_other|apply WordDecodeX.wasm_jpeg]. Qed.
Print Assumptions C83_wasm.
(** C83, finding: with a run of more digits - leading zeros count - the build with overflow checks
    panics where [usize] has 32 bits although it decodes the data where it has 64 bits. *)
Theorem C83_digits : forall wasm c d it, let n := be (octets (d_sect5 d) 6 1) in let maxv := be (octets (d_sect5 d) 7 2) in
  zlen (d_sect7 d) < 2 ^ 28 -> d_template d = 200 -> 1 <= n <= 15 -> maxv + 1 < 2 ^ n -> dispatch c Checked d = Ret (Ok it) -> ~ digits_fit d ->
  wdispatch U32 wasm c Checked d = Panic.
Proof. exact WordDecodeX.digits_panic. Qed.
Print Assumptions C83_digits.
(** C83, finding: the number of bits of a bitmap for the last grid sizes does not fit into 32 bits. *)
Theorem C83_bitmap : forall c m d it, small_data c (MkDecoder (d_total d) (d_encoded d) (d_template d) (d_sect5 d) [] (d_sect7 d)) -> (d_template d = 200 -> digits_fit d) ->
  zlen (d_bitmap d) = 2 ^ 29 -> 0 < d_total d <= 2 ^ 32 -> dispatch c m d = Ret (Ok it) ->
  wdispatch U32 false c m d = match m with Checked => Panic | Wrapping => Ret (Err (EDecode LengthMismatch)) end.
Proof. exact WordDecodeF.bitmap_wraps. Qed.
Print Assumptions C83_bitmap.

(** Packed differences (C48_complex_ex), and run lengths: level 1, then digits 0 in base 254. *)
Definition ex_rle (digits : nat) : decoder := MkDecoder 1 1 200
  (be_bytes 4 1 ++ be_bytes 2 200 ++ [x08] ++ be_bytes 2 1 ++ be_bytes 2 1 ++ [x00] ++ be_bytes 2 7) [x80] (x01 :: repeat x02 digits).
Definition ex_values (r : outcome (result (iter f32) grib_error)) : outcome (list f32) := match r with Ret (Ok it) => collect 20 it | _ => Panic end.
Example C83_ex :
  let d := P10_Decode.ex_dec [x01; x00; x30; x12; x30] in
  ex_values (wdispatch U32 true P10_Decode.no_codecs Checked d) = ex_values (dispatch P10_Decode.no_codecs Checked d) /\
  match ex_values (dispatch P10_Decode.no_codecs Checked d) with Ret l => length l = 3%nat | _ => False end /\
  map (fun k => ex_values (dispatch P10_Decode.no_codecs Checked (ex_rle k))) [4; 5]%nat = [Ret [f32_of_Z 7]; Ret [f32_of_Z 7]] /\
  map (fun k => ex_values (wdispatch U32 true P10_Decode.no_codecs Checked (ex_rle k))) [4; 5]%nat = [Ret [f32_of_Z 7]; Panic].
Proof. vm_compute. repeat split; reflexivity. Qed.
Example C83_digits_ex : digits_fit (ex_rle 4) /\ ~ digits_fit (ex_rle 5).
Proof.
  unfold digits_fit. cbv zeta. change (be (octets (d_sect5 (ex_rle 4)) 6 1)) with 8. change (be (octets (d_sect5 (ex_rle 4)) 7 2)) with 1.
  change (be (octets (d_sect5 (ex_rle 5)) 6 1)) with 8. change (be (octets (d_sect5 (ex_rle 5)) 7 2)) with 1.
  change (snd (split_runs 1 (codes_of (d_sect7 (ex_rle 4)) 8))) with [(1, [0; 0; 0; 0])]. change (snd (split_runs 1 (codes_of (d_sect7 (ex_rle 5)) 8))) with [(1, [0; 0; 0; 0; 0])].
  change (base 8 1) with 254. split; [split; [lia|split; [lia|]]; repeat constructor|]. intros (_ & _ & F). inversion F as [|a b H]. discriminate H.
Qed.
(** Data with less than the last group: one group of 2^28 values of 16 bits, and none of them.  In a
    build without overflow checks 64 bits give a panic, 32 bits no value and no panic, so that
    [C83_same] does not extend to panics there. *)
Definition ex_short : decoder := MkDecoder 8 8 2
  (be_bytes 4 8 ++ be_bytes 2 2 ++ repeat x00 10 ++ [x01; x00] ++ repeat x00 8 ++ be_bytes 4 1 ++ [x10; x00] ++ be_bytes 4 0 ++ [x00] ++ be_bytes 4 (2 ^ 28) ++ [x00]) [xff] [].
Example C83_short : forall c, exists it it', dispatch c Wrapping ex_short = Ret (Ok it) /\ Run it [] Crash /\ wdispatch U32 false c Wrapping ex_short = Ret (Ok it') /\ Run it' [] End.
Proof.
  intros c. destruct (WordShort.short_64 c (d_sect5 ex_short) (repeat x00 10) (firstn 26 (skipn 16 (d_sect5 ex_short))) (Complex.SimpleParam (f32_of_bits 0) 0 0 0) (2 ^ 25)) as (it & A & B); try reflexivity.
  destruct (WordShort.short_32 c (d_sect5 ex_short) (repeat x00 10) (firstn 26 (skipn 16 (d_sect5 ex_short))) (Complex.SimpleParam (f32_of_bits 0) 0 0 0) (2 ^ 25)) as (it' & C & D); try reflexivity.
  exists it, it'. auto.
Qed.
(** The file of C46_ex meets the hypotheses of C83_file. *)
Definition ex_word (m : mode) (d : list byte) : option (list f32) :=
  match word_read U32 m 200 (cursor d) with
  | Ret (Ok g) => match map (make_view g) (g_subs g) with
    | [Some v] => match word_decoder U32 m (g_src g) v with
      | Ret (Ok dec, _) => match ex_values (wdispatch U32 false P10_Decode.no_codecs m dec) with Ret l => Some l | _ => None end
      | _ => None end
    | _ => None end
  | _ => None end.
Example C83_file_ex : zlen P10_Decode.ex_d < 2 ^ 28 /\
  ex_word Checked P10_Decode.ex_d = Some ([f32_of_Z 15] ++ repeat f32_nan 2 ++ [f32_of_Z 1] ++ repeat f32_nan 5 ++ [f32_of_Z 31] ++ repeat f32_nan 6) /\
  match from_slice Wrapping 200 P10_Decode.ex_d with
  | Ret (Ok g) => forallb (fun x => (negb (s_num x =? 7) || (5 <=? s_size x))%bool) (g_sections g) = true /\
      match map (make_view g) (g_subs g) with [Some v] => grid_points P10_Decode.ex_d v = 10 | _ => False end
  | _ => False
  end.
Proof. split; [vm_compute; reflexivity|]. split; [vm_compute; reflexivity|]. vm_compute. split; reflexivity. Qed.
