(** Property theorems C89: the memory read for the samples of a JPEG 2000 image. *)
From Coq Require Import Lia.
From Verif Require Import Model.Base Model.Errors Model.F32 Model.Stream Model.Bitmap Model.Diff Model.Complex Model.Simple Model.Decoder Model.OpjMemory.
From Verif Require Import Spec.Bits Spec.BitmapS Spec.ReaderS Spec.FieldsS Spec.RefuseS Spec.DecodeS Spec.OpjMemoryS.
From Verif Require Proofs.OpjMemoryX.

(** C89: for a component that has a sample for every point of the image, as many samples are read as
    the component has - if they are less than 2^32; otherwise the call panics where overflow is
    checked, and reads no more than there are where it is not. *)
Theorem C89_full : forall m z gray i, siz_ok z -> z_dx z = 1 -> z_dy z = 1 -> decoded z 0 i gray ->
  (zlen gray < 2 ^ 32 -> samples_claimed m i = Ret (zlen gray)) /\
  (2 ^ 32 <= zlen gray -> match m with Checked => samples_claimed m i = Panic | Wrapping => samples_claimed m i = Ret (zlen gray mod 2 ^ 32) end).
Proof. exact OpjMemoryX.full. Qed.
Print Assumptions C89_full.
(** C89: and with discarded levels of resolution, if the image starts at a multiple of what they divide by. *)
Theorem C89_discarded : forall m z f gray i, siz_ok z -> z_dx z = 1 -> z_dy z = 1 -> 0 <= f < 32 -> z_x0 z mod 2 ^ f = 0 -> z_y0 z mod 2 ^ f = 0 -> decoded z f i gray ->
  zlen gray < 2 ^ 32 -> samples_claimed m i = Ret (zlen gray).
Proof. exact OpjMemoryX.discarded. Qed.
Print Assumptions C89_discarded.
(** C89, finding: a component is never read as if it had fewer samples than it has, and if the file says
    that it has samples only at every second column or row (XRsiz or YRsiz 2 or more) the call reads
    beyond its end. *)
Theorem C89_outside : forall m z gray i, siz_ok z -> decoded z 0 i gray -> width z * height z < 2 ^ 32 ->
  samples_claimed m i = Ret (width z * height z) /\ zlen gray <= width z * height z /\
  ((2 <= z_dx z /\ 2 <= width z /\ 1 <= height z) \/ (2 <= z_dy z /\ 2 <= height z /\ 1 <= width z) -> zlen gray < width z * height z).
Proof. exact OpjMemoryX.outside. Qed.
Print Assumptions C89_outside.
(** C89, finding: by a factor that the file chooses, up to 65025. *)
Theorem C89_times : forall m z gray i a b, siz_ok z -> decoded z 0 i gray -> z_x0 z = 0 -> z_y0 z = 0 -> z_x1 z = a * z_dx z -> z_y1 z = b * z_dy z ->
  z_x1 z * z_y1 z < 2 ^ 32 -> samples_claimed m i = Ret (z_dx z * z_dy z * zlen gray).
Proof. exact OpjMemoryX.times. Qed.
Print Assumptions C89_times.
(** C89: a decoder of a submessage in JPEG 2000 packing passes on these samples; where more are claimed than
    there are, the result is undefined, for which the model of decoding (C42, C47, C61) says [Panic]. *)
Theorem C89_decoder : forall c m d z gray i, let p := d_sect5 d in d_template d = 40 -> reaches p 21 -> field p 21 21 = 0 -> field p 20 20 <> 0 ->
  opj_image c (d_sect7 d) = Ok i -> decoded z 0 i gray -> forall n, samples_claimed m i = Ret n ->
  if zlen gray <? n then dispatch c m d = Panic
  else dispatch c m d = match bitmap_iter f32_nan (d_bitmap d) (simple_iter f32_of_Z (SimpleParam (f32_of_bits (field p 12 15)) (sfield p 16 17) (sfield p 18 19) (field p 20 20)) (iter_of_list (firstn (Z.to_nat n) gray))) (d_total d) with Some it => Ret (Ok it) | None => Ret (Err (EDecode LengthMismatch)) end.
Proof. exact OpjMemoryX.decoder_outside. Qed.
Print Assumptions C89_decoder.

(** Two rows of three columns, and four rows of four of which every second has samples. *)
Definition ex_plain : siz := MkSiz 5 7 8 9 1 1.
Definition ex_sub : siz := MkSiz 0 0 4 4 2 2.
Definition ex_image (z : siz) (f : Z) (gray : list Z) : j2k_image := MkJ2kImage (z_x0 z) (z_y0 z) (z_x1 z) (z_y1 z) f [gray].
Example C89_ex : siz_ok ex_plain /\ decoded ex_plain 0 (ex_image ex_plain 0 [1; 2; 3; 4; 5; 6]) [1; 2; 3; 4; 5; 6] /\
  samples_claimed Checked (ex_image ex_plain 0 [1; 2; 3; 4; 5; 6]) = Ret 6 /\
  siz_ok ex_sub /\ decoded ex_sub 0 (ex_image ex_sub 0 [1; 2; 3; 4]) [1; 2; 3; 4] /\
  samples_claimed Checked (ex_image ex_sub 0 [1; 2; 3; 4]) = Ret 16 /\ width ex_sub * height ex_sub = 16 /\
  (let z := MkSiz 8 0 13 5 1 1 in siz_ok z /\ decoded z 2 (ex_image z 2 [1; 2; 3; 4]) [1; 2; 3; 4] /\ samples_claimed Wrapping (ex_image z 2 [1; 2; 3; 4]) = Ret 4).
Proof. cbv zeta. unfold siz_ok, decoded. repeat split; vm_compute; congruence. Qed.
(** A submessage whose image is decoded, and one whose image is read beyond its end. *)
Definition ex_codecs (z : siz) (gray : list Z) : codecs := MkCodecs (fun _ => Ok (ex_image z 0 gray)) (fun _ => None).
Definition ex_s5 : list byte := be_bytes 4 6 ++ be_bytes 2 40 ++ be_bytes 4 1065353216 ++ be_bytes 2 0 ++ be_bytes 2 0 ++ [x08] ++ [x00] ++ [x00; xff].
Definition ex_decoder : decoder := MkDecoder 6 6 40 (ex_s5) [xfc] [].
Example C89_decoder_ex : reaches (ex_s5) 21 /\ field (ex_s5) 21 21 = 0 /\ field (ex_s5) 20 20 = 8 /\
  match dispatch (ex_codecs ex_plain [1; 2; 3; 4; 5; 6]) Checked ex_decoder with Ret (Ok it) => collect 9 it | _ => Panic end =
    Ret (map f32_of_Z [2; 3; 4; 5; 6; 7]) /\
  dispatch (ex_codecs ex_sub [1; 2; 3; 4]) Checked ex_decoder = Panic.
Proof. split; [vm_compute; congruence|]. repeat split; vm_compute; reflexivity. Qed.
