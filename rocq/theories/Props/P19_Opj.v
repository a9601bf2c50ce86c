(** Property theorems C79: the calls of the JPEG 2000 library. *)
From Coq Require Import Lia.
From Verif Require Import Model.Base Model.Errors Model.Decoder Model.Opj Spec.OpjS.
From Verif Require Proofs.OpjX.

(** C79: whatever the library does - whichever of its calls fail, whatever octets it asks for - and
    however decoding ends, each object is created at most once and then, after its last use,
    destroyed exactly once (the user data of a stream, if there is a stream). *)
Theorem C79_released : forall lib m buf, zlen buf < 2 ^ 63 -> forall o, (o = OUser -> lib_stream lib = true) ->
  clean o (fst (opj_decode lib m buf)).
Proof. exact OpjX.opj_clean. Qed.
Print Assumptions C79_released.
(** C79, finding: if the stream cannot be created, its user data are never released. *)
Theorem C79_leak : forall lib m buf, lib_stream lib = false -> leaked OUser (fst (opj_decode lib m buf)).
Proof. exact OpjX.opj_leak. Qed.
Print Assumptions C79_leak.
(** C79: the library gets at the octets only while the stream exists. *)
Theorem C79_inside : forall lib m buf, zlen buf < 2 ^ 63 -> inside OUser OStream (fst (opj_decode lib m buf)).
Proof. exact OpjX.opj_inside. Qed.
Print Assumptions C79_inside.
(** C79: the result depends on the octets of the data section alone: it is what the library makes of
    them when they are served to it in order, or the error of the first call that fails; a library is
    a function from octets to images, as the model of decoding (C46, C47) has it. *)
Theorem C79_result : forall lib m buf png, zlen buf < 2 ^ 63 ->
  snd (opj_decode lib m buf) = decode_jp2 (MkCodecs (image_of lib) png) m buf.
Proof. exact OpjX.opj_result. Qed.
Print Assumptions C79_result.

(** A library that reads three octets for the header and the rest for the body, whose octets are the
    samples of one row. *)
Definition ex_lib (codec setup header : bool) : library :=
  MkLibrary true codec setup (AskFor false 3 (fun l => if header then Finish HeaderRead else Finish (HeaderFailed true)))
    (AskFor true 7 (fun _ => AskFor false 100 (fun l => Finish (BodyDecoded (MkJ2kImage 0 0 (zlen l) 1 0 [map bz l]))))).
Example C79_ex :
  opj_decode (ex_lib true true true) Checked [x01; x02; x03; x04; x05] =
    ([Create OUser; Create OStream; Use OStream; Use OStream; Use OStream; Create OCodec; Use OCodec; Use OStream; Use OCodec; Use OUser;
      Create OImage; Use OCodec; Use OStream; Use OImage; Use OUser; Use OUser; Destroy OCodec; Destroy OUser; Destroy OStream; Use OImage; Destroy OImage],
     Ret (Ok [4; 5])) /\
  snd (opj_decode (ex_lib true true false) Checked [x01; x02; x03]) = Ret (Err MainHeaderReadError) /\
  filter (about OImage) (fst (opj_decode (ex_lib true true false) Checked [])) = [Create OImage; Destroy OImage] /\
  snd (opj_decode (ex_lib true false false) Checked [x01; x02; x03]) = Ret (Err DecoderSetupError) /\
  snd (opj_decode (ex_lib false true true) Checked [x01; x02; x03]) = Ret (Err DecoderSetupError).
Proof. vm_compute. repeat split. Qed.
