(** Property theorems C80: targets whose [usize] has 32 bits. *)
From Coq Require Import Lia.
From Verif Require Import Model.Base Model.Errors Model.Sections Model.Reader Model.Parser Model.Context Model.Decoder Model.Word.
From Verif Require Import Spec.ReaderS Spec.Layout Spec.Bits Spec.WordS.
From Verif Require Proofs.WordX Props.P14_Cli.

(** C80: a file that can be read where [usize] has 64 bits is read with the same result where it has
    32 bits, if it has less than 2^31 octets - and, in a build without overflow checks, if no data
    section claims to be shorter than its header. *)
Theorem C80_same : forall m fuel d p g, zlen d < 2 ^ 31 -> 0 <= p <= zlen d -> grib2_read m fuel (MkSrc d p []) = Ret (Ok g) ->
  (m = Wrapping -> Forall seven_ok (g_sections g)) -> word_read U32 m fuel (MkSrc d p []) = Ret (Ok g).
Proof. exact WordX.read_same. Qed.
Print Assumptions C80_same.
(** C80: its submessages have the same decoders, whatever was done with the reader before. *)
Theorem C80_decoders : forall m fuel d p g, zlen d < 2 ^ 31 -> 0 <= p <= zlen d -> grib2_read m fuel (MkSrc d p []) = Ret (Ok g) ->
  (m = Wrapping -> Forall seven_ok (g_sections g)) ->
  forall w v, In w (g_subs g) -> make_view g w = Some v -> forall m' s, word_decoder U32 m' s v = decoder_from m' s v.
Proof. exact WordX.decoder_same. Qed.
Print Assumptions C80_decoders.
(** C80, finding: a build for 32 bits without overflow checks skips about four gigabytes for a data
    section that claims to be shorter than its header; the data then end. *)
Theorem C80_back : forall s, let d := data (st_src s) in let cur := pos (st_src s) in
  zlen d < 2 ^ 31 -> 0 <= cur -> cur + 5 <= zlen d -> sched (st_src s) = [] -> be (octets d cur 4) < 5 -> be (octets d (cur + 4) 1) = 7 -> rest s <> 0 -> rest s <> 4 ->
  exists x s1 s2, wnext_section U32 Wrapping s = Ret (Some (Ok x), s1) /\ s_num x = 7 /\ s_size x = be (octets d cur 4) /\ wnext_section U32 Wrapping s1 = Ret (None, s2).
Proof. exact WordX.back_step. Qed.
Print Assumptions C80_back.
(** C80: for 64 bits this model is the one of all other properties. *)
Theorem C80_words : forall m s, 0 <= pos (st_src s) < 2 ^ 64 -> zlen (data (st_src s)) < 2 ^ 63 -> wnext_section U64 m s = next_section m s.
Proof. exact WordX.step64. Qed.
Print Assumptions C80_words.

(** The converse fails: the upper half of the total length is ignored where [usize] has 32 bits. *)
Definition ex_long : list byte := firstn 11 P14_Cli.ex_one ++ [x01] ++ skipn 12 P14_Cli.ex_one.
(** A data section that claims one octet: the header of the next section then begins with the second
    octet of its own header, and is accepted by a build for 64 bits without overflow checks; a build
    for 32 bits does not find it (C80_back). *)
Definition ex_back : list byte :=
  let tail := be_bytes 4 1 ++ [x07; x04] ++ be_bytes 4 0 ++ repeat x00 254 in
  let body := firstn (0xaa - 16) (skipn 16 P14_Cli.ex_one) ++ tail ++ firstn (0xaf - 0x8f) (skipn 0x8f P14_Cli.ex_one) ++ [x37; x37; x37; x37] in
  firstn 8 P14_Cli.ex_one ++ be_bytes 8 (zlen body + 16) ++ body.
Definition ex_kind (r : outcome (result grib2 grib_error)) : Z + option grib_error :=
  match r with Ret (Ok g) => inl (g_len g) | Ret (Err e) => inr (Some e) | _ => inr None end.
Example C80_ex :
  word_read U32 Wrapping 300 (cursor P14_Cli.ex_one) = Ret (Ok P14_Cli.ex_1) /\ word_read U32 Checked 300 (cursor P14_Cli.ex_one) = Ret (Ok P14_Cli.ex_1) /\
  forallb (fun x => (negb (s_num x =? 7) || (5 <=? s_size x))%bool) (g_sections P14_Cli.ex_1) = true /\
  map (fun r => ex_kind (r 300%nat (cursor ex_long))) [grib2_read Checked; grib2_read Wrapping; word_read U32 Checked; word_read U32 Wrapping] =
    [inr (Some (EParse ReadErrorEof)); inr (Some (EParse ReadErrorEof)); inl 1; inl 1] /\
  map (fun r => ex_kind (r 300%nat (cursor ex_back))) [grib2_read Checked; grib2_read Wrapping; word_read U32 Checked] = [inr None; inl 2; inr None].
Proof. vm_compute. repeat split; reflexivity. Qed.
Example C80_back_ex : let s := MkSstate (MkSrc ex_back 0xaa []) (zlen ex_back) (zlen ex_back - 0xaa) in
  be (octets ex_back 0xaa 4) = 1 /\ be (octets ex_back (0xaa + 4) 1) = 7 /\ zlen ex_back = 470 /\ rest s = 300.
Proof. vm_compute. repeat split; reflexivity. Qed.
