(** Property theorems C81 and C82: memory taken for the contents of sections and for run-length data. *)
From Coq Require Import Lia.
From Verif Require Import Model.Base Model.Errors Model.Sections Model.Reader Model.Parser Model.Context Model.Decoder Model.RunLength Model.Memory.
From Verif Require Import Spec.DecodeS Spec.RunLengthS Spec.MemoryS.
From Verif Require Proofs.MemoryX Proofs.MemoryR Props.P14_Cli.

(** C81: with as much memory as the file is long, reading ends as it does with any amount of memory,
    unless it ends with an error. *)
Theorem C81_read : forall left m fuel s, 0 <= pos s -> zlen (data s) < 2 ^ 63 -> zlen (data s) <= left ->
  (exists e, grib2_read m fuel s = Ret (Err e)) \/ mem_read left m fuel s = grib2_read m fuel s.
Proof. exact MemoryX.read_own. Qed.
Print Assumptions C81_read.
(** C81: and 2^32 - 5 octets more are enough for every input. *)
Theorem C81_any : forall left m fuel s, 0 <= pos s -> zlen (data s) < 2 ^ 63 -> zlen (data s) + 2 ^ 32 - 5 <= left ->
  mem_read left m fuel s = grib2_read m fuel s.
Proof. exact MemoryX.read_any. Qed.
Print Assumptions C81_any.
(** C81, finding: a file of 21 octets can make the reader take any number of octets below 2^32 - 5
    before it finds out that the data are not there. *)
Theorem C81_tiny : forall n, 0 < n < 2 ^ 32 - 5 -> zlen (tiny n) = 21 /\ forall m fuel, (0 < fuel)%nat ->
  grib2_read m fuel (cursor (tiny n)) = Ret (Err (EParse ReadErrorEof)) /\
  forall left, left < n -> mem_read left m fuel (cursor (tiny n)) = Diverge.
Proof. intros n H. split; [reflexivity|exact (MemoryX.tiny_read n H)]. Qed.
Print Assumptions C81_tiny.
(** C81: what the decoder of a submessage takes, exactly. *)
Theorem C81_decoder : forall m fuel s g w v, grib2_read m fuel s = Ret (Ok g) -> zlen (data s) < 2 ^ 63 -> 0 <= pos s <= zlen (data s) ->
  In w (g_subs g) -> make_view g w = Some v -> 5 <= s_size (snd (u_7 v)) ->
  let d := data s in
  In (bitmap_indicator d v) [0; 255] -> forall m' p sc left,
  exists dec s', decoder_from m' (MkSrc d p sc) v = Ret (Ok dec, s') /\
    mem_decoder m' v (MkSrc d p sc, left) = if decoder_memory d v <=? left then Ret (Ok dec, (s', left - decoder_memory d v)) else Diverge.
Proof. exact MemoryX.decoder_mem. Qed.
Print Assumptions C81_decoder.
(** C81: at most twice the length of the file - or, where there is no bitmap, its length and 2^29
    octets. *)
Theorem C81_decoder_bound : forall m fuel s g w v, grib2_read m fuel s = Ret (Ok g) -> zlen (data s) < 2 ^ 63 -> 0 <= pos s <= zlen (data s) ->
  In w (g_subs g) -> make_view g w = Some v -> 5 <= s_size (snd (u_7 v)) ->
  decoder_memory (data s) v <= 2 * zlen (data s) \/ (bitmap_indicator (data s) v <> 0 /\ decoder_memory (data s) v <= zlen (data s) + 2 ^ 29).
Proof. exact MemoryX.decoder_bound. Qed.
Print Assumptions C81_decoder_bound.

Definition ex_view : option view := match g_subs P14_Cli.ex_1 with w :: _ => make_view P14_Cli.ex_1 w | [] => None end.
Definition ex_decoder (left : Z) : Z + bool := match ex_view with
  | Some v => match mem_decoder Checked v (MkSrc P14_Cli.ex_one 7 [], left) with Ret (Ok _, (_, l)) => inl l | Ret _ => inr false | _ => inr true end
  | None => inr false end.
Example C81_ex :
  zlen P14_Cli.ex_one = 179 /\ mem_read 179 Checked 300 (cursor P14_Cli.ex_one) = Ret (Ok P14_Cli.ex_1) /\
  mem_read 50 Checked 300 (cursor P14_Cli.ex_one) = Diverge /\
  mem_read 999 Checked 1 (cursor (tiny 1000)) = Diverge /\ mem_read 1000 Checked 1 (cursor (tiny 1000)) = Ret (Err (EParse ReadErrorEof)) /\
  option_map (decoder_memory P14_Cli.ex_one) ex_view = Some 17 /\ option_map (bitmap_indicator P14_Cli.ex_one) ex_view = Some 255 /\
  ex_decoder 16 = inr true /\ ex_decoder 100 = inl 83.
Proof. vm_compute. repeat split; reflexivity. Qed.

(** C82: run-length data take memory for the points that they stand for, not for those expected. *)
Theorem C82_exact : forall left m input n maxv len, 0 <= left -> 1 <= n <= 15 -> 0 <= maxv -> maxv + 1 < 2 ^ n ->
  forall runs, split_runs maxv (codes_of input n) = ([], runs) -> runs_ok (base n maxv) runs ->
  mem_rleunpack left m input n maxv len =
    if zlen (flat_map (expand (base n maxv)) runs) <=? left then rleunpack m input n maxv len else Diverge.
Proof. exact MemoryR.rle_mem_exact. Qed.
Print Assumptions C82_exact.
(** C82: whatever the data, less memory makes no other difference. *)
Theorem C82_any : forall left m input n maxv len, 0 <= left ->
  mem_rleunpack left m input n maxv len = rleunpack m input n maxv len \/ mem_rleunpack left m input n maxv len = Diverge.
Proof. exact MemoryR.rle_mem_any. Qed.
Print Assumptions C82_any.
(** C82, finding: k + 1 octets can stand for 255^k points, and whatever number of points is expected
    the memory for all of them is taken before the numbers are compared. *)
Theorem C82_bomb : forall k, (k <= 8)%nat -> let input := x00 :: repeat xff k in
  zlen input = Z.of_nat k + 1 /\ forall m len, len <> 255 ^ Z.of_nat k ->
  rleunpack m input 8 0 (Some len) = Ret (Err RleLengthMismatch) /\
  forall left, 0 <= left < 255 ^ Z.of_nat k -> mem_rleunpack left m input 8 0 (Some len) = Diverge.
Proof. exact MemoryR.bomb. Qed.
Print Assumptions C82_bomb.
Example C82_ex :
  mem_rleunpack 255 Checked [x00; xff] 8 0 (Some 255) = Ret (Ok (repeat 0 255)) /\
  mem_rleunpack 255 Checked [x00; xff] 8 0 (Some 1) = Ret (Err RleLengthMismatch) /\
  mem_rleunpack 254 Checked [x00; xff] 8 0 (Some 1) = Diverge /\
  mem_rleunpack 0 Checked [xff; xff] 8 0 (Some 1) = Ret (Err InvalidFirstValue) /\
  split_runs 0 (codes_of [x00; xff] 8) = ([], [(0, [254])]).
Proof. vm_compute. repeat split; reflexivity. Qed.
