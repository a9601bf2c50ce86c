(** Property theorems C88: memory for complex packing. *)
From Coq Require Import Lia.
From Verif Require Import Model.Base Model.Errors Model.F32 Model.Sections Model.Reader Model.Parser Model.Context Model.Diff Model.Decoder Model.MemoryC.
From Verif Require Import Spec.Bits Spec.BitmapS Spec.ReaderS Spec.FieldsS Spec.ComplexS Spec.Layout Spec.DecodeS Spec.RefuseS Spec.GroupsS Spec.MemoryCS.
From Verif Require Proofs.MemoryCX Proofs.MemoryCB Props.P10_Decode.

(** C88: with room for [left] decoded points, a decoder gives what it gives with unlimited memory,
    unless it runs out of memory. *)
Theorem C88_same : forall c m d left,
  match mem_dispatch left c m d with
  | Ret (Ok it) => exists it', dispatch c m d = Ret (Ok it') /\ forall l e, Run it l e -> Run it' l e
  | x => dispatch c m d = x
  end.
Proof. exact MemoryCX.any. Qed.
Print Assumptions C88_same.
(** C88: room for the longest group is enough, however many groups there are. *)
Theorem C88_enough : forall c m d left, let p := d_sect5 d in let t := d_template d in let q := skipn (Z.to_nat (descriptors p t)) (d_sect7 d) in
  t = 2 \/ t = 3 -> counts_fit p -> Forall (fun l => l <= left) (group_lengths p q) ->
  forall it l e, dispatch c m d = Ret (Ok it) -> Run it l e -> exists it', mem_dispatch left c m d = Ret (Ok it') /\ Run it' l e.
Proof. exact MemoryCX.enough. Qed.
Print Assumptions C88_enough.
(** C88: without room for a group that is asked for - because the groups before it do not have a value
    for every point that the bitmap says has one - data that are decoded with unlimited memory
    end the process. *)
Theorem C88_exhausted : forall c m d, let p := d_sect5 d in let t := d_template d in let q := skipn (Z.to_nat (descriptors p t)) (d_sect7 d) in
  t = 2 \/ t = 3 -> reaches p (sect5_end p t) -> (forall e, ~ refused p t e) -> counts_fit p -> refs_bits p <= 31 ->
  m = Wrapping \/ (t = 2 /\ moderate p q) -> 0 <= d_total d <= 8 * zlen (d_bitmap d) ->
  descriptors p t + values_start p <= zlen (d_sect7 d) -> values_bits p q <= 8 * (zlen q - values_start p) ->
  forall left, 0 <= left -> points_before left (group_lengths p q) < values_count p q ->
  points_before left (group_lengths p q) < Z.of_nat (ones (firstn (Z.to_nat (d_total d)) (bits_of_bytes (d_bitmap d)))) ->
  exists it out it', dispatch c m d = Ret (Ok it) /\ Run it out End /\ mem_dispatch left c m d = Ret (Ok it') /\ forall l e, ~ Run it' l e.
Proof. exact MemoryCX.too_big. Qed.
Print Assumptions C88_exhausted.

(** C88, finding: a file of 204 octets that declares one point and is decoded to one value needs room
    for [n] points (8 octets each), for every [n] that a length field can hold. *)
Theorem C88_bomb : forall m fuel n, 1 <= n < 2 ^ 32 -> let d := file_bytes [([], one_group n)] [] in zlen d < Z.of_nat fuel ->
  zlen d = 204 /\
  forall c, exists g w v dec s' it x, from_slice m fuel d = Ret (Ok g) /\ g_subs g = [w] /\ make_view g w = Some v /\
    decoder_from m (g_src g) v = Ret (Ok dec, s') /\ dispatch c m dec = Ret (Ok it) /\ Run it [x] End /\
    forall left, 0 <= left -> exists it', mem_dispatch left c m dec = Ret (Ok it') /\
      if n <=? left then Run it' [x] End else forall l e, ~ Run it' l e.
Proof. intros m fuel n Hn d Hf. split; [exact (MemoryCB.bomb_size fuel n Hn)|exact (MemoryCB.bomb m fuel n Hn Hf)]. Qed.
Print Assumptions C88_bomb.

(** Two groups, of 2 and 3 points of 4 bits. *)
Definition ex_two (bitmap : list byte) : decoder :=
  MkDecoder 5 5 2 (sect5_complex 5 2 0 0 0 4 0 0 0 2 4 0 2 0 3 0 []) bitmap [x12; x12; x34; x50].
Definition ex_decoded (r : outcome (result (iter f32) grib_error)) : option (outcome (list f32)) :=
  match r with Ret (Ok it) => Some (collect 20 it) | _ => None end.
Example C88_ex_hypotheses : let d := ex_two [xff] in let p := d_sect5 d in
  reaches p (sect5_end p 2) /\ (forall e, ~ refused p 2 e) /\ counts_fit p /\ refs_bits p = 4 /\ moderate p (d_sect7 d) /\
  descriptors p 2 = 0 /\ values_start p = 1 /\ values_bits p (d_sect7 d) = 20 /\ group_lengths p (d_sect7 d) = [2; 3] /\ values_count p (d_sect7 d) = 5 /\
  map (fun left => points_before left (group_lengths p (d_sect7 d))) [1; 2; 3] = [0; 2; 5] /\
  ones (firstn 5 (bits_of_bytes [xff])) = 5%nat /\ ones (firstn 5 (bits_of_bytes [xc0])) = 2%nat.
Proof.
  cbv zeta. split; [vm_compute; congruence|]. split.
  { intros e H. set (p := d_sect5 (ex_two [xff])) in *. assert (F : field p 21 21 = 0 /\ field p 22 22 = 1 /\ field p 23 23 = 0) by (vm_compute; auto).
    destruct F as (F1 & F2 & F3). unfold supported_templates in H.
    destruct H as [H|_ H|_ _ H|H|H|H]; rewrite ?F1, ?F2, ?F3 in H; cbn [In] in H; try lia. apply H. unfold supported_templates. cbn [In]. auto. }
  split; [unfold counts_fit; vm_compute; repeat split; congruence|]. split; [vm_compute; reflexivity|].
  split. { unfold moderate. split; [vm_compute; congruence|]. split; [|split]; match goal with |- Forall _ ?l => let x := eval vm_compute in l in change l with x end; repeat constructor; vm_compute; congruence. }
  repeat split; vm_compute; reflexivity.
Qed.
Example C88_ex_runs : let run left d := ex_decoded (mem_dispatch left P10_Decode.no_codecs Checked d) in
  run 1 (ex_two [xff]) = Some Diverge /\ run 2 (ex_two [xff]) = Some Diverge /\
  match run 3 (ex_two [xff]) with Some (Ret l) => length l = 5%nat | _ => False end /\
  run 3 (ex_two [xff]) = ex_decoded (dispatch P10_Decode.no_codecs Checked (ex_two [xff])) /\
  run 1 (ex_two [xc0]) = Some Diverge.
Proof. vm_compute. repeat split; reflexivity. Qed.
Example C88_bomb_ex : zlen (file_bytes [([], one_group 5)] []) = 204 /\
  map (fun left => ex_decoded (mem_dispatch left P10_Decode.no_codecs Checked (MkDecoder 1 1 2 (sect5_complex 1 2 0 0 0 0 0 0 0 1 0 0 0 0 5 0 []) [xff] []))) [4; 5] =
  [Some Diverge; Some (Ret [f32_of_Z 0])].
Proof. vm_compute. split; reflexivity. Qed.
