(** Statement-level lemmas for C01..C07. *)
From Coq Require Import Lia ZifyBool ZifyNat.
From Verif Require Import Model.Base Model.Helpers Model.Stream Model.Bitmap
  Spec.Bits Spec.BitmapS Proofs.BaseLemmas Proofs.HelpersP Proofs.BitsP Proofs.StreamP Proofs.BitmapP.
Ltac Zify.zify_post_hook ::= Z.div_mod_to_equations.

Lemma as_grib_int_all : forall m x,
  (0 <= x < 2 ^ 8 -> as_grib_int m U8 I8 x = Ret (sign_magnitude 1 x)) /\
  (0 <= x < 2 ^ 16 -> as_grib_int m U16 I16 x = Ret (sign_magnitude 2 x)) /\
  (0 <= x < 2 ^ 32 -> as_grib_int m U32 I32 x = Ret (sign_magnitude 4 x)) /\
  (0 <= x < 2 ^ 64 -> as_grib_int m U64 I64 x = Ret (sign_magnitude 8 x)).
Proof.
  intros m x. repeat split; intros H.
  - apply (as_grib_int_spec m U8 I8); [unfold grib_pair; auto|exact H].
  - apply (as_grib_int_spec m U16 I16); [unfold grib_pair; auto|exact H].
  - apply (as_grib_int_spec m U32 I32); [unfold grib_pair; auto|exact H].
  - apply (as_grib_int_spec m U64 I64); [unfold grib_pair; auto|exact H].
Qed.

Lemma read_signed : forall m l1 l3 v,
  (Z.abs v < 2 ^ 7 -> read_i8 m (l1 ++ sm_bytes 1 v ++ l3) (zlen l1) = Ret v) /\
  (Z.abs v < 2 ^ 15 -> read_i16 m (l1 ++ sm_bytes 2 v ++ l3) (zlen l1) = Ret v) /\
  (Z.abs v < 2 ^ 31 -> read_i32 m (l1 ++ sm_bytes 4 v ++ l3) (zlen l1) = Ret v).
Proof.
  intros m l1 l3 v.
  assert (L : forall n, zlen (sm_bytes n v) = Z.of_nat n) by (intros; apply zlen_be_bytes).
  repeat split; intros H.
  - unfold read_i8, read_u8. rewrite read_be_ok by (rewrite ?L; reflexivity). cbn [bind].
    pose proof (be_range (sm_bytes 1 v)) as R. rewrite L in R.
    rewrite (proj1 (as_grib_int_spec m U8 I8 _ ltac:(unfold grib_pair; auto) R)).
    f_equal. apply (sign_magnitude_sm_bytes 1); [lia|exact H].
  - unfold read_i16, read_u16. rewrite read_be_ok by (rewrite ?L; reflexivity). cbn [bind].
    pose proof (be_range (sm_bytes 2 v)) as R. rewrite L in R.
    rewrite (proj1 (as_grib_int_spec m U16 I16 _ ltac:(unfold grib_pair; auto) R)).
    f_equal. apply (sign_magnitude_sm_bytes 2); [lia|exact H].
  - unfold read_i32, read_u32. rewrite read_be_ok by (rewrite ?L; reflexivity). cbn [bind].
    pose proof (be_range (sm_bytes 4 v)) as R. rewrite L in R.
    rewrite (proj1 (as_grib_int_spec m U32 I32 _ ltac:(unfold grib_pair; auto) R)).
    f_equal. apply (sign_magnitude_sm_bytes 4); [lia|exact H].
Qed.

Lemma grib_int_from_bytes_roundtrip : forall m n v, (1 <= n <= 4)%nat ->
  Z.abs v < 2 ^ (8 * Z.of_nat n - 1) -> grib_int_from_bytes m (sm_bytes n v) = Ret v.
Proof.
  intros m n v Hn Hv. rewrite grib_int_from_bytes_spec.
  - unfold sm_bytes at 1. rewrite zlen_be_bytes. f_equal. apply sign_magnitude_sm_bytes; [lia|exact Hv].
  - unfold sm_bytes. rewrite zlen_be_bytes. lia.
Qed.

(** General: any width (also > 32) gives the low 32 bits of each field. *)
Lemma nbit_exact : forall m data n off, 0 <= off < 8 -> 1 <= n <= 32 ->
  Run (nbit_iter m (nbit_with_offset (nbit_new data n) off))
      (fields (bits_of_bytes data) (Z.to_nat off) (Z.to_nat n)
              (Z.to_nat ((8 * zlen data - off) / n))) End.
Proof. exact nbit_run_32. Qed.

Lemma nbit_wide : forall m data n off, 0 <= off < 8 -> 1 <= n ->
  Run (nbit_iter m (nbit_with_offset (nbit_new data n) off))
      (map (fun v => v mod 2 ^ 32)
         (fields (bits_of_bytes data) (Z.to_nat off) (Z.to_nat n)
              (Z.to_nat ((8 * zlen data - off) / n)))) End.
Proof. exact nbit_run. Qed.

(** Reachable iterator states. *)
Lemma nbit_reach_wf : forall m s l s', SSteps (nbit_next m) s l s' -> nb_wf s -> nb_wf s'.
Proof.
  intros m s l s' H. induction H as [s|s s1 s' a l Hn HS IH]; intros Hwf; [exact Hwf|].
  apply IH. destruct (Z.lt_ge_cases (8 * zlen (nb_data s)) (nb_bitpos s + nb_size s)) as [Hl|Hg].
  - rewrite nbit_next_none in Hn by assumption. discriminate.
  - destruct (nbit_next_some m s Hwf) as (s'' & E & Hwf' & _); [lia|]. congruence.
Qed.

Lemma nbit_stays_exhausted : forall m data n off l s s', 0 <= off < 8 -> 1 <= n ->
  SSteps (nbit_next m) (nbit_with_offset (nbit_new data n) off) l s ->
  nbit_next m s = Ret (None, s') -> nbit_next m s' = Ret (None, s').
Proof.
  intros m data n off l s s' Ho Hn HS HN.
  apply nbit_reach_wf in HS; [|unfold nb_wf; cbn; lia].
  assert (s' = s) by (eapply nbit_fused; eauto). subst. exact HN.
Qed.

Lemma bit_stream_zero : forall m data n, 0 <= n ->
  Run (bit_stream m data 0 n) (repeat 0 (Z.to_nat n)) End.
Proof.
  intros m data n Hn. unfold bit_stream. cbn [Z.eqb].
  rewrite <- (Z2Nat.id n) at 1 by lia. apply Run_fixed.
Qed.

(** Width 0 without the [BitStream] guard: an endless stream of zeros. *)
Lemma nbit_zero_endless : forall m data k, data <> [] ->
  SSteps (nbit_next m) (nbit_new data 0) (repeat 0 k) (nbit_new data 0).
Proof.
  intros m data k Hd. destruct data as [|b data]; [congruence|].
  induction k as [|k IH]; [constructor|]. cbn [repeat]. econstructor; [|exact IH].
  unfold nbit_next, nbit_new. cbv zeta. change ((0 + 0) / 8) with 0. change ((0 + 0) mod 8) with 0.
  replace ((zlen (b :: data) <=? 0) || (zlen (b :: data) <? 0 + 0) || ((0 + 0 =? zlen (b :: data)) && (0 <? 0))) with false.
  2:{ rewrite zlen_cons. pose proof (zlen_nonneg _ data). lia. }
  cbn [index Z.leb Z.compare Z.to_nat nth_error bind].
  rewrite shl_ok by (cbn; lia). cbn [bind]. rewrite shr_ok by (cbn; lia). cbn [bind].
  change (0 + 0 =? 0) with true. cbv iota. rewrite shr_ok by (cbn; lia). cbn [bind].
  change (8 - 0) with 8. pose proof (bz_range b) as R.
  rewrite wrap_unsigned by reflexivity. change (2 ^ 0) with 1. change (2 ^ bits_of U8) with 256.
  change (2 ^ 8) with 256. repeat f_equal. lia.
Qed.

(** ** C04 *)
Lemma bitmap_positions : forall A (nan : A) bitmap vals len,
  0 <= len <= 8 * zlen bitmap ->
  let bits := firstn (Z.to_nat len) (bits_of_bytes bitmap) in
  length vals = ones bits ->
  exists it out, bitmap_iter nan bitmap (iter_of_list vals) len = Some it /\ Run it out End
    /\ firstn (Z.to_nat len) out = place nan bits vals
    /\ length (firstn (Z.to_nat len) out) = Z.to_nat len.
Proof.
  intros A nan bitmap vals len Hl bits Hv.
  destruct (bitmap_iter_run A nan bitmap (iter_of_list vals) vals End len Hl (Run_iter_of_list _ vals))
    as (it & Eit & HR).
  set (bits' := if len <? 8 then firstn (Z.to_nat len) (bits_of_bytes bitmap) else bits_of_bytes bitmap) in *.
  exists it, (place nan bits' vals). split; [exact Eit|].
  split. { destruct (ones bits' <=? length vals)%nat; exact HR. }
  assert (Ef : firstn (Z.to_nat len) bits' = bits).
  { unfold bits', bits. destruct (len <? 8); [|reflexivity]. rewrite firstn_firstn, Nat.min_id. reflexivity. }
  rewrite place_prefix, Ef. split; [reflexivity|].
  rewrite place_length by lia. unfold bits.
  rewrite firstn_length, bits_of_bytes_length. unfold zlen in Hl. lia.
Qed.

(** ** C05 *)
(** With zero padding in the last octet (as the standard requires) the iterator
    yields one item per bit of the bitmap, not per grid point. *)
Lemma bitmap_extra_items : forall A (nan : A) bitmap vals len pad,
  8 <= len -> Z.of_nat pad = 8 * zlen bitmap - len ->
  bits_of_bytes bitmap = firstn (Z.to_nat len) (bits_of_bytes bitmap) ++ repeat false pad ->
  length vals = ones (firstn (Z.to_nat len) (bits_of_bytes bitmap)) ->
  exists it, bitmap_iter nan bitmap (iter_of_list vals) len = Some it
    /\ Run it (place nan (firstn (Z.to_nat len) (bits_of_bytes bitmap)) vals ++ repeat nan pad) End
    /\ length (place nan (firstn (Z.to_nat len) (bits_of_bytes bitmap)) vals) = Z.to_nat len.
Proof.
  intros A nan bitmap vals len pad H8 Hp Eb Hv.
  assert (Hl : 0 <= len <= 8 * zlen bitmap) by lia.
  destruct (bitmap_iter_run A nan bitmap (iter_of_list vals) vals End len Hl (Run_iter_of_list _ vals))
    as (it & Eit & HR).
  exists it. split; [exact Eit|]. replace (len <? 8) with false in HR by lia.
  set (bits := firstn (Z.to_nat len) (bits_of_bytes bitmap)) in *.
  split.
  - rewrite Eb in HR. rewrite <- (app_nil_r vals) in HR at 1.
    rewrite place_app in HR by exact Hv. rewrite place_repeat_false in HR.
    destruct (ones (bits ++ repeat false pad) <=? length vals)%nat; exact HR.
  - rewrite place_length by lia. unfold bits. rewrite firstn_length, bits_of_bytes_length.
    unfold zlen in Hl. lia.
Qed.

Lemma bitmap_count_ok : forall A (nan : A) bitmap vals len,
  0 <= len -> (len < 8 \/ len mod 8 = 0) -> zlen bitmap = (len + 7) / 8 ->
  length vals = ones (firstn (Z.to_nat len) (bits_of_bytes bitmap)) ->
  exists it out, bitmap_iter nan bitmap (iter_of_list vals) len = Some it
    /\ Run it out End /\ zlen out = len
    /\ out = place nan (firstn (Z.to_nat len) (bits_of_bytes bitmap)) vals.
Proof.
  intros A nan bitmap vals len H0 Hc Hb Hv.
  assert (Hl : 0 <= len <= 8 * zlen bitmap) by lia.
  destruct (bitmap_iter_run A nan bitmap (iter_of_list vals) vals End len Hl (Run_iter_of_list _ vals))
    as (it & Eit & HR).
  assert (Eb : (if len <? 8 then firstn (Z.to_nat len) (bits_of_bytes bitmap) else bits_of_bytes bitmap)
             = firstn (Z.to_nat len) (bits_of_bytes bitmap)).
  { destruct (Z.ltb_spec len 8) as [H8|H8]; [reflexivity|].
    symmetry. apply firstn_all2. rewrite bits_of_bytes_length. unfold zlen in Hb. lia. }
  rewrite Eb in HR. exists it. eexists. split; [exact Eit|]. split.
  - destruct (_ <=? _)%nat in HR; exact HR.
  - split; [|reflexivity]. unfold zlen at 1. rewrite place_length by lia.
    rewrite firstn_length, bits_of_bytes_length. unfold zlen in Hl. lia.
Qed.

(** ** C06 *)
Lemma bitmap_hint_first : forall A (nan : A) I step m bitmap v len s l s',
  0 <= len < 2 ^ 64 -> bitmap_new I bitmap v len = Some s ->
  SSteps (bitmap_next nan I step) s l s' -> zlen l < 8 -> zlen l <= len ->
  bitmap_size_hint I m s' = Ret (len - zlen l, Some (len - zlen l)).
Proof.
  intros A nan I step m bitmap v len s l s' Hl Hn HS H8 Hle.
  rewrite (bitmap_hint A nan I step m bitmap v len s l s' Hl Hn HS).
  pose proof (zlen_nonneg _ l). rewrite (Z.mod_small (zlen l) 8) by lia.
  change (2 ^ 64) with 18446744073709551616 in Hl.
  rewrite arith_ok by mlia. reflexivity.
Qed.

Lemma bitmap_hint_general : forall A (nan : A) I step m bitmap v len s l s',
  8 <= len < 2 ^ 64 -> bitmap_new I bitmap v len = Some s ->
  SSteps (bitmap_next nan I step) s l s' ->
  bitmap_size_hint I m s' = Ret (len - zlen l mod 8, Some (len - zlen l mod 8)).
Proof.
  intros A nan I step m bitmap v len s l s' Hl Hn HS.
  rewrite (bitmap_hint A nan I step m bitmap v len s l s' ltac:(lia) Hn HS).
  pose proof (zlen_nonneg _ l).
  change (2 ^ 64) with 18446744073709551616 in Hl.
  rewrite arith_ok by mlia. reflexivity.
Qed.

(** ** C07 *)
Lemma no_bitmap_passthrough : forall A (nan : A) vals,
  exists it, bitmap_iter nan (create_bitmap_for_nonnullable_data (zlen vals)) (iter_of_list vals) (zlen vals) = Some it
    /\ Run it vals End.
Proof.
  intros A nan vals. pose proof (zlen_nonneg _ vals) as H0.
  assert (Hl : 0 <= zlen vals <= 8 * zlen (create_bitmap_for_nonnullable_data (zlen vals))).
  { rewrite create_bitmap_length by lia. lia. }
  destruct (bitmap_iter_run A nan _ (iter_of_list vals) vals End _ Hl (Run_iter_of_list _ vals)) as (it & Eit & HR).
  exists it. split; [exact Eit|]. rewrite create_bitmap_bits in HR by lia.
  set (N := Z.to_nat (8 * ((zlen vals + 7) / 8))) in *.
  assert (HN : (length vals <= N)%nat) by (unfold N, zlen; lia).
  assert (E : place nan (if zlen vals <? 8 then firstn (Z.to_nat (zlen vals)) (repeat true N) else repeat true N) vals = vals).
  { destruct (zlen vals <? 8).
    - rewrite <- place_prefix, place_repeat_true.
      rewrite firstn_firstn. apply firstn_all2. unfold zlen. lia.
    - rewrite place_repeat_true. apply firstn_all2. exact HN. }
  rewrite E in HR. destruct (_ <=? _)%nat in HR; exact HR.
Qed.

(** More packed items than points: what comes out. *)
Lemma no_bitmap_general : forall A (nan : A) vals n, 0 <= n ->
  exists it, bitmap_iter nan (create_bitmap_for_nonnullable_data n) (iter_of_list vals) n = Some it
    /\ Run it (firstn (Z.to_nat (if n <? 8 then n else 8 * ((n + 7) / 8))) vals) End.
Proof.
  intros A nan vals n H0.
  assert (Hl : 0 <= n <= 8 * zlen (create_bitmap_for_nonnullable_data n)).
  { rewrite create_bitmap_length by lia. lia. }
  destruct (bitmap_iter_run A nan _ (iter_of_list vals) vals End _ Hl (Run_iter_of_list _ vals)) as (it & Eit & HR).
  exists it. split; [exact Eit|]. rewrite create_bitmap_bits in HR by lia.
  destruct (Z.ltb_spec n 8).
  - rewrite <- place_prefix, place_repeat_true in HR. rewrite firstn_firstn in HR.
    replace (Nat.min (Z.to_nat n) (Z.to_nat (8 * ((n + 7) / 8)))) with (Z.to_nat n) in HR by lia.
    destruct (_ <=? _)%nat in HR; exact HR.
  - rewrite place_repeat_true in HR. destruct (_ <=? _)%nat in HR; exact HR.
Qed.

Lemma count_refuted : exists (bitmap : list byte) (vals : list Z) (len : Z) it out,
    zlen bitmap = (len + 7) / 8
    /\ length vals = ones (firstn (Z.to_nat len) (bits_of_bytes bitmap))
    /\ bitmap_iter (-1) bitmap (iter_of_list vals) len = Some it
    /\ Run it out End /\ zlen out <> len.
Proof.
  exists [xff; x80], (repeat 7 9), 9. eexists. exists (repeat 7 9 ++ repeat (-1) 7).
  split; [reflexivity|]. split; [reflexivity|]. split; [reflexivity|]. split; [|discriminate].
  apply (collect_Run _ 20). vm_compute. reflexivity.
Qed.

Lemma hint_refuted : exists bitmap vals l s s',
  bitmap_new (list Z) bitmap vals 16 = Some s
  /\ SSteps (bitmap_next 0 (list Z) (istep (iter_of_list vals))) s l s' /\ zlen l = 8
  /\ Run (MkIter _ s' (bitmap_next 0 (list Z) (istep (iter_of_list vals)))) [9; 10; 11; 12; 13; 14; 15; 16] End
  /\ bitmap_size_hint (list Z) Checked s' = Ret (16, Some 16).
Proof.
  exists [xff; xff], [1;2;3;4;5;6;7;8;9;10;11;12;13;14;15;16], [1;2;3;4;5;6;7;8].
  eexists. eexists. split; [vm_compute; reflexivity|]. split.
  { do 8 (econstructor; [vm_compute; reflexivity|]). constructor. }
  split; [reflexivity|]. split; [|vm_compute; reflexivity].
  apply (collect_Run _ 20). vm_compute; reflexivity.
Qed.
