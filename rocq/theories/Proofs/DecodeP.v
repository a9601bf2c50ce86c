(** The decoder of a submessage. *)
From Coq Require Import Lia ZifyBool ZifyNat.
From Verif Require Import Model.Base Model.Helpers Model.Errors Model.F32 Model.Stream Model.Bitmap Model.Diff Model.Complex Model.Simple Model.RunLength.
From Verif Require Import Model.Sections Model.Reader Model.Parser Model.Context Model.Product Model.Decoder.
From Verif Require Import Spec.Bits Spec.BitmapS Spec.ReaderS Spec.ParserS Spec.ContextS Spec.FieldsS Spec.SimpleS Spec.DecodeS.
From Verif Require Proofs.FileP.
From Verif Require Import Proofs.BaseLemmas Proofs.HelpersP Proofs.BitsP Proofs.BitmapP Proofs.Bits2 Proofs.ReaderP Proofs.FieldsP Proofs.FieldsX Proofs.ContextX Proofs.ViewX.
Ltac Zify.zify_post_hook ::= Z.div_mod_to_equations.

Section View.
  Variables (m : mode) (fuel : nat) (s : src) (g : grib2) (w : submessage Z) (v : view).
  Hypothesis Hr : grib2_read m fuel s = Ret (Ok g).
  Hypothesis Hd : zlen (data s) < 2 ^ 63.
  Hypothesis Hp : 0 <= pos s <= zlen (data s).
  Hypothesis Hw : In w (g_subs g).
  Hypothesis Hv : make_view g w = Some v.
  Let d := data s.

  Lemma decoder_fields :
    s_body (snd (u_3 v)) = Some (B3 (from_octet d (u_3 v) 6)) /\
    s_body (snd (u_5 v)) = Some (B5 (packing d v)) /\
    s_body (snd (u_6 v)) = Some (B6 (bitmap_indicator d v)) /\
    grid_num_points (from_octet d (u_3 v) 6) = Ret (grid_points d v) /\
    repr_num_points (packing d v) = Ret (packed_points d v) /\
    repr_tmpl_num (packing d v) = Ret (packing_template d v) /\
    0 <= grid_points d v < 2 ^ 32 /\ 0 <= packed_points d v < 2 ^ 32 /\ 6 <= s_size (snd (u_6 v)) /\ 11 <= s_size (snd (u_5 v)).
  Proof.
    destruct (file_views m fuel s g Hr Hd Hp w v Hw Hv) as (_ & _ & (_ & H3 & N3) & _ & (_ & H5 & N5) & (_ & H6 & N6) & _).
    pose proof (body_by_num d _ H3) as (_ & _ & B3' & _). destruct (B3' N3) as (E3 & S3).
    pose proof (body_by_num d _ H5) as (_ & _ & _ & _ & B5' & _). destruct (B5' N5) as (E5 & S5).
    pose proof (body_by_num d _ H6) as (_ & _ & _ & _ & _ & B6' & _). pose proof (B6' N6) as E6.
    pose proof (header_body d _ H3) as L3. rewrite E3 in L3. pose proof (header_body d _ H5) as L5. rewrite E5 in L5.
    pose proof (header_body d _ H6) as L6. rewrite E6 in L6.
    pose proof (file_fields_of d _ H3) as R3. rewrite E3 in R3. pose proof (file_fields_of d _ H5) as R5. rewrite E5 in R5.
    assert (F3 : from_octet d (u_3 v) 6 = octets d (s_offset (snd (u_3 v)) + 5) (s_size (snd (u_3 v)) - 5)) by (unfold from_octet; f_equal; lia).
    assert (F5 : packing d v = octets d (s_offset (snd (u_5 v)) + 5) (s_size (snd (u_5 v)) - 5)) by (unfold packing, from_octet; f_equal; lia).
    rewrite F3, F5. split; [exact E3|]. split; [exact E5|]. split; [exact E6|]. split; [apply R3|]. split; [apply R5|]. split; [apply R5|].
    split; [exact (octets_be_range d _ 4 ltac:(lia))|]. split; [exact (octets_be_range d _ 4 ltac:(lia))|]. lia.
  Qed.

  Lemma decoder_spec : 5 <= s_size (snd (u_7 v)) -> forall m' p sc, exists s', data s' = d /\ decoder_from m' (MkSrc d p sc) v = Ret ((
      let dec b := @Ok decoder grib_error (MkDecoder (grid_points d v) (packed_points d v) (packing_template d v) (packing d v) b (packed_data d v)) in
      if bitmap_indicator d v =? 0 then dec (bitmap_octets d v)
      else if bitmap_indicator d v =? 255 then dec (create_bitmap_for_nonnullable_data (grid_points d v))
      else Err (EDecode BitMapIndicatorUnsupported)), s').
  Proof.
    intros S7 m' p sc.
    destruct (file_views m fuel s g Hr Hd Hp w v Hw Hv) as (_ & _ & (_ & H3 & N3) & _ & (I5 & H5 & N5) & (I6 & H6 & N6) & (I7 & H7 & N7)).
    destruct decoder_fields as (E3 & E5 & E6 & G3 & G5 & T5 & _ & _ & S6 & S5).
    destruct (file_reread m fuel s g Hr Hd Hp _ I5 ltac:(lia) ltac:(lia)) as (_ & R5).
    destruct (file_reread m fuel s g Hr Hd Hp _ I6 ltac:(lia) ltac:(lia)) as (L6 & R6).
    destruct (file_reread m fuel s g Hr Hd Hp _ I7 ltac:(lia) ltac:(lia)) as (_ & R7).
    fold d in R5, R6, R7, L6.
    assert (F5 : packing d v = octets d (s_offset (snd (u_5 v)) + 5) (s_size (snd (u_5 v)) - 5)) by (unfold packing, from_octet; f_equal; lia).
    assert (F7 : packed_data d v = octets d (s_offset (snd (u_7 v)) + 5) (s_size (snd (u_7 v)) - 5)) by (unfold packed_data, from_octet; f_equal; lia).
    assert (Rest : forall b p sc, exists s', data s' = d /\
      (try_src (reread_grib m' (MkSrc d p sc) (snd (u_5 v))) (fun sect5 s2 => try_src (reread_grib m' s2 (snd (u_7 v))) (fun sect7 s3 =>
        Ret (@Ok decoder grib_error (MkDecoder (grid_points d v) (packed_points d v) (packing_template d v) sect5 b sect7), s3))))
      = Ret (Ok (MkDecoder (grid_points d v) (packed_points d v) (packing_template d v) (packing d v) b (packed_data d v)), s')).
    { intros b p1 sc1. destruct (R5 m' p1 sc1) as ([d2 p2 sc2] & E2 & Hd2). cbn [data] in Hd2. subst d2.
      destruct (R7 m' p2 sc2) as (s3 & E7 & Hd3). exists s3. split; [exact Hd3|].
      unfold try_src, reread_grib. rewrite E2. cbn [bind]. rewrite E7. cbn [bind]. rewrite F5, F7. reflexivity. }
    unfold decoder_from. rewrite E3, E5, E6, G3. cbn [bind]. unfold decoder_bitmap.
    destruct (bitmap_indicator d v =? 0) eqn:Z0; [|destruct (bitmap_indicator d v =? 255) eqn:Z255].
    - destruct (R6 m' p sc) as ([d1 p1 sc1] & E1 & Hd1). cbn [data] in Hd1. subst d1.
      destruct (Rest (bitmap_octets d v) p1 sc1) as (s' & Hs' & E). exists s'. split; [exact Hs'|]. rewrite <- E.
      unfold try_src at 2, reread_grib at 1. rewrite E1. cbn [bind].
      pose proof (proj1 H6) as P6. pose proof (zlen_octets d (s_offset (snd (u_6 v)) + 5) (s_size (snd (u_6 v)) - 5) ltac:(lia) ltac:(lia)) as Z6.
      rewrite slice_from_octets by lia. cbn [bind]. unfold try_src at 1. cbn [bind]. rewrite G5, T5. cbn [bind].
      rewrite octets_octets by lia.
      replace (octets d (s_offset (snd (u_6 v)) + 5 + 1) (zlen (octets d (s_offset (snd (u_6 v)) + 5) (s_size (snd (u_6 v)) - 5)) - 1)) with (bitmap_octets d v); [reflexivity|].
      unfold bitmap_octets, from_octet. f_equal; lia.
    - destruct (Rest (create_bitmap_for_nonnullable_data (grid_points d v)) p sc) as (s' & Hs' & E). exists s'. split; [exact Hs'|]. rewrite <- E.
      unfold try_src at 1. cbn [bind]. rewrite G5, T5. reflexivity.
    - eexists. split; [|reflexivity]. reflexivity.
  Qed.
End View.

Lemma ones_firstn : forall n l, (ones (firstn n l) <= ones l)%nat.
Proof.
  induction n as [|n IH]; intros [|b l]; cbn [firstn]; try (unfold ones; cbn; lia).
  specialize (IH l). unfold ones in *. destruct b; cbn [filter length]; lia.
Qed.
Lemma Forall2_place : forall A B (R : option A -> B -> Prop) nan bits pts vals more, R None nan ->
  Forall2 (fun p x => R (Some p) x) pts vals -> (ones bits <= length pts)%nat ->
  Forall2 R (place None bits (map Some pts)) (place nan bits (vals ++ more)).
Proof.
  intros A B R nan bits. induction bits as [|b bits IH]; intros pts vals more Hn H Ho; cbn [place]; [constructor|].
  destruct b.
  - destruct H as [|p x pts vals Hp H]; [unfold ones in Ho; cbn in Ho; lia|]. cbn [map app]. constructor; [exact Hp|].
    apply IH; auto. unfold ones in *. cbn [filter length] in Ho. lia.
  - constructor; [exact Hn|]. apply IH; auto.
Qed.

Lemma firstn_repeat_ge : forall A (a : A) n k, (n <= k)%nat -> firstn n (repeat a k) = repeat a n.
Proof. intros A a n. induction n as [|n IH]; intros [|k] H; cbn; try lia; try reflexivity. now rewrite IH by lia. Qed.
Lemma firstn_repeat_min : forall A (a : A) n k, firstn n (repeat a k) = repeat a (Nat.min n k).
Proof. intros A a n. induction n as [|n IH]; intros [|k]; cbn; try reflexivity. now rewrite IH. Qed.
Section View2.
  Variables (m : mode) (fuel : nat) (s : src) (g : grib2) (w : submessage Z) (v : view).
  Hypothesis Hr : grib2_read m fuel s = Ret (Ok g).
  Hypothesis Hd : zlen (data s) < 2 ^ 63.
  Hypothesis Hp : 0 <= pos s <= zlen (data s).
  Hypothesis Hw : In w (g_subs g).
  Hypothesis Hv : make_view g w = Some v.
  Hypothesis H7 : 5 <= s_size (snd (u_7 v)).
  Let d := data s.

  Definition the_decoder (b : list byte) : decoder :=
    MkDecoder (grid_points d v) (packed_points d v) (packing_template d v) (packing d v) b (packed_data d v).

  (** Values of the template, placed by the bitmap. *)
  Lemma decode_masked : forall A (R : option A -> f32 -> Prop) c m' m'' p sc vals pts vs more,
    mask_ok d v ->
    (forall b, template_values c m'' (the_decoder b) = Ret (Ok vals)) -> Run vals (vs ++ more) End ->
    Forall2 (fun p x => R (Some p) x) pts vs -> R None f32_nan ->
    ones (mask d v) = length pts ->
    exists dec s' it out, decoder_from m' (MkSrc d p sc) v = Ret (Ok dec, s') /\ data s' = d /\
      dispatch c m'' dec = Ret (Ok it) /\ Run it out End /\ decodes_to d v R pts out /\
      (more = [] -> bitmap_indicator d v = 255 -> zlen out = grid_points d v).
  Proof.
    intros A R c m' m'' p sc vals pts vs more Hm Hc HR HF Hn Ho.
    destruct (decoder_fields m fuel s g w v Hr Hd Hp Hw Hv) as (_ & _ & _ & _ & _ & _ & Hg & _). fold d in Hg.
    set (b := if bitmap_indicator d v =? 0 then bitmap_octets d v else create_bitmap_for_nonnullable_data (grid_points d v)).
    set (n := Z.to_nat (grid_points d v)).
    assert (Hb : exists s', data s' = d /\ decoder_from m' (MkSrc d p sc) v = Ret (Ok (the_decoder b), s')).
    { destruct (decoder_spec m fuel s g w v Hr Hd Hp Hw Hv H7 m' p sc) as (s' & Hs & E). exists s'. split; [exact Hs|].
      fold d in E. rewrite E. unfold b. destruct Hm as [Hm|(Hm & _)]; rewrite Hm; reflexivity. }
    destruct Hb as (s' & Hs' & Ed).
    assert (Hl : 0 <= grid_points d v <= 8 * zlen b).
    { unfold b. destruct Hm as [Hm|(Hm & Hm2)]; rewrite Hm; cbn [Z.eqb]; [rewrite create_bitmap_length by lia|]; lia. }
    assert (Hk : firstn n (bits_of_bytes b) = mask d v).
    { unfold mask, b, n. destruct Hm as [Hm|(Hm & Hm2)]; rewrite Hm; cbn [Z.eqb Pos.eqb]; [|reflexivity].
      rewrite create_bitmap_bits by lia. apply firstn_repeat_ge. lia. }
    destruct (bitmap_iter_run _ f32_nan b vals _ End _ Hl HR) as (it & Eit & HRun).
    set (bits := if grid_points d v <? 8 then firstn (Z.to_nat (grid_points d v)) (bits_of_bytes b) else bits_of_bytes b) in *.
    exists (the_decoder b), s', it, (place f32_nan bits (vs ++ more)).
    split; [exact Ed|]. split; [exact Hs'|]. split.
    { unfold dispatch. rewrite Hc. cbn [bind]. cbn [d_bitmap d_total the_decoder]. rewrite Eit. reflexivity. }
    split; [destruct (ones bits <=? length (vs ++ more))%nat; exact HRun|].
    assert (Hk' : firstn n bits = mask d v).
    { unfold bits. fold n. destruct (grid_points d v <? 8); [rewrite firstn_firstn, Nat.min_id|]; exact Hk. }
    pose proof (FileP.F2_length _ _ _ _ _ HF) as Hlen.
    assert (Hlm : length (mask d v) = n).
    { rewrite <- Hk. rewrite firstn_length, bits_of_bytes_length. unfold zlen in Hl. lia. }
    assert (Hlp : length (place f32_nan (mask d v) (vs ++ more)) = n).
    { rewrite place_length; [exact Hlm|]. rewrite app_length. lia. }
    split.
    2: { intros -> H255. rewrite app_nil_r in *.
      assert (Hbt : bits = repeat true (length bits)).
      { unfold bits, b. rewrite H255. cbn [Z.eqb]. rewrite create_bitmap_bits by lia.
        destruct (grid_points d v <? 8); rewrite ?firstn_repeat_min, !repeat_length; reflexivity. }
      assert (Hom : ones (mask d v) = n). { unfold mask. rewrite H255. cbn [Z.eqb Pos.eqb]. rewrite ones_repeat_true. reflexivity. }
      rewrite Hbt, place_repeat_true.
      assert (n <= length bits)%nat.
      { rewrite <- Hlm, <- Hk', firstn_length. lia. }
      unfold zlen. rewrite firstn_length. lia. }
    unfold decodes_to. fold n. rewrite place_prefix, Hk'. split; [exact Hlp|]. split.
    { unfold grid_of. apply Forall2_place; [exact Hn|exact HF|lia]. }
    assert (Hall : (length bits <= n)%nat -> place f32_nan bits (vs ++ more) = place f32_nan (mask d v) (vs ++ more)).
    { intros H. rewrite <- Hk'. rewrite firstn_all2 by exact H. reflexivity. }
    assert (Lb : length (bits_of_bytes b) = (8 * length b)%nat) by apply bits_of_bytes_length.
    repeat split.
    - intros H. apply Hall. unfold bits. replace (grid_points d v <? 8) with true by lia. rewrite firstn_length. fold n. lia.
    - intros H1 H2. apply Hall. unfold bits. fold n. destruct (grid_points d v <? 8); [rewrite firstn_length; lia|].
      unfold b in Lb |- *. rewrite H1 in Lb |- *. cbn [Z.eqb] in Lb |- *. rewrite create_bitmap_bits, repeat_length by lia. lia.
    - intros H1 H2. apply Hall. unfold bits. fold n. destruct (grid_points d v <? 8); [rewrite firstn_length; lia|].
      rewrite Lb. unfold b. rewrite H1. cbn [Z.eqb]. unfold zlen in H2. lia.
  Qed.
End View2.
