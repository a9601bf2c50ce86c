(** C83: from the file to the values where [usize] has 32 bits. *)
From Coq Require Import Lia ZifyBool ZifyNat.
From Verif Require Import Model.Base Model.Errors Model.F32 Model.Bitmap Model.Sections Model.Reader Model.Parser Model.Context Model.Decoder Model.Word Model.WordDecode.
From Verif Require Import Spec.Bits Spec.ReaderS Spec.DecodeS Spec.WordS Proofs.BaseLemmas Proofs.WordX Proofs.BitmapP Proofs.DecodeP Proofs.WordDecodeX.
From Verif Require Proofs.ViewX.
Ltac Zify.zify_post_hook ::= Z.div_mod_to_equations.

Lemma octets_le d p n : zlen (octets d p n) <= zlen d.
Proof. unfold octets, zlen. rewrite firstn_length, skipn_length. lia. Qed.
Lemma file_small m fuel d p g c : zlen d < 2 ^ 28 -> 0 <= p <= zlen d -> grib2_read m fuel (MkSrc d p []) = Ret (Ok g) -> (m = Wrapping -> Forall seven_ok (g_sections g)) ->
  forall w v, In w (g_subs g) -> make_view g w = Some v -> grid_points d v <= 2 ^ 32 - 8 -> (forall b, png_buffer c (packed_data d v) = Some b -> zlen b < 2 ^ 28) ->
  forall m' q sc dec s', decoder_from m' (MkSrc d q sc) v = Ret (Ok dec, s') -> small_data c dec.
Proof.
  intros Hl Hp H H7 w v Hw Hv Hg Hb m' q sc dec s' E. destruct (file_within m fuel d p g ltac:(lia) Hp H H7) as (F7 & _). rewrite Forall_forall in F7.
  destruct (ViewX.file_views m fuel _ g H ltac:(cbn [data]; lia) ltac:(cbn [pos data]; lia) w v Hw Hv) as (_ & _ & _ & _ & _ & _ & (I7 & K7 & N7)).
  destruct (decoder_fields m fuel _ g w v H ltac:(cbn [data]; lia) ltac:(cbn [pos data]; lia) Hw Hv) as (_ & _ & _ & _ & _ & _ & G & _). cbn [data] in *.
  destruct (decoder_spec m fuel _ g w v H ltac:(cbn [data]; lia) ltac:(cbn [pos data]; lia) Hw Hv (F7 _ I7 N7) m' q sc) as (s2 & _ & X). cbn [data] in X. rewrite X in E.
  pose proof (octets_le d (s_offset (snd (u_7 v)) + 6 - 1) (s_size (snd (u_7 v)) - 6 + 1)) as L7. pose proof (octets_le d (s_offset (snd (u_6 v)) + 7 - 1) (s_size (snd (u_6 v)) - 7 + 1)) as L6.
  unfold small_data. destruct (bitmap_indicator d v =? 0).
  - assert (Q : dec = MkDecoder (grid_points d v) (packed_points d v) (packing_template d v) (packing d v) (bitmap_octets d v) (packed_data d v)) by congruence.
    subst dec. cbn [d_sect7 d_bitmap]. unfold packed_data, bitmap_octets, from_octet in *. repeat split; [lia|lia|exact Hb].
  - destruct (bitmap_indicator d v =? 255); [|congruence].
    assert (Q : dec = MkDecoder (grid_points d v) (packed_points d v) (packing_template d v) (packing d v) (create_bitmap_for_nonnullable_data (grid_points d v)) (packed_data d v)) by congruence.
    subst dec. cbn [d_sect7 d_bitmap]. rewrite create_bitmap_length by lia. unfold packed_data, from_octet in *. repeat split; [lia|lia|exact Hb].
Qed.
Theorem file_values m fuel d p g c : zlen d < 2 ^ 28 -> 0 <= p <= zlen d -> grib2_read m fuel (MkSrc d p []) = Ret (Ok g) -> (m = Wrapping -> Forall seven_ok (g_sections g)) ->
  forall w v, In w (g_subs g) -> make_view g w = Some v -> grid_points d v <= 2 ^ 32 - 8 -> (forall b, png_buffer c (packed_data d v) = Some b -> zlen b < 2 ^ 28) ->
  forall m' q sc dec s' it l, decoder_from m' (MkSrc d q sc) v = Ret (Ok dec, s') -> (d_template dec = 200 -> digits_fit dec) -> dispatch c m' dec = Ret (Ok it) -> Run it l End ->
  exists it', word_read U32 m fuel (MkSrc d p []) = Ret (Ok g) /\ word_decoder U32 m' (MkSrc d q sc) v = Ret (Ok dec, s') /\ wdispatch U32 false c m' dec = Ret (Ok it') /\ Run it' l End.
Proof.
  intros Hl Hp H H7 w v Hw Hv Hg Hb m' q sc dec s' it l E Hf Hd R.
  destruct (dispatch_ok c m' dec it (file_small m fuel d p g c Hl Hp H H7 w v Hw Hv Hg Hb m' q sc dec s' E) Hf Hd) as (it' & X & N).
  exists it'. split; [apply WordX.read_same; auto; lia|]. split; [rewrite (WordX.decoder_same m fuel d p g ltac:(lia) Hp H H7 w v Hw Hv); exact E|]. split; [exact X|]. apply N; auto.
Qed.
(** A bitmap for more points than 32 bits can count. *)
Theorem bitmap_wraps c m d it : small_data c (MkDecoder (d_total d) (d_encoded d) (d_template d) (d_sect5 d) [] (d_sect7 d)) -> (d_template d = 200 -> digits_fit d) ->
  zlen (d_bitmap d) = 2 ^ 29 -> 0 < d_total d <= 2 ^ 32 -> dispatch c m d = Ret (Ok it) ->
  wdispatch U32 false c m d = match m with Checked => Panic | Wrapping => Ret (Err (EDecode LengthMismatch)) end.
Proof.
  intros (A & _ & C) D Hz T E. cbn [d_sect7] in A, C. assert (X : alike m (template_values c m d) (wtemplate_values U32 false c m d)).
  { set (d' := MkDecoder (d_total d) (d_encoded d) (d_template d) (d_sect5 d) [] (d_sect7 d)). assert (S : small_data c d') by (repeat split; auto; cbn; lia). exact (template_same c m d' S D). }
  unfold dispatch in E. unfold wdispatch. destruct (template_values c m d) as [[v|e]| |]; cbn [bind] in E; try discriminate. destruct X as (v' & -> & _). cbn [bind]. rewrite Hz.
  destruct m; [reflexivity|]. change (arith Wrapping U32 (2 ^ 29 * 8)) with (@Ret Z 0). cbn [bind]. replace (0 <? d_total d) with true by lia. reflexivity.
Qed.
